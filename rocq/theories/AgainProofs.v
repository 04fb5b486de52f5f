(* C80 *)
From Verif Require Import Base BaseProofs Lit NumModel TextModel XmlModel WsmanModel ShellModel ShellSpec FragModel MsgModel UtilModel TransModel PoolModel PoolSpec PoolProofs PoolProofs2 PoolProofs3 PoolProofs4 PoolProofs5 AgainModel AgainSpec.
Require Import Lia ZifyBool ZifyNat ZifyN.

Section Again.
  Context {Obj Cmd HS RK : Type} (E : env Obj Cmd HS RK).
  Notation world := (world Obj Cmd HS RK).
  (* the results of every pipeline are as they were *)
  Definition idle (w w' : world) : Prop :=
    length (w_heap w') = length (w_heap w) /\ forall k, results (the_ps k w') = results (the_ps k w) /\ ps_had_errors (the_ps k w') = ps_had_errors (the_ps k w) /\ ps_commands (the_ps k w') = ps_commands (the_ps k w) /\ ps_id (the_ps k w') = ps_id (the_ps k w).
  Lemma idle_refl w : idle w w.
  Proof. split; [reflexivity|]. intros k. repeat split. Qed.
  Lemma idle_trans a b c : idle a b -> idle b c -> idle a c.
  Proof. intros (L1 & H1) (L2 & H2). split; [congruence|]. intros k. destruct (H1 k) as (A & B & C & D), (H2 k) as (A' & B' & C' & D'). repeat split; congruence. Qed.
  Lemma idle_heap w w' : w_heap w' = w_heap w -> idle w w'.
  Proof. intros H. unfold idle, the_ps. rewrite H. apply (idle_refl w). Qed.
  Lemma idle_updp f : steps idle (@updp Obj Cmd HS RK f).
  Proof. intros w. apply idle_heap; reflexivity. Qed.
  Lemma idle_observe e : steps idle (@observe Obj Cmd HS RK e).
  Proof. intros w. apply idle_heap; reflexivity. Qed.
  Lemma idle_updps r f : (forall p, results (f p) = results p /\ ps_had_errors (f p) = ps_had_errors p /\ ps_commands (f p) = ps_commands p /\ ps_id (f p) = ps_id p) -> steps idle (@updps Obj Cmd HS RK r f).
  Proof.
    intros H w. unfold idle, updps, upd, the_ps. cbn [snd w_heap set_w_heap]. rewrite list_upd_length. split; [reflexivity|]. intros k.
    destruct (Nat.eq_dec k r) as [->|Ne]; [|rewrite (nth_list_upd_other) by congruence; repeat split].
    destruct (Nat.lt_ge_cases r (length (w_heap w))) as [L|L].
    - rewrite nth_list_upd_same by exact L. apply H.
    - rewrite !nth_overflow by (rewrite ?list_upd_length; exact L). repeat split.
  Qed.
  Lemma idle_shell {A} (f : (list (sreq * wresult) -> sreq -> wresult) -> shell -> list (sreq * wresult) -> out A * list (sreq * wresult)) : steps idle (on_shell E f).
  Proof. intros w. unfold on_shell. destruct (f _ _ _). apply idle_heap; reflexivity. Qed.
  Ltac prim := first [apply idle_shell | apply idle_observe | apply idle_updp | apply idle_updps; intros ?; repeat split].
  Ltac go := walk idle_refl idle_trans prim.
  Lemma idle_inputs r l : forall c, steps idle (send_inputs E r c l).
  Proof. induction l as [|n l IH]; intros [i|]; cbn [send_inputs]; unfold fragment_many, send; go. apply IH. Qed.
  Lemma idle_begin r a : steps idle (begin_invoke E r a).
  Proof. unfold begin_invoke, ps_invoke, fragment_one, first_fragment, send. go; apply idle_inputs. Qed.

  Lemma cleared r w : (r < length (w_heap w))%nat -> let w' := snd (@clear_streams Obj Cmd HS RK r w) in
    fst (clear_streams r w) = Ret tt /\ results (the_ps r w') = [[]; []; []; []; []; []; []] /\ ps_commands (the_ps r w') = ps_commands (the_ps r w) /\ rest_same (the_ps r w) (the_ps r w') /\
    (forall k, k <> r -> the_ps k w' = the_ps k w) /\ w_pool w' = w_pool w /\ w_hist w' = w_hist w /\ w_log w' = w_log w.
  Proof.
    intros L. unfold clear_streams, updps, upd, the_ps. cbn [fst snd w_heap set_w_heap w_pool w_hist w_log]. rewrite nth_list_upd_same by exact L.
    split; [reflexivity|]. split; [reflexivity|]. split; [reflexivity|]. split; [repeat split|]. split; [|repeat split]. intros k Ne. apply nth_list_upd_other. congruence.
  Qed.
  Lemma commands_cleared r w : (r < length (w_heap w))%nat -> let w' := snd (@clear_commands Obj Cmd HS RK r w) in
    fst (clear_commands r w) = Ret tt /\ ps_commands (the_ps r w') = [] /\ results (the_ps r w') = results (the_ps r w) /\ rest_same (the_ps r w) (the_ps r w') /\
    (forall k, k <> r -> the_ps k w' = the_ps k w) /\ w_pool w' = w_pool w /\ w_hist w' = w_hist w /\ w_log w' = w_log w.
  Proof.
    intros L. unfold clear_commands, updps, upd, the_ps. cbn [fst snd w_heap set_w_heap w_pool w_hist w_log]. rewrite nth_list_upd_same by exact L.
    split; [reflexivity|]. split; [reflexivity|]. split; [reflexivity|]. split; [repeat split|]. split; [|repeat split]. intros k Ne. apply nth_list_upd_other. congruence.
  Qed.
End Again.
