(* The registry of pipelines (C47). *)
From Verif Require Import Base BaseProofs Lit NumModel TextModel XmlModel WsmanModel ShellModel ShellSpec FragModel MsgModel UtilModel TransModel PoolModel PoolSpec PoolProofs PoolProofs2 PoolProofs3 PoolProofs4 PoolProofs5.
Require Import Lia ZifyBool ZifyNat ZifyN.

Lemma in_dict_set {V} k (v : V) d x y : In (x, y) (dict_set str_eqb k v d) -> (x = k /\ y = v) \/ In (x, y) d.
Proof.
  induction d as [|[a b] d IH]; cbn [dict_set In].
  - intros [H|[]]. apply pair_inj in H as [-> ->]. auto.
  - destruct (str_eqb k a) eqn:Ek; cbn [In].
    + apply str_eqb_spec in Ek. subst a. intros [H|H]; [apply pair_inj in H as [<- <-]; auto|auto].
    + intros [H|H]; [auto|]. destruct (IH H); auto.
Qed.
Lemma in_dict_del {V} k (d : list (list N * V)) x y : In (x, y) (dict_del str_eqb k d) -> x <> k /\ In (x, y) d.
Proof.
  induction d as [|[a b] d IH]; cbn [dict_del In]; [tauto|].
  destruct (str_eqb k a) eqn:Ek.
  - intros H. destruct (IH H). auto.
  - cbn [In]. intros [H|H]; [|destruct (IH H); auto]. apply pair_inj in H as [<- <-]. split; [|auto]. intros C. subst. rewrite str_eqb_refl in Ek. discriminate.
Qed.
Lemma dict_get_in {V} k (v : V) d : dict_get str_eqb k d = Some v -> In (k, v) d.
Proof.
  induction d as [|[a b] d IH]; cbn [dict_get In]; [discriminate|]. destruct (str_eqb k a) eqn:Ek; intros H; [|auto].
  apply str_eqb_spec in Ek. apply Some_inj in H. subst. auto.
Qed.

Section Registry.
  Context {Obj Cmd HS RK : Type} (E : env Obj Cmd HS RK).
  Notation world := (world Obj Cmd HS RK).
  Notation M A := (world -> out A * world).

  Definition reg_ok (w : world) : Prop :=
    forall id r, In (id, r) (rp_pipelines (w_pool w)) -> (r < length (w_heap w))%nat /\ ps_id (the_ps r w) = id.
  Definition listed (r : nat) (w : world) : Prop := In r (map snd (rp_pipelines (w_pool w))).
  Definition ids (w w' : world) : Prop :=
    (length (w_heap w) <= length (w_heap w'))%nat /\ forall r, (r < length (w_heap w))%nat -> ps_id (the_ps r w') = ps_id (the_ps r w).
  (* [k]: a pipeline not started meanwhile *)
  Context (k : option nat).
  Definition reg_kept (w w' : world) : Prop :=
    ids w w' /\ (reg_ok w -> reg_ok w') /\ (forall r, k = Some r -> (r < length (w_heap w))%nat -> ~ listed r w -> ~ listed r w').
  Lemma reg_refl w : reg_kept w w.
  Proof. split; [split; auto|]. auto. Qed.
  Lemma reg_trans a b c : reg_kept a b -> reg_kept b c -> reg_kept a c.
  Proof.
    intros [[A1 A2] [A3 A4]] [[B1 B2] [B3 B4]]. split; [|split].
    - split; [lia|]. intros r H. rewrite B2 by lia. auto.
    - auto.
    - intros r Hk H N. apply (B4 r Hk); [lia|]. apply (A4 r Hk); auto.
  Qed.
  Lemma reg_silent w w' : w_heap w' = w_heap w -> rp_pipelines (w_pool w') = rp_pipelines (w_pool w) -> reg_kept w w'.
  Proof. intros H P. unfold reg_kept, ids, reg_ok, listed, the_ps. rewrite H, P. split; [split; auto|]. auto. Qed.
  Lemma reg_ids w w' : ids w w' -> rp_pipelines (w_pool w') = rp_pipelines (w_pool w) -> reg_kept w w'.
  Proof.
    intros I P. split; [exact I|]. unfold reg_ok, listed. rewrite P. split; [|auto]. destruct I as [I1 I2].
    intros G id r H. destruct (G id r H) as [L X]. split; [lia|]. rewrite I2; auto.
  Qed.
  Lemma reg_updps r f : (forall p, ps_id (f p) = ps_id p) -> steps reg_kept (updps r f).
  Proof.
    intros Hf w. apply reg_ids; [|reflexivity]. unfold ids, updps, upd, the_ps. cbn [snd w_heap set_w_heap]. rewrite list_upd_length. split; [auto|].
    intros j Hj. destruct (Nat.eq_dec r j) as [<-|Ne]; [rewrite nth_list_upd_same by exact Hj; apply Hf|rewrite nth_list_upd_other by exact Ne; reflexivity].
  Qed.
  Lemma reg_append p : steps reg_kept (upd (fun w => set_w_heap (w_heap w ++ [p]) w)).
  Proof.
    intros w. apply reg_ids; [|reflexivity]. unfold ids, upd, the_ps. cbn [snd w_heap set_w_heap]. rewrite app_length. split; [cbn; lia|].
    intros j Hj. rewrite app_nth1 by exact Hj. reflexivity.
  Qed.
  Lemma reg_updp f : (forall x, rp_pipelines (f x) = rp_pipelines x) -> steps reg_kept (updp f).
  Proof. intros H w. apply reg_silent; [reflexivity|apply H]. Qed.
  Lemma reg_unregister id : steps reg_kept (unregister id).
  Proof.
    intros w. unfold unregister, updp, upd. cbn [snd]. split; [|split].
    - split; auto.
    - intros G i r H. cbn in H. apply in_dict_del in H as [_ H]. exact (G i r H).
    - intros r _ _ N C. apply N. unfold listed in *. cbn in C. apply in_map_iff in C as [[i j] [<- H]]. apply in_dict_del in H as [_ H].
      apply in_map_iff. exists (i, j). auto.
  Qed.
  Lemma reg_handle pl m : steps reg_kept (handle E pl m).
  Proof.
    intros w. destruct (handle_effect E pl m w) as [F _ _ P _ _ _ _ _]. apply reg_ids; [|apply (fr_pipelines _ _ F)].
    split; [rewrite (fr_heap _ _ F); lia|]. intros r _. destruct (P r) as [S _]. apply S.
  Qed.
  Lemma reg_shell {A} (f : (history -> sreq -> wresult) -> shell -> history -> out A * history) : steps reg_kept (on_shell E f).
  Proof. intros w. unfold on_shell. destruct (f _ _ _). apply reg_silent; reflexivity. Qed.
  Lemma reg_shell_state {A} (f : (history -> sreq -> wresult) -> shell -> history -> out A * shell * history) : steps reg_kept (on_shell_state E f).
  Proof. intros w. unfold on_shell_state. destruct (f _ _ _) as [[r s] h]. apply reg_silent; reflexivity. Qed.
  Lemma reg_raw q : steps reg_kept (request_raw E q).
  Proof. intros w. unfold request_raw, call. apply reg_silent; reflexivity. Qed.
  Lemma reg_observe e : steps reg_kept (observe e).
  Proof. intros w. apply reg_silent; reflexivity. Qed.
  Lemma reg_rc rc : steps reg_kept (updp (set_rp_receiver rc)).
  Proof. intros w. apply reg_silent; reflexivity. Qed.
  Lemma reg_receive id t : steps reg_kept (receive E id t).
  Proof. apply (steps_receive E reg_kept reg_refl reg_trans); [exact reg_handle|exact reg_rc|intros; apply reg_shell]. Qed.
  Lemma reg_until fuel done : steps reg_kept (receive_until E fuel done).
  Proof. apply (steps_receive_until E reg_kept reg_refl reg_trans); [exact reg_handle|exact reg_rc|intros; apply reg_shell]. Qed.
  Lemma reg_wait fuel start : steps reg_kept (key_wait E fuel start).
  Proof. apply (steps_key_wait E reg_kept reg_refl reg_trans); [exact reg_handle|exact reg_rc|intros; apply reg_shell]. Qed.
  Lemma reg_parse d pl : steps reg_kept (parse_responses E d pl).
  Proof. apply (steps_parse E reg_kept reg_refl reg_trans); [exact reg_handle|exact reg_rc]. Qed.
  Lemma reg_output r f : (forall p : ps Obj Cmd, exists l, f p = set_ps_output (ps_output p ++ l) p) -> steps reg_kept (updps r f).
  Proof. intros H. apply reg_updps. intros p. destruct (H p) as [l ->]. reflexivity. Qed.
  Lemma reg_poll r t : steps reg_kept (poll_invoke E r t).
  Proof. apply (steps_poll E reg_kept reg_refl reg_trans); [exact reg_handle|exact reg_rc|intros; apply reg_shell|exact reg_output]. Qed.
  Lemma reg_end fuel r : steps reg_kept (end_invoke E fuel r).
  Proof. apply (steps_end E reg_kept reg_refl reg_trans); [exact reg_handle|exact reg_rc|intros; apply reg_shell|exact reg_output]. Qed.
  Lemma reg_alive t : steps reg_kept (is_alive E t).
  Proof.
    intros w. unfold is_alive.
    pose proof (reg_shell (fun srv => get_shell srv t) (set_w_disabled true w)) as K.
    destruct (on_shell E _ (set_w_disabled true w)) as [r w1]. cbn [snd] in K.
    assert (K2 : reg_kept w (set_w_disabled (w_disabled w) w1)).
    { eapply reg_trans; [apply reg_silent; [reflexivity|reflexivity]|]. eapply reg_trans; [exact K|]. apply reg_silent; reflexivity. }
    assert (K3 : reg_kept w (snd ((updp (set_rp_state rs_closed);;; ret false) (set_w_disabled (w_disabled w) w1)))).
    { eapply reg_trans; [exact K2|]. apply reg_silent; reflexivity. }
    destruct r as [d|x].
    - destruct (dict_get str_eqb (lit "State") d) as [[t'|]|]; auto. destruct (str_eqb t' (lit "Disconnected")); auto.
    - destruct (fault_closed x || net_closed x)%bool; auto.
  Qed.
  Ltac reg_prim := first
    [ apply reg_receive | apply reg_until | apply reg_wait | apply reg_parse | apply reg_poll | apply reg_end | apply reg_alive | apply reg_unregister
    | apply reg_shell | apply reg_shell_state | apply reg_raw | apply reg_observe | apply reg_updps; intros; reflexivity
    | apply reg_updp; intros; reflexivity | apply reg_append ].
  Ltac reg_walk := walk reg_refl reg_trans reg_prim.
  Lemma reg_frag1 o pid : steps reg_kept (fragment_one E o pid).
  Proof. unfold fragment_one. reg_walk. Qed.
  Lemma reg_fragn os pid : steps reg_kept (fragment_many E os pid).
  Proof. unfold fragment_many. reg_walk. Qed.
  Lemma reg_inputs r cur rest : steps reg_kept (send_inputs E r cur rest).
  Proof. revert cur; induction rest as [|x rest IH]; intros cur; cbn [send_inputs]; unfold send; reg_walk; first [apply reg_fragn | apply IH]. Qed.
  Lemma bind_at {A B} (a : M A) (f : A -> M B) w : reg_kept w (snd (a w)) ->
    (forall x w1, a w = (Ret x, w1) -> reg_kept w1 (snd (f x w1))) -> reg_kept w (snd (mbind a f w)).
  Proof. intros Ha Hf. unfold mbind. destruct (a w) as [[y | y] w1]; [|exact Ha]. eapply reg_trans; [exact Ha|apply Hf; reflexivity]. Qed.
  Lemma reg_register r (w : world) : (r < length (w_heap w))%nat -> k <> Some r ->
    reg_kept w (set_w_pool (set_rp_pipelines (dict_set str_eqb (ps_id (the_ps r w)) r (rp_pipelines (w_pool w))) (w_pool w)) w).
  Proof.
    intros L Nk. split; [split; auto|]. split.
    - intros G id j H. cbn in H. apply in_dict_set in H as [[-> ->]|H]; [split; auto|exact (G id j H)].
    - intros j Ej Lj N C. apply N. unfold listed in *. cbn in C. apply in_map_iff in C as [[i x] [<- H]]. apply in_dict_set in H as [[-> ->]|H].
      + exfalso. apply Nk. exact Ej.
      + apply in_map_iff. exists (i, x). auto.
  Qed.
  Lemma reg_invoke r o w : (r < length (w_heap w))%nat -> k <> Some r -> reg_kept w (snd (ps_invoke E r o w)).
  Proof.
    intros L Nk. unfold ps_invoke. rewrite mbind_getps. apply bind_at; [apply reg_frag1|]. intros fs w1 F.
    pose proof (reg_frag1 o (Some (ps_id (the_ps r w))) w) as K. rewrite F in K. cbn [snd] in K. destruct K as [[K1 K2] _].
    rewrite mbind_updp. rewrite <- (K2 r L). assert (L1 : (r < length (w_heap w1))%nat) by lia. eapply reg_trans; [exact (reg_register r w1 L1 Nk)|].
    match goal with |- reg_kept ?w2 (snd (?m ?w2)) => assert (W : steps reg_kept m); [|exact (W w2)] end.
    unfold first_fragment, send. reg_walk.
  Qed.
  Lemma reg_op fuel o : (forall r a, o = Begin r a -> k <> Some r) -> forall w,
    (forall r, k = Some r -> (r < length (w_heap w))%nat) -> reg_kept w (snd (run_op E fuel o w)).
  Proof.
    intros Hb w Hk. destruct o; cbn [run_op];
      try (match goal with |- reg_kept ?w2 (snd (?m ?w2)) => assert (W : steps reg_kept m); [|exact (W w2)] end;
        unfold pool_open, pool_close, pool_connect, pool_disconnect, connect_new, connect_existing,
          set_min_runspaces, set_max_runspaces, get_available_runspaces, reset_runspace_state, exchange_keys,
          create_ps, create_nested, ps_stop, ps_close, ps_connect_async, void, ask, new_call,
          send, conn_request, forget, first_fragment; reg_walk; first [apply reg_frag1 | apply reg_fragn]).
    - (* Metadata *)
      unfold void, get_command_metadata. apply bind_at; [|intros; apply reg_refl].
      rewrite mbind_getp. destruct (negb _); [apply reg_refl|].
      unfold create_ps. unfold mbind at 1. rewrite mbind_get, mbind_upd. cbn [ret].
      set (w1 := set_w_heap (w_heap w ++ [new_ps id]) w).
      assert (K1 : reg_kept w w1) by (apply (reg_append (new_ps id) w)).
      eapply reg_trans; [exact K1|].
      apply bind_at.
      + apply reg_invoke; [unfold w1; cbn [w_heap set_w_heap]; rewrite app_length; cbn [length]; lia|]. intros C. specialize (Hk _ C). lia.
      + intros x w2 _.
        match goal with |- reg_kept ?w2 (snd (?m ?w2)) => assert (W : steps reg_kept m); [|exact (W w2)] end. reg_walk.
    - (* Begin *)
      unfold begin_invoke. rewrite mbind_getps. destruct (negb _); [apply reg_refl|].
      destruct (ps_commands (the_ps r w)) as [|c cs] eqn:Ec; [apply reg_refl|].
      assert (L : (r < length (w_heap w))%nat).
      { destruct (Nat.ltb_spec r (length (w_heap w))) as [L|L]; [exact L|]. exfalso. unfold the_ps in Ec. rewrite nth_overflow in Ec by exact L. discriminate Ec. }
      rewrite mbind_getp. apply bind_at.
      + apply reg_invoke; [exact L|]. eapply Hb; reflexivity.
      + intros x w2 _.
        match goal with |- reg_kept ?w2 (snd (?m ?w2)) => assert (W : steps reg_kept m); [|exact (W w2)] end.
        reg_walk; apply reg_inputs.
  Qed.
End Registry.

Section Reachable.
  Context {Obj Cmd HS RK : Type} (E : env Obj Cmd HS RK).
  Notation world := (world Obj Cmd HS RK).
  Notation M A := (world -> out A * world).

  Lemma ops_reg_ok l : forall w : world, reg_ok w -> reg_ok (run_ops E l w).
  Proof.
    induction l as [|[fuel o] l IH]; intros w G; cbn [run_ops]; [exact G|]. apply IH.
    apply (reg_op E None fuel o); [intros; discriminate|intros; discriminate|exact G].
  Qed.
  Lemma stays_unlisted r l : (forall fuel a, ~ In (fuel, Begin r a) l) -> forall w : world, (r < length (w_heap w))%nat -> ~ listed r w -> ~ listed r (run_ops E l w).
  Proof.
    induction l as [|[fuel o] l IH]; intros Hl w L N; cbn [run_ops]; [exact N|].
    assert (K : reg_kept (Some r) w (snd (run_op E fuel o w))).
    { apply reg_op.
      - intros r0 a -> C. apply Some_inj in C. subst r0. apply (Hl fuel a). left; reflexivity.
      - intros r0 C. apply Some_inj in C. subst. exact L. }
    destruct K as [[K1 _] [_ K2]]. apply IH; [intros f a C; apply (Hl f a); right; exact C|lia|]. apply (K2 r eq_refl L N).
  Qed.
  Lemma removed_unlisted r (w w' : world) : reg_ok w -> rp_pipelines (w_pool w') = dict_del str_eqb (ps_id (the_ps r w)) (rp_pipelines (w_pool w)) -> ~ listed r w'.
  Proof.
    intros G P C. unfold listed in C. rewrite P in C. apply in_map_iff in C as [[i j] [Ej H]]. cbn [snd] in Ej. subst j.
    apply in_dict_del in H as [Ni H]. destruct (G _ _ H) as [_ X]. apply Ni. symmetry. exact X.
  Qed.

  (* ---- disconnecting ---- *)
  Lemma list_upd_states rs : forall (w w' : world) x, each (fun kv : list N * nat => updps (snd kv) (set_ps_state pl_disconnected)) rs w = (x, w') ->
    x = Ret tt /\ w_pool w' = w_pool w /\ length (w_heap w') = length (w_heap w) /\ w_hist w' = w_hist w /\ w_log w' = w_log w /\
    (forall r, settled (the_ps r w) (the_ps r w')) /\
    (forall r, (r < length (w_heap w))%nat -> In r (map snd rs) -> ps_state (the_ps r w') = pl_disconnected) /\
    (forall r, (ps_state (the_ps r w) = pl_disconnected \/ ~ In r (map snd rs)) -> ps_state (the_ps r w') = ps_state (the_ps r w)).
  Proof.
    induction rs as [|[i j] rs IH]; intros w w' x H; cbn [each] in H.
    - unfold ret in H. apply pair_inj in H as [<- <-]. repeat (split; [first [reflexivity | intros; apply settled_refl | intros ? ? []]|]). reflexivity.
    - rewrite mbind_updps in H. cbn [snd] in H. set (w1 := set_w_heap _ w) in H.
      destruct (IH _ _ _ H) as (-> & P & Lh & Hh & Hl & S & D & U). split; [reflexivity|]. split; [exact P|].
      assert (L1 : length (w_heap w1) = length (w_heap w)) by (unfold w1; cbn [w_heap set_w_heap]; apply list_upd_length).
      split; [congruence|]. split; [exact Hh|]. split; [exact Hl|].
      assert (T : forall r, the_ps r w1 = the_ps r w \/ (r = j /\ (r < length (w_heap w))%nat /\ the_ps r w1 = set_ps_state pl_disconnected (the_ps r w))).
      { intros r. destruct (Nat.eq_dec r j) as [-> |Ne]; [|left; apply the_ps_upd_other; congruence].
        destruct (Nat.ltb_spec j (length (w_heap w))) as [Lj|Lj]; [right; split; [reflexivity|]; split; [exact Lj|]; apply the_ps_upd_same; exact Lj|].
        left. unfold w1, the_ps. cbn [w_heap set_w_heap]. rewrite list_upd_beyond by exact Lj. reflexivity. }
      split.
      { intros r. specialize (S r). destruct (T r) as [Er|[_ [_ Er]]]; rewrite Er in S; exact S. }
      split.
      + intros r L I. cbn [map In snd] in I. destruct (in_dec Nat.eq_dec r (map snd rs)) as [Ir|Ir]; [apply D; [lia|exact Ir]|].
        destruct I as [<- |I]; [|contradiction]. rewrite U by (right; exact Ir). unfold w1. rewrite the_ps_upd_same by exact L. reflexivity.
      + intros r Hr. cbn [map In snd] in Hr. destruct (T r) as [Er|[-> [_ Er]]].
        * rewrite U; [rewrite Er; reflexivity|]. rewrite Er. tauto.
        * destruct Hr as [Hr|Hr]; [|exfalso; apply Hr; left; reflexivity]. rewrite U; [rewrite Er, Hr; reflexivity|]. left. rewrite Er. reflexivity.
  Qed.
  Lemma filter_all {A} (f : A -> bool) l : (forall x, In x l -> f x = true) -> filter f l = l.
  Proof. induction l as [|x l IH]; intros H; cbn [filter]; [reflexivity|]. rewrite (H x (or_introl eq_refl)). rewrite IH; [reflexivity|]. intros y Hy. apply H. right; exact Hy. Qed.
  Lemma disconnect_done (w w' : world) : reg_ok w -> rp_state (w_pool w) = rs_opened -> pool_disconnect E w = (Ret tt, w') ->
    rp_state (w_pool w') = rs_disconnected /\ rp_pipelines (w_pool w') = rp_pipelines (w_pool w) /\ reg_ok w' /\
    (forall r, listed r w -> ps_state (the_ps r w') = pl_disconnected) /\
    create_disconnected w' = (Ret (map snd (rp_pipelines (w_pool w))), w') /\
    exists q b, requests w w' [(q, WBody b)] /\ q_op q = OpDisconnect /\ q_selectors q = Some (shell_selector (or_empty (sh_id (rp_shell (w_pool w))))).
  Proof.
    intros G S H. unfold pool_disconnect in H. rewrite mbind_getp, S in H. change (Z.eqb rs_opened rs_disconnected) with false in H.
    change (negb (Z.eqb rs_opened rs_opened)) with false in H. cbv iota in H. rewrite mbind_getp in H.
    match type of H with mbind (conn_request E ?op ?b ?o ?s) _ _ = _ => destruct (conn_effect E op b o s w) as [q [x [Ex [_ [O [_ [_ [Sl _]]]]]]]] end.
    unfold mbind at 1 in H. rewrite Ex in H. destruct x as [b| | |]; try (exfalso; congruence).
    rewrite mbind_updp, mbind_getp in H. set (w2 := set_w_pool _ _) in H.
    destruct (list_upd_states _ _ _ _ H) as (_ & P & Lh & Hh & _ & Sd & D & _).
    assert (R2 : rp_pipelines (w_pool w') = rp_pipelines (w_pool w)) by (rewrite P; reflexivity).
    assert (L2 : length (w_heap w') = length (w_heap w)) by (rewrite Lh; reflexivity).
    assert (Dd : forall r, listed r w -> ps_state (the_ps r w') = pl_disconnected).
    { intros r I. unfold listed in I. apply in_map_iff in I as [[i j] [<- I]]. apply D; [apply (G _ _ I)|]. apply in_map_iff. exists (i, j). split; [reflexivity|exact I]. }
    split; [rewrite P; reflexivity|]. split; [exact R2|]. split.
    { intros i j I. rewrite R2 in I. destruct (G _ _ I) as [L X]. rewrite L2. split; [exact L|]. destruct (Sd j) as [Sj _]. rewrite Sj. exact X. }
    split; [exact Dd|]. split.
    { unfold create_disconnected, get. rewrite R2. rewrite filter_all; [reflexivity|]. intros r I. rewrite (Dd r I). reflexivity. }
    exists q, b. split; [unfold requests; rewrite Hh; reflexivity|]. split; [exact O|exact Sl].
  Qed.

  (* ---- connecting ---- *)
  Definition untouched (w w' : world) : Prop :=
    rp_pipelines (w_pool w') = rp_pipelines (w_pool w) /\ length (w_heap w') = length (w_heap w) /\
    forall r, (r < length (w_heap w))%nat -> ps_state (the_ps r w') = ps_state (the_ps r w) /\ settled (the_ps r w) (the_ps r w').
  Lemma untouched_refl w : untouched w w.
  Proof. split; [reflexivity|]. split; [reflexivity|]. intros r _. split; [reflexivity|apply settled_refl]. Qed.
  Lemma untouched_trans a b c : untouched a b -> untouched b c -> untouched a c.
  Proof.
    intros [A1 [A2 A3]] [B1 [B2 B3]]. split; [congruence|]. split; [congruence|]. intros r L. destruct (A3 r L) as [X Y]. destruct (B3 r) as [X' Y']; [lia|].
    split; [congruence|]. destruct Y as (Y1&Y2&Y3&Y4&Y5&Y6). destruct Y' as (Z1&Z2&Z3&Z4&Z5&Z6). unfold settled. rewrite Z1, Z2, Z3, Z4, Z5, Z6. auto 10.
  Qed.
  Lemma untouched_silent (w w' : world) : w_heap w' = w_heap w -> rp_pipelines (w_pool w') = rp_pipelines (w_pool w) -> untouched w w'.
  Proof. intros H P. unfold untouched, the_ps. rewrite H, P. split; [reflexivity|]. split; [reflexivity|]. intros r _. split; [reflexivity|apply settled_refl]. Qed.
  Lemma untouched_handle m : steps untouched (handle E None m).
  Proof.
    intros w. destruct (handle_effect E None m w) as [F _ _ P _ _ _ _ _]. split; [apply (fr_pipelines _ _ F)|]. split; [apply (fr_heap _ _ F)|].
    intros r L. destruct (P r) as [S [_ A]]. split; [|exact S]. destruct (A L) as [_ [St _]]. exact St.
  Qed.
  Ltac un_prim := first [ apply untouched_handle | (intros ?w; apply untouched_silent; reflexivity) ].
  Ltac un_walk := walk untouched_refl untouched_trans un_prim.
  Lemma untouched_shell {A} (f : (history -> sreq -> wresult) -> shell -> history -> out A * history) : steps untouched (on_shell E f).
  Proof. intros w. unfold on_shell. destruct (f _ _ _). apply untouched_silent; reflexivity. Qed.
  Lemma untouched_parse d : steps untouched (parse_responses E d None).
  Proof. unfold parse_responses. un_walk. Qed.
  Lemma untouched_receive : steps untouched (receive E None None).
  Proof. unfold receive. walk untouched_refl untouched_trans ltac:(first [apply untouched_shell | apply untouched_parse | un_prim]). Qed.
  Lemma connect_untouched : steps untouched (pool_connect E).
  Proof.
    unfold pool_connect, connect_new, connect_existing, conn_request, first_fragment, fragment_one.
    walk untouched_refl untouched_trans ltac:(first [apply untouched_parse | apply untouched_receive | un_prim]).
  Qed.

  (* ---- reconnecting a pipeline ---- *)
  Lemma reconnect_any r (w : world) : ps_state (the_ps r w) = pl_disconnected -> (r < length (w_heap w))%nat ->
    exists q a w', snd (ps_connect_async E r w) = w' /\ requests w w' [(q, a)] /\ a = ev_srv E (w_disabled w) (w_hist w) q /\ q_op q = OpConnect /\
      q_body q = Some (Elem (rsp (lit "Connect")) [(lit "CommandId", ps_id (the_ps r w))] None []) /\
      forall b, a = WBody b -> fst (ps_connect_async E r w) = Ret tt /\ ps_state (the_ps r w') = pl_running /\ ps_from_disconnect (the_ps r w') = true.
  Proof.
    intros S L. unfold ps_connect_async. rewrite mbind_getps, S. change (negb (Z.eqb pl_disconnected pl_disconnected)) with false. cbv iota. rewrite mbind_getp.
    match goal with |- context [mbind (conn_request E ?op ?b ?o ?s) _] => destruct (conn_effect E op b o s w) as [q [x [Ex [Er [O [B _]]]]]] end.
    unfold mbind. rewrite !Ex. exists q, x. destruct x as [b| | |]; cbn [fst snd].
    - eexists. split; [reflexivity|]. split; [reflexivity|]. split; [exact Er|]. split; [exact O|]. split; [exact B|]. intros b' _. unfold updps, PoolModel.upd. cbn [fst snd]. split; [reflexivity|].
      set (w1 := set_w_hist _ _). set (w2 := set_w_heap (list_upd r (set_ps_state pl_running) (w_heap w1)) w1).
      assert (L2 : (r < length (w_heap w2))%nat) by (unfold w2; cbn [w_heap set_w_heap]; rewrite list_upd_length; exact L).
      rewrite (the_ps_upd_same r (set_ps_from_disconnect true) w2 L2). unfold w2. rewrite (the_ps_upd_same r (set_ps_state pl_running) w1 L). split; reflexivity.
    - eexists. split; [reflexivity|]. split; [reflexivity|]. split; [exact Er|]. split; [exact O|]. split; [exact B|]. intros b' C; discriminate C.
    - eexists. split; [reflexivity|]. split; [reflexivity|]. split; [exact Er|]. split; [exact O|]. split; [exact B|]. intros b' C; discriminate C.
    - eexists. split; [reflexivity|]. split; [reflexivity|]. split; [exact Er|]. split; [exact O|]. split; [exact B|]. intros b' C; discriminate C.
  Qed.
End Reachable.

(* ---- pools found on the server ---- *)
Section Found.
  Context {Obj Cmd RK : Type} (srv : history -> sreq -> wresult).
  Lemma add_commands_ok cs : forall (objs : list (ps Obj Cmd)) reg objs' reg', add_commands cs objs reg = Ok (objs', reg') ->
    (forall id j, In (id, j) reg -> (j < length objs)%nat /\ forall d, ps_id (nth j objs d) = id) ->
    Forall (fun p => ps_state p = pl_disconnected /\ ps_command_id p = Some (ps_id p)) objs ->
    (forall id j, In (id, j) reg' -> (j < length objs')%nat /\ forall d, ps_id (nth j objs' d) = id) /\
    Forall (fun p => ps_state p = pl_disconnected /\ ps_command_id p = Some (ps_id p)) objs' /\
    (forall id, dict_get str_eqb id reg <> None -> dict_get str_eqb id reg' <> None) /\
    Forall (fun c => exists id, sub_text (lit "CommandId") c = Ok id /\ dict_get str_eqb id reg' <> None) cs.
  Proof.
    induction cs as [|c cs IH]; intros objs reg objs' reg' H G F; cbn [add_commands] in H.
    - apply Ok_pair_inj in H as [<- <-]. auto.
    - apply bind_ok in H as [id [Hid H]]. apply IH in H.
      + destruct H as (A & B & C & D). split; [exact A|]. split; [exact B|]. split.
        * intros i Hi. apply C. destruct (list_eq_dec N.eq_dec i id) as [-> |Ne]; [rewrite dict_get_set_same by apply str_eqb_spec; discriminate|].
          rewrite dict_get_set_other; [exact Hi|apply str_eqb_spec|exact Ne].
        * constructor; [|exact D]. exists id. split; [exact Hid|]. apply C. rewrite dict_get_set_same by apply str_eqb_spec. discriminate.
      + intros i j I. rewrite app_length. cbn [length]. apply in_dict_set in I as [[-> ->]|I].
        * split; [lia|]. intros d. rewrite app_nth2 by lia. rewrite Nat.sub_diag. reflexivity.
        * destruct (G _ _ I) as [L X]. split; [lia|]. intros d. rewrite app_nth1 by exact L. apply X.
      + apply Forall_app. split; [exact F|]. constructor; [split; reflexivity|constructor].
  Qed.
  Definition shell_filter (id : list N) : xml :=
    Elem (qname ns_wsman (lit "Filter")) [(lit "Dialect", lit "http://schemas.dmtf.org/wbem/wsman/1/wsman/SelectorFilter")] None [pack_set (shell_selector id)].
  Definition found (p : pool Obj RK * list (ps Obj Cmd)) : Prop :=
    rp_state (fst p) = rs_disconnected /\ rp_new_client (fst p) = true /\ sh_opened (rp_shell (fst p)) = true /\
    Forall (fun x => ps_state x = pl_disconnected /\ ps_command_id x = Some (ps_id x)) (snd p) /\
    (forall id j, In (id, j) (rp_pipelines (fst p)) -> (j < length (snd p))%nat /\ forall d, ps_id (nth j (snd p) d) = id).
  Lemma pools_found env pay es : forall h ps h', pools_of_shells srv env pay es h = (Ret ps, h') ->
    Forall found ps /\
    Forall2 (fun e p => exists id q b, sub_text (lit "ShellId") e = Ok id /\ rp_id (fst p) = id /\ In (q, WBody (Some b)) h' /\ q_op q = OpEnumerate /\
               q_body q = Some (enumerate_body [shell_filter id]) /\
               Forall (fun c => exists cid, sub_text (lit "CommandId") c = Ok cid /\ dict_get str_eqb cid (rp_pipelines (fst p)) <> None) (items (lit "Command") b)) es ps /\
    exists n, h' = h ++ n.
  Proof.
    induction es as [|e es IH]; intros h ps h' H; cbn [pools_of_shells] in H.
    - apply pair_inj in H as [H <-]. assert (ps = []) as -> by congruence. split; [constructor|]. split; [constructor|]. exists []. rewrite app_nil_r. reflexivity.
    - destruct (pool_of_shell srv env pay e h) as [[p|x] h1] eqn:P; [|exfalso; congruence].
      destruct (pools_of_shells srv env pay es h1) as [[ps'|x] h2] eqn:Ps; [|exfalso; congruence]. apply pair_inj in H as [H <-]. assert (ps = p :: ps') as -> by congruence. clear H.
      destruct (IH _ _ _ Ps) as (A & B & [n Hn]). unfold pool_of_shell in P. destruct (sub_text (lit "ShellId") e) as [id|x] eqn:Si; [|exfalso; congruence].
      unfold enumerate, call in P. match type of P with context [srv h ?q0] => set (q := q0) in P end.
      destruct (srv h q) as [[b|]| | |] eqn:Sq; try (exfalso; congruence).
      destruct (add_commands (items (lit "Command") b) [] []) as [[objs reg]|x] eqn:Ac; [|exfalso; congruence].
      apply pair_inj in P as [P <-]. match type of P with Ret ?a = Ret ?b0 => assert (b0 = a) as -> by congruence end. clear P.
      destruct (add_commands_ok _ _ _ _ _ Ac) as (G & F & _ & D); [intros ? ? []|constructor|].
      split; [constructor; [|exact A]; exact (conj eq_refl (conj eq_refl (conj eq_refl (conj F G))))|]. split.
      + constructor; [|exact B]. exists id, q, b. split; [exact Si|]. split; [reflexivity|]. split; [rewrite Hn; apply in_or_app; left; apply in_or_app; right; left; reflexivity|].
        split; [reflexivity|]. split; [reflexivity|]. exact D.
      + exists ([(q, WBody (Some b))] ++ n). rewrite Hn, <- app_assoc. reflexivity.
  Qed.
  (* [RunspacePool.get_runspace_pools]: one pool for every shell element of the first answer, in order *)
  Lemma runspace_pools_found env pay h ps h' : get_runspace_pools srv env pay h = (Ret ps, h') ->
    exists q b, h' = h ++ (q, WBody (Some b)) :: skipn (S (length h)) h' /\ q_op q = OpEnumerate /\ Forall found ps /\
    Forall2 (fun e p => exists id q' b', sub_text (lit "ShellId") e = Ok id /\ rp_id (fst p) = id /\ In (q', WBody (Some b')) h' /\ q_op q' = OpEnumerate /\
               q_body q' = Some (enumerate_body [shell_filter id]) /\
               Forall (fun c => exists cid, sub_text (lit "CommandId") c = Ok cid /\ dict_get str_eqb cid (rp_pipelines (fst p)) <> None) (items (lit "Command") b'))
      (items (lit "Shell") b) ps.
  Proof.
    unfold get_runspace_pools, enumerate, call. intros H. match type of H with context [srv h ?q0] => set (q := q0) in H end.
    destruct (srv h q) as [[b|]| | |] eqn:Sq; try (exfalso; congruence).
    destruct (pools_found _ _ _ _ _ _ H) as (A & B & [n Hn]). exists q, b. split; [|split; [reflexivity|]; split; [exact A|exact B]].
    rewrite Hn at 2. rewrite Hn. rewrite <- app_assoc. rewrite skipn_app. rewrite skipn_all2 by lia.
    replace (S (length h) - length h)%nat with 1%nat by lia. reflexivity.
  Qed.
End Found.
