(* Calls on one pipeline leave the others alone (C78). *)
From Verif Require Import Base BaseProofs Lit NumModel TextModel XmlModel WsmanModel ShellModel ShellSpec FragModel MsgModel UtilModel TransModel PoolModel PoolSpec PoolProofs PoolProofs2 PoolProofs3 PoolProofs4 PoolProofs5 PoolProofs10 PoolProofs12 ApartSpec.
Require Import Lia ZifyBool ZifyNat ZifyN.

Section Apart.
  Context {Obj Cmd HS RK : Type} (E : env Obj Cmd HS RK).
  Notation world := (world Obj Cmd HS RK).
  Notation M A := (world -> out A * world).
  Context (k : nat).

  (* the pipeline [k] is as it was *)
  Definition spared (w w' : world) : Prop :=
    (length (w_heap w) <= length (w_heap w'))%nat /\ ((k < length (w_heap w))%nat -> the_ps k w' = the_ps k w).
  Lemma spared_refl w : spared w w.
  Proof. split; auto. Qed.
  Lemma spared_trans a b c : spared a b -> spared b c -> spared a c.
  Proof. intros [A1 A2] [B1 B2]. split; [lia|]. intros L. rewrite B2 by lia. auto. Qed.
  Lemma spared_heap w w' : w_heap w' = w_heap w -> spared w w'.
  Proof. intros H. unfold spared, the_ps. rewrite H. split; auto. Qed.
  Lemma spared_updp f : steps spared (@updp Obj Cmd HS RK f).
  Proof. intros w. apply spared_heap; reflexivity. Qed.
  Lemma spared_host f : steps spared (@upd Obj Cmd HS RK (set_w_host f)).
  Proof. intros w. apply spared_heap; reflexivity. Qed.
  Lemma spared_observe e : steps spared (@observe Obj Cmd HS RK e).
  Proof. intros w. apply spared_heap; reflexivity. Qed.
  Lemma spared_updps r f : r <> k -> steps spared (@updps Obj Cmd HS RK r f).
  Proof.
    intros Ne w. unfold spared, updps, upd, the_ps. cbn [snd w_heap set_w_heap]. rewrite list_upd_length. split; [auto|]. intros _.
    apply nth_list_upd_other. exact Ne.
  Qed.
  Lemma spared_append p : steps spared (@upd Obj Cmd HS RK (fun w => set_w_heap (w_heap w ++ [p]) w)).
  Proof.
    intros w. unfold spared, upd, the_ps. cbn [snd w_heap set_w_heap]. rewrite app_length. split; [lia|]. intros L. apply app_nth1. exact L.
  Qed.
  Lemma spared_shell {A} (f : (history -> sreq -> wresult) -> shell -> history -> out A * history) : steps spared (on_shell E f).
  Proof. intros w. unfold on_shell. destruct (f _ _ _). apply spared_heap; reflexivity. Qed.
  Lemma spared_shell_state {A} (f : (history -> sreq -> wresult) -> shell -> history -> out A * shell * history) : steps spared (on_shell_state E f).
  Proof. intros w. unfold on_shell_state. destruct (f _ _ _) as [[r s] h]. apply spared_heap; reflexivity. Qed.
  Lemma spared_raw q : steps spared (request_raw E q).
  Proof. intros w. unfold request_raw, call. apply spared_heap; reflexivity. Qed.
  Ltac base_prim := first
    [ apply spared_shell | apply spared_shell_state | apply spared_raw | apply spared_observe | apply spared_updp | apply spared_host | apply spared_append
    | apply spared_updps; congruence ].
  Ltac base_walk := walk spared_refl spared_trans base_prim.
  Lemma spared_frag1 o pid : steps spared (fragment_one E o pid).
  Proof. unfold fragment_one. base_walk. Qed.
  Lemma spared_fragn os pid : steps spared (fragment_many E os pid).
  Proof. unfold fragment_many. base_walk. Qed.
  Lemma spared_call o pl : steps spared (process_host_call E o pl).
  Proof.
    unfold process_host_call, send. destruct (ev_host E) as [run|]; [|base_walk]. destruct (ev_host_call E o) as [[ci mi] mp].
    apply steps_bind; [exact spared_trans|destruct pl; base_walk|intros pid]. apply steps_bind; [exact spared_trans|base_walk|intros st]. destruct (run st mi mp pid) as [r st'].
    base_walk; apply spared_frag1.
  Qed.
  Lemma spared_data d f : (forall o, steps spared (f o)) -> steps spared (@data_obj Obj Cmd HS RK d f).
  Proof. intros H. destruct d; cbn [data_obj]; first [apply H | apply steps_ret; exact spared_refl]. Qed.
  Lemma spared_handle pl m : pl <> Some k -> steps spared (handle E pl m).
  Proof.
    intros N. unfold handle, process_message. apply steps_bind; [exact spared_trans|apply spared_observe|intros _].
    repeat match goal with |- steps _ (if _ then _ else _) => match goal with |- steps _ (if ?b then _ else _) => destruct b end end;
    try (apply steps_ret; exact spared_refl);
    try (apply spared_data; intros o; first [apply spared_call | unfold process_session_capability, process_session_key, process_init_data, process_availability, process_pool_state; base_walk]).
    destruct pl as [r|]; [|apply steps_ret; exact spared_refl]. assert (Nr : r <> k) by congruence.
    repeat match goal with |- steps _ (if _ then _ else _) => match goal with |- steps _ (if ?b then _ else _) => destruct b end end;
    try (apply steps_ret; exact spared_refl);
    apply spared_data; intros o; first [apply spared_call | unfold process_pipeline_state; base_walk].
  Qed.
  Lemma spared_parse d pl : pl <> Some k -> steps spared (parse_responses E d pl).
  Proof.
    intros N. unfold parse_responses. base_walk. apply spared_handle. exact N.
  Qed.
  (* receiving for another pipeline, or for the pool *)
  Lemma spared_receive id t (w : world) : reg_ok w -> (forall s, id = Some s -> s <> ps_id (the_ps k w)) -> spared w (snd (receive E id t w)).
  Proof.
    intros G N. unfold receive. rewrite mbind_getp.
    set (pl := match id with Some (c :: s) => dict_get str_eqb (c :: s) (rp_pipelines (w_pool w)) | _ => None end).
    assert (P : pl <> Some k).
    { unfold pl. destruct id as [[|c s]|]; try discriminate. intros C. apply dict_get_in in C. destruct (G _ _ C) as [_ I]. apply (N _ eq_refl). symmetry. exact I. }
    match goal with |- spared ?w2 (snd (?m ?w2)) => assert (W : steps spared m); [|exact (W w2)] end.
    base_walk; apply spared_parse; exact P.
  Qed.
  Lemma receive_reg id t (w : world) : reg_kept None w (snd (receive E id t w)).
  Proof. apply reg_receive. Qed.
  Lemma spared_until fuel done : forall w : world, reg_ok w -> spared w (snd (receive_until E fuel done w)).
  Proof.
    induction fuel as [|fuel IH]; intros w G; cbn [receive_until]; destruct (done w); try apply spared_refl.
    pose proof (spared_receive None None w G ltac:(discriminate)) as S1. destruct (receive_reg None None w) as (_ & G1 & _).
    unfold mbind. destruct (receive E None None w) as [[ms | x] w1]; [|exact S1]. eapply spared_trans; [exact S1|]. apply IH. exact (G1 G).
  Qed.
  Lemma spared_wait fuel start : forall w : world, reg_ok w -> spared w (snd (key_wait E fuel start w)).
  Proof.
    induction fuel as [|fuel IH]; intros w G; cbn [key_wait]; destruct (rp_exchanged (w_pool w)); try apply spared_refl;
      destruct (Z.ltb (rp_key_timeout (w_pool w)) (ev_clock E (w_hist w) - start)); try apply spared_refl.
    pose proof (spared_receive None None w G ltac:(discriminate)) as S1. destruct (receive_reg None None w) as (_ & G1 & _).
    unfold mbind. destruct (receive E None None w) as [[ms | x] w1]; [|exact S1]. eapply spared_trans; [exact S1|]. apply IH. exact (G1 G).
  Qed.
  Lemma spared_poll r t (w : world) : reg_ok w -> r <> k -> ps_id (the_ps r w) <> ps_id (the_ps k w) -> spared w (snd (poll_invoke E r t w)).
  Proof.
    intros G Nr Ni. unfold poll_invoke. pose proof (spared_receive (Some (ps_id (the_ps r w))) t w G ltac:(intros s Hs; apply Some_inj in Hs; subst s; exact Ni)) as S1.
    destruct (receive E (Some (ps_id (the_ps r w))) t w) as [[ms | x] w1]; cbn [snd] in S1.
    - eapply spared_trans; [exact S1|]. apply (spared_updps r _ Nr).
    - destruct (is_code x operation_timeout); exact S1.
  Qed.
  Lemma spared_end fuel r : r <> k -> forall w : world, reg_ok w -> (r < length (w_heap w))%nat -> (k < length (w_heap w))%nat ->
    ps_id (the_ps r w) <> ps_id (the_ps k w) -> spared w (snd (end_invoke E fuel r w)).
  Proof.
    intros Nr. induction fuel as [|fuel IH]; intros w G L Lk Ni; cbn [end_invoke]; destruct (negb _); try apply spared_refl.
    pose proof (spared_poll r None w G Nr Ni) as S1. destruct (reg_poll E None r None w) as ((I1 & I2) & G1 & _).
    unfold mbind. destruct (poll_invoke E r None w) as [[ms | x] w1]; [|exact S1]. cbn [snd] in *. eapply spared_trans; [exact S1|].
    apply IH; [exact (G1 G)|lia|lia|]. rewrite (I2 r L), (I2 k Lk). exact Ni.
  Qed.

  (* calls on the pool: they keep the registry in order as well *)
  Definition both (w w' : world) : Prop := reg_ok w -> spared w w' /\ reg_ok w'.
  Lemma both_refl w : both w w.
  Proof. intros G. split; [apply spared_refl|exact G]. Qed.
  Lemma both_trans a b c : both a b -> both b c -> both a c.
  Proof. intros A B G. destruct (A G) as [A1 A2]. destruct (B A2) as [B1 B2]. split; [exact (spared_trans _ _ _ A1 B1)|exact B2]. Qed.
  Lemma both_of {A} (m : M A) : steps spared m -> steps (reg_kept None) m -> steps both m.
  Proof. intros S R w G. split; [apply S|]. destruct (R w) as (_ & R2 & _). exact (R2 G). Qed.
  Lemma both_at {A} (m : M A) : (forall w, reg_ok w -> spared w (snd (m w))) -> steps (reg_kept None) m -> steps both m.
  Proof. intros S R w G. split; [exact (S w G)|]. destruct (R w) as (_ & R2 & _). exact (R2 G). Qed.
  Lemma both_receive t : steps both (receive E None t).
  Proof. apply both_at; [|apply reg_receive]. intros w G. apply spared_receive; [exact G|discriminate]. Qed.
  Lemma both_until fuel done : steps both (receive_until E fuel done).
  Proof. apply both_at; [|apply reg_until]. intros w G. apply spared_until. exact G. Qed.
  Lemma both_wait fuel start : steps both (key_wait E fuel start).
  Proof. apply both_at; [|apply reg_wait]. intros w G. apply spared_wait. exact G. Qed.
  Lemma both_parse d : steps both (parse_responses E d None).
  Proof. apply both_of; [apply spared_parse; discriminate|apply reg_parse]. Qed.
  Lemma both_shell {A} (f : (history -> sreq -> wresult) -> shell -> history -> out A * history) : steps both (on_shell E f).
  Proof. apply both_of; [apply spared_shell|apply reg_shell]. Qed.
  Lemma both_shell_state {A} (f : (history -> sreq -> wresult) -> shell -> history -> out A * shell * history) : steps both (on_shell_state E f).
  Proof. apply both_of; [apply spared_shell_state|apply reg_shell_state]. Qed.
  Lemma both_raw q : steps both (request_raw E q).
  Proof. apply both_of; [apply spared_raw|apply reg_raw]. Qed.
  Lemma both_updp f : (forall x, rp_pipelines (f x) = rp_pipelines x) -> steps both (@updp Obj Cmd HS RK f).
  Proof. intros H. apply both_of; [apply spared_updp|apply reg_updp; exact H]. Qed.
  Lemma both_frag1 o pid : steps both (fragment_one E o pid).
  Proof. apply both_of; [apply spared_frag1|apply reg_frag1]. Qed.
  Lemma both_fragn os pid : steps both (fragment_many E os pid).
  Proof. apply both_of; [apply spared_fragn|apply reg_fragn]. Qed.
  Lemma both_append p : steps both (@upd Obj Cmd HS RK (fun w => set_w_heap (w_heap w ++ [p]) w)).
  Proof. apply both_of; [apply spared_append|apply reg_append]. Qed.
  Lemma both_alive t : steps both (is_alive E t).
  Proof.
    apply both_of; [|apply reg_alive]. intros w. unfold is_alive, on_shell. destruct (get_shell _ _ _ _) as [r h].
    destruct r as [d|x].
    - destruct (dict_get str_eqb (lit "State") d) as [[t'|]|]; try (apply spared_heap; reflexivity). destruct (str_eqb t' (lit "Disconnected")); apply spared_heap; reflexivity.
    - destruct (fault_closed x || net_closed x)%bool; apply spared_heap; reflexivity.
  Qed.
  Ltac both_prim := first
    [ apply both_receive | apply both_until | apply both_wait | apply both_parse | apply both_alive | apply both_frag1 | apply both_fragn
    | apply both_shell | apply both_shell_state | apply both_raw | apply both_updp; intros; reflexivity | apply both_append ].
  Ltac both_walk := walk both_refl both_trans both_prim.
  Lemma pool_apart fuel o (w : world) : about o = OfPool -> o <> PoolDisconnect -> reg_ok w -> spared w (snd (run_op E fuel o w)).
  Proof.
    intros A ND G. assert (W : steps both (run_op E fuel o)); [|exact (proj1 (W w G))].
    destruct o; try discriminate A; try (exfalso; apply ND; reflexivity); cbn [run_op];
      unfold pool_open, pool_close, pool_connect, connect_new, connect_existing,
          set_min_runspaces, set_max_runspaces, get_available_runspaces, reset_runspace_state, exchange_keys,
          create_ps, create_nested, void, ask, new_call, send, conn_request, forget, first_fragment; both_walk.
  Qed.

  (* calls on another pipeline *)
  Lemma spared_inputs r cur rest : steps spared (send_inputs E r cur rest).
  Proof. revert cur; induction rest as [|x rest IH]; intros cur; cbn [send_inputs]; unfold send; base_walk; first [apply spared_fragn | apply IH]. Qed.
  Lemma spared_invoke r o : r <> k -> steps spared (ps_invoke E r o).
  Proof. intros N. unfold ps_invoke, first_fragment, send. base_walk; apply spared_frag1. Qed.
  Lemma pipeline_apart fuel o r (w : world) : about o = OfPipeline r -> (r < length (w_heap w))%nat -> (k < length (w_heap w))%nat ->
    ps_id (the_ps r w) <> ps_id (the_ps k w) -> reg_ok w -> spared w (snd (run_op E fuel o w)).
  Proof.
    intros A L Lk Ni G. assert (Nr : r <> k) by (intros ->; apply Ni; reflexivity).
    destruct o; try discriminate A; cbn [about] in A; injection A as <-; cbn [run_op].
    - apply (spared_updps _ _ Nr).
    - match goal with |- spared ?w2 (snd (?m ?w2)) => assert (W : steps spared m); [|exact (W w2)] end.
      unfold begin_invoke. base_walk; first [apply (spared_invoke _ _ Nr) | apply spared_inputs].
    - apply spared_poll; assumption.
    - unfold void. pose proof (spared_end fuel _ Nr w G L Lk Ni) as S1. unfold mbind. destruct (end_invoke E fuel _ w) as [[x | x] w1]; exact S1.
    - match goal with |- spared ?w2 (snd (?m ?w2)) => assert (W : steps spared m); [|exact (W w2)] end. unfold ps_stop, unregister. base_walk.
    - match goal with |- spared ?w2 (snd (?m ?w2)) => assert (W : steps spared m); [|exact (W w2)] end. unfold ps_close, unregister. base_walk.
    - match goal with |- spared ?w2 (snd (?m ?w2)) => assert (W : steps spared m); [|exact (W w2)] end. unfold ps_connect_async, conn_request. base_walk.
  Qed.
  Lemma metadata_apart fuel id a (w : world) : (k < length (w_heap w))%nat -> id <> ps_id (the_ps k w) -> reg_ok w ->
    spared w (snd (run_op E fuel (Metadata id a) w)).
  Proof.
    intros Lk Ni G. cbn [run_op]. unfold void, get_command_metadata, create_ps.
    assert (S : spared w (snd ((st <-- getp rp_state;; (if negb (Z.eqb st rs_opened) then throw InvalidRunspacePoolStateError else
      r <-- (n <-- get (fun w0 : world => length (w_heap w0));; upd (fun w0 : world => set_w_heap (w_heap w0 ++ [new_ps id]) w0);;; ret n);;
      ps_invoke E r (OMetadata a);;; out <-- end_invoke E fuel r;; match out with [] => throw IndexError | _ :: l => updps r (set_ps_output l);;; ret l end)) w))).
    { rewrite mbind_getp. destruct (negb _); [apply spared_refl|]. unfold mbind at 1. rewrite mbind_get, mbind_upd. cbn [ret].
      set (r := length (w_heap w)). set (w1 := set_w_heap (w_heap w ++ [new_ps id]) w).
      assert (Nr : r <> k) by (unfold r; lia).
      assert (L1 : (r < length (w_heap w1))%nat) by (unfold w1, r; cbn [w_heap set_w_heap]; rewrite app_length; cbn [length]; lia).
      pose proof (spared_append (new_ps id) w) as S0. change (spared w w1) in S0.
      destruct (reg_append (HS := HS) (RK := RK) None (new_ps id) w) as (_ & G1 & _). specialize (G1 G). change (reg_ok w1) in G1.
      assert (I1 : ps_id (the_ps r w1) = id) by (unfold w1, r, the_ps; cbn [w_heap set_w_heap]; rewrite nth_middle; reflexivity).
      eapply spared_trans; [exact S0|]. pose proof (spared_invoke r (OMetadata a) Nr w1) as S1.
      destruct (reg_invoke E None r (OMetadata a) w1 L1 ltac:(discriminate)) as ((J1 & J2) & G2 & _).
      unfold mbind at 1. destruct (ps_invoke E r (OMetadata a) w1) as [[x | x] w2]; [|exact S1]. cbn [snd] in *. eapply spared_trans; [exact S1|].
      assert (Lk1 : (k < length (w_heap w1))%nat) by (destruct S0; lia).
      assert (Ni2 : ps_id (the_ps r w2) <> ps_id (the_ps k w2)).
      { rewrite (J2 r L1), I1. destruct S1 as [_ S1]. rewrite (S1 Lk1). destruct S0 as [_ S0]. rewrite (S0 Lk). exact Ni. }
      pose proof (spared_end fuel r Nr w2 (G2 G1) ltac:(lia) ltac:(lia) Ni2) as S2.
      unfold mbind at 1. destruct (end_invoke E fuel r w2) as [[out | y] w3]; [|exact S2]. cbn [snd] in *. eapply spared_trans; [exact S2|].
      destruct out as [|o l]; [apply spared_refl|]. unfold mbind. apply (spared_updps r _ Nr). }
    unfold mbind at 1. match goal with |- spared _ (snd (match ?x with _ => _ end)) => destruct x as [[y | y] w4] end; exact S.
  Qed.
  Lemma op_apart fuel o (w : world) : (k < length (w_heap w))%nat -> reg_ok w -> o <> PoolDisconnect -> elsewhere k o w -> the_ps k (snd (run_op E fuel o w)) = the_ps k w.
  Proof.
    intros Lk G ND H. unfold elsewhere in H. assert (S : spared w (snd (run_op E fuel o w))); [|exact (proj2 S Lk)].
    destruct (about o) as [|r|id] eqn:A.
    - exact (pool_apart fuel o w A ND G).
    - destruct H as [L Ni]. exact (pipeline_apart fuel o r w A L Lk Ni G).
    - destruct o; try discriminate A. cbn [about] in A. injection A as <-. exact (metadata_apart fuel _ _ w Lk H G).
  Qed.
End Apart.

Section History.
  Context {Obj Cmd HS RK : Type} (E : env Obj Cmd HS RK).
  Notation world := (world Obj Cmd HS RK).
  Lemma history_apart k later : forall w : world, (k < length (w_heap w))%nat -> reg_ok w ->
    (forall a fuel o b, later = a ++ (fuel, o) :: b -> o <> PoolDisconnect /\ elsewhere k o (run_ops E a w)) ->
    the_ps k (run_ops E later w) = the_ps k w.
  Proof.
    induction later as [|[fuel o] later IH]; intros w Lk G H; cbn [run_ops]; [reflexivity|].
    destruct (H [] fuel o later eq_refl) as [ND EL]. pose proof (op_apart E k fuel o w Lk G ND EL) as S1.
    destruct (reg_op E None fuel o ltac:(intros; discriminate) w ltac:(intros; discriminate)) as ((I1 & _) & G1 & _).
    rewrite IH; [exact S1|lia|exact (G1 G)|]. intros a f x b ->. exact (H ((fuel, o) :: a) f x b eq_refl).
  Qed.
  Lemma reached_apart l later k (w0 : world) : rp_pipelines (w_pool w0) = [] -> (k < length (w_heap (run_ops E l w0)))%nat ->
    (forall a fuel o b, later = a ++ (fuel, o) :: b -> o <> PoolDisconnect /\ elsewhere k o (run_ops E (l ++ a) w0)) ->
    the_ps k (run_ops E (l ++ later) w0) = the_ps k (run_ops E l w0).
  Proof.
    assert (A : forall x y (w : world), run_ops E (x ++ y) w = run_ops E y (run_ops E x w)).
    { induction x as [|[f o] x IHx]; intros y w; cbn [run_ops app]; [reflexivity|apply IHx]. }
    intros R L H. rewrite A. apply history_apart; [exact L|apply reg_ok_history; exact R|]. intros a f o b He. rewrite <- A. exact (H a f o b He).
  Qed.
End History.

Section Disconnected.
  Context {Obj Cmd HS RK : Type} (E : env Obj Cmd HS RK).
  Notation world := (world Obj Cmd HS RK).
  Context (k : nat).
  Definition marked (w w' : world) : Prop :=
    length (w_heap w') = length (w_heap w) /\ (the_ps k w' = the_ps k w \/ the_ps k w' = set_ps_state pl_disconnected (the_ps k w)).
  Lemma marked_refl w : marked w w.
  Proof. split; auto. Qed.
  Lemma marked_trans a b c : marked a b -> marked b c -> marked a c.
  Proof. intros [A1 A2] [B1 B2]. split; [congruence|]. destruct A2 as [A2 | A2], B2 as [B2 | B2]; rewrite B2, A2; cbn; auto. Qed.
  Lemma marked_heap w w' : w_heap w' = w_heap w -> marked w w'.
  Proof. intros H. unfold marked, the_ps. rewrite H. auto. Qed.
  Lemma marked_updp f : steps marked (@updp Obj Cmd HS RK f).
  Proof. intros w. apply marked_heap; reflexivity. Qed.
  Lemma marked_raw q : steps marked (request_raw E q).
  Proof. intros w. unfold request_raw, call. apply marked_heap; reflexivity. Qed.
  Lemma marked_state r : steps marked (@updps Obj Cmd HS RK r (set_ps_state pl_disconnected)).
  Proof.
    intros w. unfold marked, updps, upd, the_ps. cbn [snd w_heap set_w_heap]. rewrite list_upd_length. split; [reflexivity|].
    destruct (Nat.eq_dec r k) as [->|Ne]; [|rewrite nth_list_upd_other by exact Ne; auto].
    destruct (Nat.ltb_spec k (length (w_heap w))) as [L|L]; [rewrite nth_list_upd_same by exact L; auto|rewrite list_upd_beyond by exact L; auto].
  Qed.
  Lemma disconnect_marks (w : world) : the_ps k (snd (pool_disconnect E w)) = the_ps k w \/ the_ps k (snd (pool_disconnect E w)) = set_ps_state pl_disconnected (the_ps k w).
  Proof.
    assert (W : steps marked (pool_disconnect E)); [|exact (proj2 (W w))]. unfold pool_disconnect, conn_request.
    walk marked_refl marked_trans ltac:(first [apply marked_updp | apply marked_raw | apply marked_state]).
  Qed.
End Disconnected.
