(* Lifecycles of pools and pipelines. *)
From Verif Require Import Base BaseProofs Lit NumModel TextModel XmlModel WsmanModel ShellModel ShellSpec FragModel MsgModel UtilModel TransModel PoolModel PoolSpec PoolProofs PoolProofs2.
Require Import Lia ZifyBool ZifyNat ZifyN.

(* decompose an operation; [prim] solves the single effects *)
Ltac walk refl trans prim := repeat first [exact refl | exact trans | progress prim | walk1].

Section Lifecycle.
  Context {Obj Cmd HS RK : Type} (E : env Obj Cmd HS RK).
  Notation world := (world Obj Cmd HS RK).
  Notation M A := (world -> out A * world).

  (* ---- the state of the pool ---- *)
  Definition told (w w' : world) : Prop :=
    exists l, since w w' l /\
      ((rp_state (w_pool w') = rp_state (w_pool w) /\ forall pl m st, In (EMsg pl m) l -> ~ reports E m st) \/
       last_reported E l (rp_state (w_pool w'))).
  Lemma told_silent w w' : w_log w' = w_log w -> rp_state (w_pool w') = rp_state (w_pool w) -> told w w'.
  Proof. intros L S. exists []. split; [unfold since; rewrite app_nil_r; exact L|]. left. split; [exact S|]. intros pl m st []. Qed.
  Lemma told_refl w : told w w.
  Proof. apply told_silent; reflexivity. Qed.
  Lemma told_trans a b c : told a b -> told b c -> told a c.
  Proof.
    intros [l1 [L1 S1]] [l2 [L2 S2]]. exists (l1 ++ l2). split; [unfold since in *; rewrite L2, L1, app_assoc; reflexivity|].
    destruct S2 as [[S2 N2]|[x [pl [m [y [-> [R N]]]]]]].
    - destruct S1 as [[S1 N1]|[x [pl [m [y [-> [R N]]]]]]].
      + left. split; [congruence|]. intros pl m st H. apply in_app_or in H as [H|H]; eauto.
      + right. exists x, pl, m, (y ++ l2). rewrite <- app_assoc. cbn [app]. split; [reflexivity|]. split; [rewrite S2; exact R|].
        intros pl' m' st' H. apply in_app_or in H as [H|H]; eauto.
    - right. exists (l1 ++ x), pl, m, y. rewrite <- app_assoc. split; [reflexivity|]. split; [exact R|exact N].
  Qed.
  Lemma told_out w w' l : since w w' l -> rp_state (w_pool w') = rp_state (w_pool w) -> (forall pl m, ~ In (EMsg pl m) l) -> told w w'.
  Proof. intros L S N. exists l. split; [exact L|]. left. split; [exact S|]. intros pl m st H. exfalso. eapply N; exact H. Qed.
  Lemma told_handle pl m : steps told (handle E pl m).
  Proof.
    intros w. destruct (handle_effect E pl m w) as [_ [l [L [A _]]] S _ _ _ _ _ _].
    exists (EMsg pl m :: l). split; [exact L|].
    assert (N : forall pl' m', ~ In (EMsg pl' m') l) by (intros pl' m' H; rewrite Forall_forall in A; exact (A _ H)).
    destruct S as [[st [R S]]|[R S]].
    - right. exists [], pl, m, l. split; [reflexivity|]. rewrite S. split; [exact R|]. intros pl' m' st' H. exfalso. eapply N; exact H.
    - left. split; [exact S|]. intros pl' m' st [H|H]; [|exfalso; eapply N; exact H].
      assert (m' = m) as -> by (injection H; congruence). apply R.
  Qed.
  Lemma told_receiver rc : steps told (updp (set_rp_receiver rc)).
  Proof. intros w. apply told_silent; reflexivity. Qed.
  Lemma told_shell {A} (f : (history -> sreq -> wresult) -> shell -> history -> out A * history) : steps told (on_shell E f).
  Proof. intros w. unfold on_shell. destruct (f _ _ _) as [r h]. apply told_silent; reflexivity. Qed.
  Lemma told_shell_state {A} (f : (history -> sreq -> wresult) -> shell -> history -> out A * shell * history) : steps told (on_shell_state E f).
  Proof. intros w. unfold on_shell_state. destruct (f _ _ _) as [[r s] h]. apply told_silent; reflexivity. Qed.
  Lemma told_raw q : steps told (request_raw E q).
  Proof. intros w. unfold request_raw. destruct (call _ _ _) as [r h]. apply told_silent; reflexivity. Qed.
  Lemma told_observe pid o : steps told (observe (EOut pid o)).
  Proof. intros w. eapply (told_out _ _ [EOut pid o]); try reflexivity. intros pl m [H|[]]. discriminate H. Qed.
  Lemma told_updps r f : steps told (updps r f).
  Proof. intros w. apply told_silent; reflexivity. Qed.
  Lemma told_updp f : (forall x, rp_state (f x) = rp_state x) -> steps told (updp f).
  Proof. intros H w. apply told_silent; [reflexivity|]. apply H. Qed.
  Lemma told_heap (f : world -> list (ps Obj Cmd)) : steps told (upd (fun w => set_w_heap (f w) w)).
  Proof. intros w. apply told_silent; reflexivity. Qed.
  Lemma told_receive id t : steps told (receive E id t).
  Proof. apply steps_receive; [exact told_refl|exact told_trans|exact told_handle|exact told_receiver|intros; apply told_shell]. Qed.
  Lemma told_until fuel done : steps told (receive_until E fuel done).
  Proof. apply steps_receive_until; [exact told_refl|exact told_trans|exact told_handle|exact told_receiver|intros; apply told_shell]. Qed.
  Lemma told_wait fuel start : steps told (key_wait E fuel start).
  Proof. apply steps_key_wait; [exact told_refl|exact told_trans|exact told_handle|exact told_receiver|intros; apply told_shell]. Qed.
  Lemma told_parse d pl : steps told (parse_responses E d pl).
  Proof. apply steps_parse; [exact told_refl|exact told_trans|exact told_handle|exact told_receiver]. Qed.
  Lemma told_poll r t : steps told (poll_invoke E r t).
  Proof. apply steps_poll; [exact told_refl|exact told_trans|exact told_handle|exact told_receiver|intros; apply told_shell|intros; apply told_updps]. Qed.
  Lemma told_end fuel r : steps told (end_invoke E fuel r).
  Proof. apply steps_end; [exact told_refl|exact told_trans|exact told_handle|exact told_receiver|intros; apply told_shell|intros; apply told_updps]. Qed.

  Ltac told_prim := first
    [ apply told_receive | apply told_until | apply told_wait | apply told_parse | apply told_poll | apply told_end
    | apply told_shell | apply told_raw | apply told_observe | apply told_updps
    | apply told_updp; intros; reflexivity | apply told_heap ].
  Ltac told_walk := walk told_refl told_trans told_prim.

  Definition moves (o : @op Obj Cmd) : bool :=
    match o with PoolOpen _ | PoolClose | PoolConnect | PoolDisconnect | IsAlive _ => true | _ => false end.
  Lemma told_frag1 o pid : steps told (fragment_one E o pid).
  Proof. unfold fragment_one. told_walk. Qed.
  Lemma told_fragn os pid : steps told (fragment_many E os pid).
  Proof. unfold fragment_many. told_walk. Qed.
  Lemma told_inputs r cur rest : steps told (send_inputs E r cur rest).
  Proof.
    revert cur; induction rest as [|x rest IH]; intros cur; cbn [send_inputs]; unfold send.
    - told_walk. all: apply told_fragn.
    - told_walk. all: try apply told_fragn. all: apply IH.
  Qed.
  Lemma told_op fuel o : moves o = false -> steps told (run_op E fuel o).
  Proof.
    intros H. destruct o; try discriminate H; cbn [run_op];
      unfold set_min_runspaces, set_max_runspaces, get_available_runspaces, reset_runspace_state, exchange_keys,
        get_command_metadata, create_ps, create_nested, begin_invoke, ps_stop, ps_close, ps_connect_async, void, ask, new_call,
        ps_invoke, send, conn_request, unregister, forget, first_fragment; told_walk.
    all: first [apply told_frag1 | apply told_inputs].
  Qed.

  Lemma in_states_iff z l : in_states z l = true <-> In z l.
  Proof.
    unfold in_states. rewrite existsb_exists. split.
    - intros [x [I H]]. apply Z.eqb_eq in H. subst; exact I.
    - intros I. exists z. split; [exact I|apply Z.eqb_refl].
  Qed.

  (* ---- C20 ---- *)
  Lemma open_again fuel a w : rp_state (w_pool w) = rs_opened -> pool_open E fuel a w = (Ret tt, w).
  Proof. intros H. unfold pool_open. rewrite mbind_getp, H. reflexivity. Qed.
  Lemma open_wrong fuel a w : rp_state (w_pool w) <> rs_opened -> rp_state (w_pool w) <> rs_before_open ->
    pool_open E fuel a w = (Raise (XExn InvalidRunspacePoolStateError), w).
  Proof. intros H1 H2. unfold pool_open. rewrite mbind_getp. apply Z.eqb_neq in H1, H2. rewrite H1, H2. reflexivity. Qed.
  Lemma connect_again w : rp_state (w_pool w) = rs_opened -> pool_connect E w = (Ret tt, w).
  Proof. intros H. unfold pool_connect. rewrite !mbind_getp, H. reflexivity. Qed.
  Lemma connect_wrong w : rp_state (w_pool w) <> rs_opened -> rp_state (w_pool w) <> rs_disconnected ->
    pool_connect E w = (Raise (XExn InvalidRunspacePoolStateError), w).
  Proof. intros H1 H2. unfold pool_connect. rewrite !mbind_getp. apply Z.eqb_neq in H1, H2. rewrite H1, H2. reflexivity. Qed.
  Lemma disconnect_again w : rp_state (w_pool w) = rs_disconnected -> pool_disconnect E w = (Ret tt, w).
  Proof. intros H. unfold pool_disconnect. rewrite !mbind_getp, H. reflexivity. Qed.
  Lemma disconnect_wrong w : rp_state (w_pool w) <> rs_opened -> rp_state (w_pool w) <> rs_disconnected ->
    pool_disconnect E w = (Raise (XExn InvalidRunspacePoolStateError), w).
  Proof. intros H1 H2. unfold pool_disconnect. rewrite !mbind_getp. apply Z.eqb_neq in H1, H2. rewrite H1, H2. reflexivity. Qed.
  Lemma reset_wrong fuel w : rp_state (w_pool w) <> rs_opened ->
    reset_runspace_state E fuel w =
      (if Z.eqb (rp_state (w_pool w)) rs_before_open then Ret tt else Raise (XExn InvalidRunspacePoolStateError), w).
  Proof.
    intros H. unfold reset_runspace_state. rewrite !mbind_getp. apply Z.eqb_neq in H. rewrite H.
    destruct (Z.eqb (rp_state (w_pool w)) rs_before_open); reflexivity.
  Qed.
  Lemma metadata_wrong fuel i a w : rp_state (w_pool w) <> rs_opened ->
    get_command_metadata E fuel i a w = (Raise (XExn InvalidRunspacePoolStateError), w).
  Proof. intros H. unfold get_command_metadata. rewrite !mbind_getp. apply Z.eqb_neq in H. rewrite H. reflexivity. Qed.

  Lemma until_done fuel done w x w' : receive_until E fuel done w = (Ret x, w') -> done w' = true.
  Proof.
    revert w; induction fuel as [|fuel IH]; intros w; cbn [receive_until]; destruct (done w) eqn:D; intros H.
    - assert (w' = w) as -> by congruence. exact D.
    - exfalso. congruence.
    - assert (w' = w) as -> by congruence. exact D.
    - apply mbind_ret in H as [y [w1 [_ H]]]. exact (IH w1 H).
  Qed.
  Lemma open_waits fuel a w w' : rp_state (w_pool w) = rs_before_open -> pool_open E fuel a w = (Ret tt, w') ->
    exists l, since w w' l /\ last_reported E l (rp_state (w_pool w')) /\ rp_state (w_pool w') <> rs_negotiation_sent.
  Proof.
    intros B H. unfold pool_open in H. rewrite mbind_getp, B in H. cbn [Z.eqb rs_before_open rs_opened negb] in H.
    rewrite mbind_getp in H. apply mbind_ret in H as [fs [w1 [F H]]]. apply mbind_ret in H as [f [w2 [F2 H]]].
    apply mbind_ret in H as [b [w3 [S H]]]. rewrite mbind_updp in H.
    set (w4 := set_w_pool _ w3) in H.
    assert (T1 : told w w1) by (match type of F with fragment_many E ?x ?y w = _ => pose proof (told_fragn x y w) as K end; rewrite F in K; exact K).
    assert (T2 : told w1 w2) by (unfold first_fragment in F2; destruct fs; [discriminate F2|]; assert (w2 = w1) as -> by (unfold ret in F2; congruence); apply told_refl).
    assert (T3 : told w2 w3) by (pose proof (told_shell_state (fun srv => shell_open srv (Some version_option) (Some (content_xml (lit "creationXml") f))) w2) as K; rewrite S in K; exact K).
    destruct (told_trans _ _ _ T1 (told_trans _ _ _ T2 T3)) as [l [L _]].
    pose proof (told_until fuel (fun w => negb (Z.eqb (rp_state (w_pool w)) rs_negotiation_sent)) w4) as K. rewrite H in K. cbn [snd] in K.
    apply until_done in H. cbv beta in H. apply negb_true_iff in H. apply Z.eqb_neq in H.
    destruct K as [l' [L' [[S' _]|R]]].
    - exfalso. apply H. rewrite S'. reflexivity.
    - exists (l ++ l'). split; [|split; [|exact H]].
      + unfold since in *. rewrite L'. change (w_log w4) with (w_log w3). rewrite L, app_assoc. reflexivity.
      + destruct R as [x [pl [m [y [-> [R N]]]]]]. exists (l ++ x), pl, m, y. rewrite app_assoc. repeat split; auto.
  Qed.

  (* ---- C22 ---- *)
  Lemma begin_wrong r a w : ~ In (ps_state (the_ps r w)) [pl_not_started; pl_stopped; pl_completed; pl_failed] ->
    begin_invoke E r a w = (Raise (XExn InvalidPipelineStateError), w).
  Proof.
    intros H. unfold begin_invoke. rewrite mbind_getps. destruct (in_states _ _) eqn:D; [apply in_states_iff in D; contradiction|]. reflexivity.
  Qed.
  Lemma begin_empty r a w : In (ps_state (the_ps r w)) [pl_not_started; pl_stopped; pl_completed; pl_failed] ->
    ps_commands (the_ps r w) = [] -> begin_invoke E r a w = (Raise (XExn InvalidPSRPOperation), w).
  Proof. intros H C. unfold begin_invoke. rewrite mbind_getps. apply in_states_iff in H. rewrite H, C. reflexivity. Qed.
  Lemma stop_again r w : In (ps_state (the_ps r w)) [pl_stopping; pl_stopped] -> ps_stop E r w = (Ret tt, w).
  Proof. intros H. unfold ps_stop. rewrite mbind_getps. apply in_states_iff in H. rewrite H. reflexivity. Qed.
  Lemma stop_wrong r w : ~ In (ps_state (the_ps r w)) [pl_stopping; pl_stopped; pl_running] ->
    ps_stop E r w = (Raise (XExn InvalidPipelineStateError), w).
  Proof.
    intros H. unfold ps_stop. rewrite mbind_getps. destruct (in_states _ _) eqn:D.
    - apply in_states_iff in D. exfalso. apply H. cbn [In] in *. tauto.
    - destruct (Z.eqb_spec (ps_state (the_ps r w)) pl_running) as [D'|D']; [|reflexivity]. exfalso. apply H. rewrite D'. cbn [In]. tauto.
  Qed.
  Lemma close_new r w : ps_state (the_ps r w) = pl_not_started -> ps_close E r w = (Ret tt, w).
  Proof. intros H. unfold ps_close. rewrite mbind_getps, H. reflexivity. Qed.
  Lemma close_wrong r w : ~ In (ps_state (the_ps r w)) [pl_not_started; pl_completed; pl_stopped; pl_failed] ->
    ps_close E r w = (Raise (XExn InvalidPipelineStateError), w).
  Proof.
    intros H. unfold ps_close. rewrite mbind_getps. destruct (Z.eqb_spec (ps_state (the_ps r w)) pl_not_started) as [D|D].
    - exfalso. apply H. rewrite D. cbn [In]. tauto.
    - destruct (in_states _ _) eqn:D'; [|reflexivity]. apply in_states_iff in D'. exfalso. apply H. cbn [In] in *. tauto.
  Qed.
  Lemma reconnect_wrong r w : ps_state (the_ps r w) <> pl_disconnected ->
    ps_connect_async E r w = (Raise (XExn InvalidPipelineStateError), w).
  Proof. intros H. unfold ps_connect_async. rewrite mbind_getps. apply Z.eqb_neq in H. rewrite H. reflexivity. Qed.
  Lemma nested_wrong r i (w : world) : ps_state (the_ps r w) <> pl_running ->
    create_nested r i w = (Raise (XExn InvalidPipelineStateError), w).
  Proof. intros H. unfold create_nested. rewrite mbind_getps. apply Z.eqb_neq in H. rewrite H. reflexivity. Qed.
  Lemma nested_reached r i (w : world) : ps_state (the_ps r w) = pl_running -> ps_from_disconnect (the_ps r w) = true ->
    create_nested r i w = (Raise (XExn InvalidPSRPOperation), w).
  Proof. intros H F. unfold create_nested. rewrite mbind_getps, H, F. reflexivity. Qed.
  Lemma nested_made r i (w : world) : ps_state (the_ps r w) = pl_running -> ps_from_disconnect (the_ps r w) = false ->
    exists w', create_nested r i w = (Ret (length (w_heap w)), w') /\
      w_heap w' = w_heap w ++ [set_ps_nested true (new_ps i)] /\ w_pool w' = w_pool w /\ w_hist w' = w_hist w.
  Proof. intros H F. unfold create_nested. rewrite mbind_getps, H, F. cbn [negb Z.eqb]. eexists. split; [reflexivity|]. repeat split. Qed.

  Lemma the_ps_upd_same r f (w : world) : (r < length (w_heap w))%nat -> the_ps r (set_w_heap (list_upd r f (w_heap w)) w) = f (the_ps r w).
  Proof. intros H. unfold the_ps. cbn [w_heap set_w_heap]. apply nth_list_upd_same; exact H. Qed.
  Lemma the_ps_upd_other r k f (w : world) : r <> k -> the_ps k (set_w_heap (list_upd r f (w_heap w)) w) = the_ps k w.
  Proof. intros H. unfold the_ps. cbn [w_heap set_w_heap]. apply nth_list_upd_other; exact H. Qed.

  (* one call of the shell *)
  Lemma signal_effect code id w :
    exists q r, on_shell E (fun srv => shell_signal srv code id) w =
        (match r with WBody b => Ret b | WFault f => Raise (XFault f) | WHttp c t => Raise (XHttp c t) | WExn e => Raise (XExn e) end,
         set_w_hist (w_hist w ++ [(q, r)]) w) /\
      r = ev_srv E (w_disabled w) (w_hist w) q /\ q_op q = OpSignal /\ q_body q = Some (signal_body code id) /\
      q_selectors q = sh_selectors (rp_shell (w_pool w)).
  Proof.
    unfold on_shell, shell_signal, call. set (q := request _ _ _ _ _). exists q, (ev_srv E (w_disabled w) (w_hist w) q). repeat split.
  Qed.
  Lemma conn_effect op body o s w :
    exists q r, conn_request E op body o s w =
        (match r with WBody b => Ret b | WFault f => Raise (XFault f) | WHttp c t => Raise (XHttp c t) | WExn e => Raise (XExn e) end,
         set_w_hist (w_hist w ++ [(q, r)]) w) /\
      r = ev_srv E (w_disabled w) (w_hist w) q /\ q_op q = op /\ q_body q = body /\ q_options q = o /\ q_selectors q = s /\
      q_uri q = sh_uri (rp_shell (w_pool w)).
  Proof.
    unfold conn_request. rewrite mbind_getp. unfold request_raw, call. set (q := Build_sreq _ _ _ _ _ _).
    exists q, (ev_srv E (w_disabled w) (w_hist w) q). repeat split.
  Qed.
  Lemma stop_done r w w' : ps_state (the_ps r w) = pl_running -> (r < length (w_heap w))%nat -> ps_stop E r w = (Ret tt, w') ->
    ps_state (the_ps r w') = pl_stopped /\ rp_pipelines (w_pool w') = dict_del str_eqb (ps_id (the_ps r w)) (rp_pipelines (w_pool w)) /\
    exists q b, requests w w' [(q, WBody b)] /\ q_op q = OpSignal /\ q_body q = Some (signal_body sig_ctrl_c (upper (ps_id (the_ps r w)))).
  Proof.
    intros S V H. unfold ps_stop in H. rewrite mbind_getps, S in H. change (in_states pl_running [pl_stopping; pl_stopped]) with false in H. change (negb (Z.eqb pl_running pl_running)) with false in H. cbv iota in H.
    rewrite mbind_updps in H. set (w1 := set_w_heap _ w) in H.
    destruct (signal_effect sig_ctrl_c (upper (ps_id (the_ps r w))) w1) as [q [x [Ex [_ [O [B _]]]]]].
    unfold mbind at 1 in H. rewrite Ex in H. destruct x; try (exfalso; congruence).
    rewrite mbind_updps in H. unfold unregister, updp, upd in H. cbn [w_heap w_pool w_hist set_w_hist set_w_heap] in H.
    apply pair_inj in H as [_ H]. subst w'. unfold w1. split; [|split].
    - unfold the_ps. cbn [w_heap set_w_pool set_w_heap set_w_hist]. rewrite nth_list_upd_same; [reflexivity|]. rewrite list_upd_length. exact V.
    - reflexivity.
    - exists q, b. repeat split; auto.
  Qed.
  Lemma close_done r w w' : In (ps_state (the_ps r w)) [pl_completed; pl_stopped; pl_failed] -> ps_close E r w = (Ret tt, w') ->
    w_heap w' = w_heap w /\ rp_pipelines (w_pool w') = dict_del str_eqb (ps_id (the_ps r w)) (rp_pipelines (w_pool w)) /\
    exists q b, requests w w' [(q, WBody b)] /\ q_op q = OpSignal /\
      q_body q = Some (signal_body sig_terminate (nonempty (ps_command_id (the_ps r w)) (ps_id (the_ps r w)))).
  Proof.
    intros S H. unfold ps_close in H. rewrite mbind_getps in H.
    assert (N : Z.eqb (ps_state (the_ps r w)) pl_not_started = false).
    { apply Z.eqb_neq. intros C. rewrite C in S. apply in_states_iff in S. discriminate S. }
    apply in_states_iff in S. rewrite N, S in H. cbn [negb] in H.
    destruct (signal_effect sig_terminate (nonempty (ps_command_id (the_ps r w)) (ps_id (the_ps r w))) w) as [q [x [Ex [_ [O [B _]]]]]].
    unfold mbind at 1 in H. rewrite Ex in H. destruct x; try (exfalso; congruence).
    unfold unregister, updp, upd in H. apply pair_inj in H as [_ H]. subst w'. repeat split. exists q, b. repeat split; auto.
  Qed.
  Lemma reconnect_done r w w' : ps_state (the_ps r w) = pl_disconnected -> (r < length (w_heap w))%nat -> ps_connect_async E r w = (Ret tt, w') ->
    ps_state (the_ps r w') = pl_running /\ ps_from_disconnect (the_ps r w') = true /\ w_pool w' = w_pool w /\
    exists q b, requests w w' [(q, WBody b)] /\ q_op q = OpConnect /\
      q_body q = Some (Elem (rsp (lit "Connect")) [(lit "CommandId", ps_id (the_ps r w))] None []).
  Proof.
    intros S V H. unfold ps_connect_async in H. rewrite mbind_getps, S in H. change (negb (Z.eqb pl_disconnected pl_disconnected)) with false in H. cbv iota in H. rewrite mbind_getp in H.
    match type of H with mbind (conn_request E ?op ?b ?o ?s) _ _ = _ => destruct (conn_effect op b o s w) as [q [x [Ex [_ [O [B _]]]]]] end.
    unfold mbind at 1 in H. rewrite Ex in H. destruct x; try (exfalso; congruence).
    rewrite mbind_updps in H. unfold updps, upd in H. cbn [w_heap w_pool w_hist set_w_hist set_w_heap] in H.
    apply pair_inj in H as [_ H]. subst w'. unfold the_ps. cbn [w_heap set_w_heap set_w_hist w_pool].
    rewrite !nth_list_upd_same by (rewrite ?list_upd_length; exact V). repeat split. exists q, b. repeat split; auto.
  Qed.
End Lifecycle.
