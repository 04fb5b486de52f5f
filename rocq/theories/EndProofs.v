(* C23, C69: waiting for a pipeline comes back. *)
From Verif Require Import Base BaseProofs Lit NumModel NumProofs TextModel TextProofs XmlModel WsmanModel WsmanProofs ShellModel ShellSpec ShellProofs ShellProofs2 FragModel FragSpec FragProofs FragProofs2 MsgModel UtilModel TransModel PoolModel PoolSpec PoolProofs PoolProofs2 PoolProofs3 PoolProofs4 PoolProofs5 PoolProofs6 PoolProofs7 PoolProofs9 EndSpec.
Require Import Lia ZifyBool ZifyNat ZifyN.

Lemma add_streams_stdout ss cs : chunked ss cs -> Forall (fun c => fst c = lit "stdout") cs ->
  forall o, add_streams ss [(lit "stdout", o)] = Ok [(lit "stdout", o ++ chunks_on (lit "stdout") cs)].
Proof.
  unfold chunks_on. induction 1 as [|s ss cs T C IH|s ss n d cs B T A C IH]; intros F o; cbn [add_streams filter map concat].
  - rewrite app_nil_r. reflexivity.
  - rewrite (text_text s), T. apply IH. exact F.
  - rewrite (text_text s), T. rewrite b64_roundtrip by exact B. cbn [bind]. rewrite (attr_attr _ s), A.
    assert (Fn := Forall_inv F). cbn [fst] in Fn. subst n. cbn [dict_get fst]. rewrite str_eqb_refl. cbn [dict_set]. rewrite str_eqb_refl.
    rewrite (IH (Forall_inv_tail F)). cbn [map concat snd]. rewrite <- app_assoc. reflexivity.
Qed.
Lemma parse_stdout a state rc cs : says a (Said state rc cs) -> Forall (fun c => fst c = lit "stdout") cs ->
  exists b v, a = WBody b /\ parse_receive (lit "stdout") b = Ok v /\ dict_get str_eqb (lit "stdout") (snd v) = Some (on_stream (lit "stdout") (Said state rc cs)).
Proof.
  intros (b0 & st & ec & -> & L1 & L2 & S1 & S2 & R1 & R2 & C) F. exists (Some b0).
  unfold parse_receive. change (fold_left (fun d n => dict_set str_eqb n [] d) (split_space [] (lit "stdout")) []) with [(lit "stdout", @nil N)].
  assert (X1 : find_first [rsp (lit "ReceiveResponse"); rsp (lit "CommandState")] b0 = st) by (apply find_first_iff; exact L1).
  assert (X2 : find_first [rsp (lit "ReceiveResponse"); rsp (lit "CommandState"); rsp (lit "ExitCode")] b0 = ec) by (apply find_first_iff; exact L2).
  rewrite X1, X2.
  assert (A1 : exists sv, match st with Some e => match attr_get (lit "State") e with Some t => Ok t | None => Err KeyError end | None => Ok cs_pending end = Ok sv).
  { destruct st as [e|]; [|eauto]. destruct (S1 e eq_refl) as [N A]. rewrite (attr_attr _ e), A. destruct state; [eauto|contradiction]. }
  destruct A1 as (sv & ->). cbn [bind].
  assert (A2 : exists rv, match ec with Some e => do z <- py_int match nonempty_text (x_text e) with Some t => t | None => lit "0" end; Ok (Some z) | None => Ok None end = Ok rv).
  { destruct rc as [z|].
    - destruct (R1 z eq_refl) as [N A]. destruct ec as [e|]; [|contradiction]. rewrite (text_text e), A.
      destruct (py_str_nonempty z) as (c0 & s0 & Es). rewrite Es. cbn [nonempty_text]. rewrite <- Es, py_int_str. cbn [bind]. eauto.
    - rewrite (R2 eq_refl). eauto. }
  destruct A2 as (rv & ->). cbn [bind].
  change (find_all [rsp (lit "ReceiveResponse"); rsp (lit "Stream")] b0) with (find_all [rshell (lit "ReceiveResponse"); rshell (lit "Stream")] b0).
  rewrite (add_streams_stdout _ _ C F []). cbn [bind]. eexists. split; [reflexivity|]. split; [reflexivity|]. cbn [snd dict_get]. rewrite str_eqb_refl. reflexivity.
Qed.

Section Ends.
  Context {Obj Cmd HS RK : Type} (E : env Obj Cmd HS RK).
  Notation world := (world Obj Cmd HS RK).

  (* a message that asks nothing is attended to without a request and without an exception *)
  Definition tame (l : list (event Obj Cmd)) : Prop := forall mi mp pl x, ~ In (EHost mi mp pl (Raise x)) l.
  Lemma tame_app a b : tame a -> tame b -> tame (a ++ b).
  Proof. intros A B mi mp pl x I1. apply in_app_iff in I1 as [I1|I1]; [exact (A _ _ _ _ I1)|exact (B _ _ _ _ I1)]. Qed.
  Lemma tame_msg r m : tame [EMsg r m].
  Proof. intros mi mp pl x [C|[]]. discriminate C. Qed.
  Lemma report_handled r m (w : world) : asks_nothing E m ->
    exists w' l, handle E (Some r) m w = (Ret tt, w') /\ w_hist w' = w_hist w /\ w_log w' = w_log w ++ l /\ tame l.
  Proof.
    intros [T|(T & V)]; unfold handle; rewrite mbind_observe; unfold process_message.
    - repeat (destruct T as [T|T]; [rewrite <- T; cbn [Z.eqb]|]); [..|destruct T];
      match goal with |- context [data_obj _ _] => idtac | _ => eexists; exists [EMsg (Some r) m]; split; [reflexivity|split; [reflexivity|split; [reflexivity|apply tame_msg]]] end;
      (destruct (m_data m); cbn [data_obj]; unfold process_pipeline_state;
        try (match goal with |- context [ev_pipe_state E ?o] => destruct (ev_pipe_state E o) as [z [e0|]]; destruct (Z.eqb z pl_failed) end);
        eexists; exists [EMsg (Some r) m]; (split; [reflexivity|split; [reflexivity|split; [reflexivity|apply tame_msg]]])).
    - rewrite T. change (Z.eqb PIPELINE_HOST_CALL PIPELINE_HOST_CALL) with true.
      match goal with |- context [data_obj (m_data m) ?f] => idtac end.
      assert (K : forall o, carried m = Some o -> exists w' l, process_host_call E o (Some r) (set_w_log (w_log w ++ [EMsg (Some r) m]) w) = (Ret tt, w') /\ w_hist w' = w_hist w /\ w_log w' = w_log w ++ l /\ tame l).
      { intros o C. destruct (V o C) as (ci & mi & mp & Ec & H). unfold process_host_call. destruct (ev_host E) as [run|].
        - rewrite Ec. unfold mbind at 1. unfold mbind at 1. unfold getps, get, ret at 1. unfold mbind at 1. unfold get.
          match goal with |- context [run ?st mi mp ?p] => specialize (H st p); destruct (run st mi mp p) as [x st']; cbn [fst] in H; subst x end.
          eexists. exists ([EMsg (Some r) m] ++ [EHost mi mp (Some r) (Ret None)]). split; [reflexivity|]. split; [reflexivity|]. split; [cbn; rewrite <- app_assoc; reflexivity|].
          apply tame_app; [apply tame_msg|]. intros mi0 mp0 pl x [X|[]]. discriminate X.
        - rewrite Ec. destruct (Z.leb_spec 1 mi); [|lia]. destruct (Z.leb_spec mi 56); [|lia]. cbn [andb].
          eexists. exists [EMsg (Some r) m]. split; [reflexivity|]. split; [reflexivity|]. split; [reflexivity|apply tame_msg]. }
      unfold carried in K. destruct (m_data m); cbn [data_obj];
        try (match goal with K : forall o, Some ?a = Some o -> _ |- _ => exact (K a eq_refl) end);
        (eexists; exists [EMsg (Some r) m]; split; [reflexivity|split; [reflexivity|split; [reflexivity|apply tame_msg]]]).
  Qed.
  Lemma reports_handled r ms : forall w : world, Forall (asks_nothing E) ms ->
    exists w' l, each (handle E (Some r)) ms w = (Ret tt, w') /\ w_hist w' = w_hist w /\ w_log w' = w_log w ++ l /\ tame l.
  Proof.
    induction ms as [|m ms IH]; intros w F; cbn [each].
    - exists w, []. split; [reflexivity|]. rewrite app_nil_r. split; [reflexivity|]. split; [reflexivity|]. intros mi mp pl x [].
    - destruct (report_handled r m w (Forall_inv F)) as (w1 & l1 & H1 & Q1 & L1 & T1). destruct (IH w1 (Forall_inv_tail F)) as (w2 & l2 & H2 & Q2 & L2 & T2).
      exists w2, (l1 ++ l2). unfold mbind. rewrite H1. split; [exact H2|]. split; [congruence|]. split; [rewrite L2, L1, <- app_assoc; reflexivity|apply tame_app; assumption].
  Qed.

  Definition asking (r : nat) (w : world) : sreq :=
    request OpReceive (rp_shell (w_pool w)) (Some (receive_body (lit "stdout") (ps_command_id (the_ps r w)))) (Some keepalive) None.
  Record stepped (r : nat) (a : wresult) (ms : list (message Obj)) (w w' : world) : Prop := {
    st_reg : registered r w';
    st_req : requests w w' [(asking r w, a)];
    st_log : exists l, since w w' l /\ tame l;
    st_cipher : rp_cipher (w_pool w') = rp_cipher (w_pool w);
    st_dis : w_disabled w' = w_disabled w;
    st_cid : ps_command_id (the_ps r w') = ps_command_id (the_ps r w);
    st_state : ps_state (the_ps r w') = final_state E (ps_state (the_ps r w)) ms }.

  Lemma poll_late r (w : world) a : registered r w -> ev_srv E (w_disabled w) (w_hist w) (asking r w) = a -> says a SaidNothing ->
    exists w', poll_invoke E r None w = (Ret tt, w') /\ stepped r a [] w w' /\ rp_receiver (w_pool w') = rp_receiver (w_pool w).
  Proof.
    intros G Ea (f & -> & Cf). pose proof G as (Lr & Ni & Dr & Xr). unfold poll_invoke.
    destruct (ps_id (the_ps r w)) as [|c s] eqn:Eid; [contradiction|].
    unfold receive. rewrite mbind_getp. cbv zeta. rewrite Dr. unfold mbind at 1. unfold getps, get. unfold mbind at 1.
    unfold on_shell, shell_receive, call. fold (asking r w). rewrite Ea. cbn [is_code]. rewrite Cf. change (Z.eqb 2150858793 operation_timeout) with true. cbn iota.
    eexists. split; [reflexivity|]. split; [|reflexivity]. split; try reflexivity; [exact G|]. exists []. split; [unfold since; cbn; rewrite app_nil_r; reflexivity|]. intros mi mp pl x [].
  Qed.
  Lemma poll_said r (w : world) a state rc cs rc' bs ms : registered r w -> ev_srv E (w_disabled w) (w_hist w) (asking r w) = a ->
    says a (Said state rc cs) -> Forall (fun c => fst c = lit "stdout") cs ->
    defragment (rp_receiver (w_pool w)) (on_stream (lit "stdout") (Said state rc cs)) = (rc', Ok bs) ->
    mapM (message_unpack (ev_codec E (rp_cipher (w_pool w)))) bs = Ok ms -> Forall (asks_nothing E) ms ->
    exists w', poll_invoke E r None w = (Ret tt, w') /\ stepped r a ms w w' /\ rp_receiver (w_pool w') = rc'.
  Proof.
    intros G Ea Sa Fc Df Mu Fr. pose proof G as (Lr & Ni & Dr & Xr).
    destruct (parse_stdout a state rc cs Sa Fc) as (b & v & Eb & Pr & Dd). subst a.
    unfold poll_invoke. destruct (ps_id (the_ps r w)) as [|c s] eqn:Eid; [contradiction|].
    unfold receive. rewrite mbind_getp. cbv zeta. rewrite Dr. unfold mbind at 1. unfold getps, get. unfold mbind at 1.
    unfold on_shell, shell_receive, call. fold (asking r w). rewrite Eb. cbn iota. rewrite Pr, Dd.
    set (w1 := set_w_hist (w_hist w ++ [(asking r w, WBody b)]) w).
    unfold parse_responses. rewrite !mbind_getp. change (rp_receiver (w_pool w1)) with (rp_receiver (w_pool w)). change (rp_cipher (w_pool w1)) with (rp_cipher (w_pool w)).
    rewrite Df, mbind_updp, mbind_ok, Mu, mbind_ok. set (w2 := set_w_pool (set_rp_receiver rc' (w_pool w1)) w1).
    destruct (reports_handled r ms w2 Fr) as (w3 & l3 & H3 & Q3 & L3 & T3). unfold mbind. rewrite H3. unfold ret.
    assert (G2 : registered r w2) by exact G.
    destruct (each_handle E r ms w2 w3 (Ret tt) G2 H3) as (qs & l & dn & _ & _ & _ & K & R & D & Oo & Fl & At & X). rewrite (X eq_refl) in At. clear X Fl.
    unfold updps, upd. set (g := fun p : ps Obj Cmd => set_ps_output (ps_output p ++ outputs_of ms) p).
    pose proof (kp_reg _ _ _ K G2) as G3.
    assert (T : the_ps r (set_w_heap (list_upd r g (w_heap w3)) w3) = g (the_ps r w3)) by (apply the_ps_upd_same; apply G3).
    eexists. split; [reflexivity|]. split; [|exact R]. split.
    - unfold registered. rewrite T. cbn [w_heap set_w_heap w_pool]. rewrite list_upd_length. exact G3.
    - unfold requests. cbn [set_w_heap w_hist]. rewrite Q3. reflexivity.
    - exists l3. split; [unfold since; cbn [set_w_heap w_log]; rewrite L3; reflexivity|exact T3].
    - exact (kp_cipher _ _ _ K Xr).
    - exact D.
    - rewrite T. unfold g. cbn [set_ps_output ps_command_id]. apply (kp_settled _ _ _ K).
    - rewrite T. unfold g. cbn [set_ps_output ps_state]. exact (proj1 (proj2 At)).
  Qed.

  Lemma final_app z a b : final_state E z (a ++ b) = final_state E (final_state E z a) b.
  Proof. unfold final_state. apply fold_left_app. Qed.
  Lemma in_turn_next srv h cid a answers q : in_turn srv h cid (a :: answers) -> q_op q = OpReceive -> in_turn srv (h ++ [(q, a)]) cid answers.
  Proof.
    intros T O qs q0 a0 F M O0 B0 Nt. rewrite <- app_assoc. apply (T ([(q, a)] ++ qs) q0 a0).
    - constructor; assumption.
    - cbn [app map length firstn snd]. rewrite M. reflexivity.
    - exact O0.
    - exact B0.
    - exact Nt.
  Qed.

  Lemma ends_after r answers ss : Forall2 says answers ss -> Forall only_stdout ss ->
    forall (w : world) rcf bss mss n, registered r w ->
      in_turn (ev_srv E (w_disabled w)) (w_hist w) (ps_command_id (the_ps r w)) answers ->
      receive_calls (rp_receiver (w_pool w)) (arrived ss) = (rcf, map Ok bss) ->
      Forall2 (fun bs ms => mapM (message_unpack (ev_codec E (rp_cipher (w_pool w)))) bs = Ok ms) bss mss ->
      Forall (Forall (asks_nothing E)) mss ->
      final_state E (ps_state (the_ps r w)) (concat mss) <> pl_running -> length answers <= n ->
      exists k out w' qs l, k <= length answers /\ end_invoke E n r w = (Ret out, w') /\ requests w w' qs /\ since w w' l /\
        map snd qs = firstn k answers /\ Forall (fun e => q_op (fst e) = OpReceive) qs /\
        tame l /\
        ps_state (the_ps r w') = final_state E (ps_state (the_ps r w)) (concat (firstn (length (arrived (firstn k ss))) mss)) /\ ps_state (the_ps r w') <> pl_running.
  Proof.
    assert (Stop : forall (w : world) answers ss mss n, ps_state (the_ps r w) <> pl_running ->
      exists k out w' qs l, k <= length answers /\ end_invoke E n r w = (Ret out, w') /\ requests w w' qs /\ since w w' l /\
        map snd qs = firstn k answers /\ Forall (fun e => q_op (fst e) = OpReceive) qs /\
        tame l /\
        ps_state (the_ps r w') = final_state E (ps_state (the_ps r w)) (concat (firstn (length (arrived (firstn k ss))) mss)) /\ ps_state (the_ps r w') <> pl_running).
    { intros w answers0 ss0 mss0 n0 Ns. exists 0, (ps_output (the_ps r w)), w, [], []. split; [lia|]. split.
      { destruct n0; cbn [end_invoke]; destruct (Z.eqb_spec (ps_state (the_ps r w)) pl_running); (contradiction || reflexivity). }
      split; [unfold requests; rewrite app_nil_r; reflexivity|]. split; [apply since_refl|]. split; [reflexivity|]. split; [constructor|]. cbn. split; [intros mi mp pl x []|]. split; [reflexivity|exact Ns]. }
    induction 1 as [|a s answers ss Sa Fs IH]; intros Fo w rcf bss mss n G T R Mu Fr Fin Ln.
    - cbn [arrived flat_map receive_calls] in R. apply pair_inj in R as [_ R]. destruct bss; [|discriminate R]. inversion Mu. subst mss. apply Stop. exact Fin.
    - destruct (Z.eq_dec (ps_state (the_ps r w)) pl_running) as [Sr|Sr]; [|apply Stop; exact Sr].
      destruct n as [|n]; [cbn [length] in Ln; lia|]. cbn [length] in Ln.
      assert (Ea : ev_srv E (w_disabled w) (w_hist w) (asking r w) = a).
      { rewrite <- (app_nil_r (w_hist w)). apply (T [] (asking r w) a); [constructor|reflexivity|reflexivity|reflexivity|reflexivity]. }
      assert (End : forall w1, end_invoke E (S n) r w = (poll_invoke E r None ;;; end_invoke E n r) w -> poll_invoke E r None w = (Ret tt, w1) -> end_invoke E (S n) r w = end_invoke E n r w1).
      { intros w1 -> P. unfold mbind. rewrite P. reflexivity. }
      assert (Un : end_invoke E (S n) r w = (poll_invoke E r None ;;; end_invoke E n r) w).
      { cbn [end_invoke]. rewrite Sr. reflexivity. }
      assert (Tn : forall ms w1, stepped r a ms w w1 -> in_turn (ev_srv E (w_disabled w1)) (w_hist w1) (ps_command_id (the_ps r w1)) answers).
      { intros ms w1 [_ Q1 _ _ D1 C1 _]. rewrite D1, C1. unfold requests in Q1. rewrite Q1. apply in_turn_next; [exact T|reflexivity]. }
      destruct s as [|state rc cs].
      + destruct (poll_late r w a G Ea Sa) as (w1 & P & St & R1). pose proof (Tn _ _ St) as T1. destruct St as [G1 Q1 (l1 & L1 & T0) C1 D1 I1 S1].
        change (arrived (SaidNothing :: ss)) with (arrived ss) in R. rewrite <- R1 in R. rewrite <- C1 in Mu. unfold final_state in S1. cbn [fold_left] in S1. rewrite <- S1 in Fin.
        destruct (IH (Forall_inv_tail Fo) w1 rcf bss mss n G1 T1 R Mu Fr Fin ltac:(lia)) as (k & out & w' & qs & l & Lk & He & Q & L & Ms & Fq & El & Es & Ns).
        exists (S k), out, w', ((asking r w, a) :: qs), (l1 ++ l). split; [cbn [length]; lia|]. split; [rewrite (End w1 Un P); exact He|].
        split; [unfold requests in *; rewrite Q, Q1, <- app_assoc; reflexivity|]. split; [eapply since_trans; [exact L1|exact L]|].
        split; [cbn [map snd firstn]; rewrite Ms; reflexivity|]. split; [constructor; [reflexivity|exact Fq]|]. cbn [firstn].
        change (arrived (SaidNothing :: firstn k ss)) with (arrived (firstn k ss)). split; [apply tame_app; assumption|]. split; [rewrite Es, S1; reflexivity|exact Ns].
      + change (arrived (Said state rc cs :: ss)) with (on_stream (lit "stdout") (Said state rc cs) :: arrived ss) in R. cbn [receive_calls] in R.
        destruct (defragment (rp_receiver (w_pool w)) (on_stream (lit "stdout") (Said state rc cs))) as [rc1 rb] eqn:Df.
        destruct (receive_calls rc1 (arrived ss)) as [rc2 rs] eqn:R2. apply pair_inj in R as [Er R]. destruct bss as [|bs bss]; [discriminate R|]. cbn [map] in R.
        apply cons_inj in R as [-> ->]. subst rc2. destruct mss as [|ms mss]; [inversion Mu|]. assert (Mu' : mapM (message_unpack (ev_codec E (rp_cipher (w_pool w)))) bs = Ok ms /\ Forall2 (fun bs ms => mapM (message_unpack (ev_codec E (rp_cipher (w_pool w)))) bs = Ok ms) bss mss) by (inversion Mu; auto).
        destruct Mu' as [M1 M2]. clear Mu.
        destruct (poll_said r w a state rc cs rc1 bs ms G Ea Sa (Forall_inv Fo) Df M1 (Forall_inv Fr)) as (w1 & P & St & R1). pose proof (Tn _ _ St) as T1. destruct St as [G1 Q1 (l1 & L1 & T0) C1 D1 I1 S1].
        rewrite <- R1 in R2. rewrite <- C1 in M2. cbn [concat] in Fin. rewrite final_app, <- S1 in Fin.
        destruct (IH (Forall_inv_tail Fo) w1 rcf bss mss n G1 T1 R2 M2 (Forall_inv_tail Fr) Fin ltac:(lia)) as (k & out & w' & qs & l & Lk & He & Q & L & Ms & Fq & El & Es & Ns).
        exists (S k), out, w', ((asking r w, a) :: qs), (l1 ++ l). split; [cbn [length]; lia|]. split; [rewrite (End w1 Un P); exact He|].
        split; [unfold requests in *; rewrite Q, Q1, <- app_assoc; reflexivity|]. split; [eapply since_trans; [exact L1|exact L]|].
        split; [cbn [map snd firstn]; rewrite Ms; reflexivity|]. split; [constructor; [reflexivity|exact Fq]|]. cbn [firstn].
        change (arrived (Said state rc cs :: firstn k ss)) with (on_stream (lit "stdout") (Said state rc cs) :: arrived (firstn k ss)). cbn [length firstn concat].
        split; [apply tame_app; assumption|]. split; [rewrite final_app, <- S1; exact Es|exact Ns].
  Qed.
End Ends.
