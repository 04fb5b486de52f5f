(* C23, C69: waiting for a pipeline comes back with everything. *)
From Verif Require Import Base BaseProofs Lit NumModel TextModel XmlModel WsmanModel ShellModel ShellSpec FragModel FragSpec FragProofs FragProofs2 MsgModel UtilModel TransModel PoolModel PoolSpec PoolProofs PoolProofs5 PoolProofs7 PoolProofs9 EndSpec EndProofs.
From Coq Require Import Permutation.
Require Import Lia ZifyBool ZifyNat ZifyN.

Lemma mapM_batches {A B} (f : A -> res B) l : forall ms, mapM f (concat l) = Ok ms -> exists mss, Forall2 (fun bs ms => mapM f bs = Ok ms) l mss /\ concat mss = ms.
Proof.
  induction l as [|a l IH]; intros ms H; cbn [concat] in H.
  - apply Ok_inj in H. subst. exists []. split; [constructor|reflexivity].
  - rewrite mapM_app in H. apply bind_ok in H as (m1 & H1 & H). apply bind_ok in H as (m2 & H2 & H). apply Ok_inj in H. subst ms.
    destruct (IH m2 H2) as (mss & F & <-). exists (m1 :: mss). split; [constructor; assumption|reflexivity].
Qed.
Lemma f2_len {A B} (P : A -> B -> Prop) l m : Forall2 P l m -> length l = length m.
Proof. induction 1; cbn [length]; congruence. Qed.
Lemma Forall_concat' {A} (P : A -> Prop) ls : Forall P (concat ls) -> Forall (Forall P) ls.
Proof. induction ls as [|l ls IH]; cbn [concat]; [constructor|]. intros F. apply Forall_app in F as [F1 F2]. constructor; auto. Qed.
Lemma arrived_app a b : arrived (a ++ b) = arrived a ++ arrived b.
Proof. apply flat_map_app. Qed.
Lemma concat_firstn {A} j : forall ls : list (list A), exists rest, concat ls = concat (firstn j ls) ++ rest.
Proof. intros ls. exists (concat (skipn j ls)). rewrite <- concat_app, firstn_skipn. reflexivity. Qed.
Lemma concat_single {A} (l : list A) : concat [l] = l.
Proof. cbn. apply app_nil_r. Qed.

Section Ends.
  Context {Obj Cmd HS RK : Type} (E : env Obj Cmd HS RK).
  Notation world := (world Obj Cmd HS RK).

  Lemma returns n r (w : world) answers ss ts ws ms :
    registered r w ->
    in_turn (ev_srv E (w_disabled w)) (w_hist w) (ps_command_id (the_ps r w)) answers ->
    Forall2 says answers ss -> Forall only_stdout ss ->
    NoDup (map t_oid ts) -> Forall (fun t => t_pieces t <> []) ts ->
    (forall t, In t ts -> dict_get Z.eqb (t_oid t) (rp_receiver (w_pool w)) = None) ->
    interleave (map stream ts) (concat ws) -> Forall2 word_wire ws (arrived ss) ->
    mapM (message_unpack (ev_codec E (rp_cipher (w_pool w)))) (concat (map completes ws)) = Ok ms ->
    Forall (asks_nothing E) ms ->
    final_state E (ps_state (the_ps r w)) ms <> pl_running -> length answers <= n ->
    exists mss k out w' qs, Forall2 (fun wd b => mapM (message_unpack (ev_codec E (rp_cipher (w_pool w)))) (completes wd) = Ok b) ws mss /\ concat mss = ms /\
      k <= length answers /\ end_invoke E n r w = (Ret out, w') /\ requests w w' qs /\
      map snd qs = firstn k answers /\ Forall (fun e => q_op (fst e) = OpReceive) qs /\
      (exists l, since w w' l /\ tame l) /\
      ps_state (the_ps r w') = final_state E (ps_state (the_ps r w)) (concat (firstn (length (arrived (firstn k ss))) mss)) /\ ps_state (the_ps r w') <> pl_running.
  Proof.
    intros G T Sa Fo N Np Nr Il Fw Mu Fr Fin Ln.
    destruct (interleaved_delivery ts (rp_receiver (w_pool w)) ws (arrived ss) N Np Nr Il Fw) as (r' & Rc & _ & _). rewrite <- (map_map completes Ok) in Rc.
    destruct (mapM_batches _ _ _ Mu) as (mss & Fm & Em). subst ms.
    destruct (ends_after E r answers ss Sa Fo w r' (map completes ws) mss n G T Rc Fm (Forall_concat' _ _ Fr) Fin Ln) as (k & out & w' & qs & l & Lk & He & Q & L & Ms & Fq & El & Es & Ns).
    exists mss, k, out, w', qs. split. { clear -Fm. revert mss Fm. induction ws as [|a ws IH]; intros mss F; inversion F; subst; constructor; auto. }
    split; [reflexivity|]. split; [exact Lk|]. split; [exact He|]. split; [exact Q|]. split; [exact Ms|]. split; [exact Fq|]. split; [exists l; split; assumption|]. split; [exact Es|exact Ns].
  Qed.

  Definition still_running (m : message Obj) : Prop := forall o, carries PIPELINE_STATE m o -> fst (ev_pipe_state E o) = pl_running.
  Lemma final_running ms : Forall still_running ms -> final_state E pl_running ms = pl_running.
  Proof.
    induction 1 as [|m ms Hm F IH]; [reflexivity|]. unfold final_state in *. cbn [fold_left]. destruct (Z.eqb_spec (m_type m) PIPELINE_STATE) as [T|T]; [|exact IH].
    destruct (carried m) as [o|] eqn:C; [|exact IH]. rewrite (Hm o (conj T C)). exact IH.
  Qed.

  Lemma ends n r (w : world) answers ss state rc cs ts ws wl ms0 ms1 :
    registered r w -> honest (ev_codec E (rp_cipher (w_pool w))) -> ps_state (the_ps r w) = pl_running ->
    in_turn (ev_srv E (w_disabled w)) (w_hist w) (ps_command_id (the_ps r w)) answers ->
    Forall2 says answers (ss ++ [Said state rc cs]) -> Forall only_stdout (ss ++ [Said state rc cs]) ->
    NoDup (map t_oid ts) -> Forall (fun t => t_pieces t <> []) ts ->
    (forall t, In t ts -> dict_get Z.eqb (t_oid t) (rp_receiver (w_pool w)) = None) ->
    interleave (map stream ts) (concat (ws ++ [wl])) -> Forall2 word_wire (ws ++ [wl]) (arrived (ss ++ [Said state rc cs])) ->
    mapM (message_unpack (ev_codec E (rp_cipher (w_pool w)))) (concat (map completes ws)) = Ok ms0 ->
    mapM (message_unpack (ev_codec E (rp_cipher (w_pool w)))) (completes wl) = Ok ms1 ->
    Forall (asks_nothing E) (ms0 ++ ms1) ->
    Forall still_running ms0 -> final_state E pl_running ms1 <> pl_running -> length answers <= n ->
    exists out w' qs l, end_invoke E n r w = (Ret out, w') /\ requests w w' qs /\ since w w' l /\ map snd qs = answers /\ receives qs = answers /\ undisturbed qs l /\
      (forall q a, In (q, a) qs -> q_op q = OpReceive /\ q_body q = Some (receive_body (lit "stdout") (ps_command_id (the_ps r w)))) /\
      Permutation (concat (map completes (ws ++ [wl]))) (map t_msg ts) /\
      out = ps_output (the_ps r w) ++ objects PIPELINE_OUTPUT (ms0 ++ ms1) /\ ps_output (the_ps r w') = out /\
      attended E (the_ps r w) (the_ps r w') (ms0 ++ ms1).
  Proof.
    intros G Hc Sr T Sa Fo N Np Nr Il Fw M0 M1 Fr Fs Fin Ln.
    assert (Mu : mapM (message_unpack (ev_codec E (rp_cipher (w_pool w)))) (concat (map completes (ws ++ [wl]))) = Ok (ms0 ++ ms1)).
    { rewrite map_app, concat_app, mapM_app, M0. cbn [bind map]. rewrite concat_single, M1. reflexivity. }
    assert (Fin' : final_state E (ps_state (the_ps r w)) (ms0 ++ ms1) <> pl_running).
    { rewrite Sr, (final_app E), (final_running ms0 Fs). exact Fin. }
    destruct (returns n r w answers _ ts _ _ G T Sa Fo N Np Nr Il Fw Mu Fr Fin' Ln) as (mss & k & out & w' & qs & Fm & Em & Lk & He & Q & Ms & Fq & (l0 & L & Tl) & Es & Ns).
    assert (La : length answers = S (length ss)) by (rewrite (f2_len _ _ _ Sa), app_length; cbn; lia).
    assert (Ek : k = length answers).
    { destruct (Nat.eq_dec k (length answers)) as [->|Nk]; [reflexivity|]. exfalso. apply Ns. rewrite Es, Sr.
      assert (Lk' : k <= length ss) by lia. rewrite firstn_app. replace (k - length ss) with 0 by lia. cbn [firstn]. rewrite app_nil_r.
      assert (Lw : length ws = length (arrived ss)).
      { pose proof (f2_len _ _ _ Fw) as X. rewrite arrived_app, !app_length in X. cbn in X. lia. }
      assert (Lj : length (arrived (firstn k ss)) <= length ws).
      { rewrite Lw. rewrite <- (firstn_skipn k ss) at 2. rewrite arrived_app, app_length. lia. }
      apply Forall2_app_inv_l in Fm as (mss0 & mssl & F0 & F1 & ->). rewrite firstn_app. rewrite (f2_len _ _ _ F0) in Lj.
      replace (length (arrived (firstn k ss)) - length mss0) with 0 by lia. cbn [firstn]. rewrite app_nil_r.
      destruct (concat_firstn (length (arrived (firstn k ss))) mss0) as (rest & Er).
      assert (E0 : concat mss0 = ms0).
      { clear -F0 M0. revert ms0 M0. induction F0 as [|a b ws mss H F IH]; intros ms0 M0; cbn [map concat] in *; [apply Ok_inj in M0; congruence|].
        rewrite mapM_app, H in M0. cbn [bind] in M0. apply bind_ok in M0 as (m2 & H2 & M0). apply Ok_inj in M0. subst. f_equal. apply IH. exact H2. }
      rewrite E0 in Er. rewrite Er in Fs. apply Forall_app in Fs as [Fs _]. apply final_running. exact Fs. }
    subst k. rewrite firstn_all in Ms.
    destruct (end_collects E n r w w' out G Hc He) as (qs' & l & Q' & L' & As & K).
    assert (qs' = qs) by (unfold requests in *; eapply app_inv_head; rewrite <- Q', <- Q; reflexivity). subst qs'.
    assert (Rq : receives qs = answers).
    { rewrite <- Ms. unfold receives. clear -Fq. induction Fq as [|e qs H F IH]; [reflexivity|]. cbn [filter]. rewrite H. cbn [map]. f_equal. exact IH. }
    assert (U : undisturbed (Obj := Obj) (Cmd := Cmd) qs l).
    { split.
      - intros q a I1 O. rewrite Forall_forall in Fq. specialize (Fq _ I1). cbn [fst] in Fq. congruence.
      - intros mi mp pl f I1. exfalso.
        assert (El : l = l0) by (unfold since in *; eapply app_inv_head; rewrite <- L', <- L; reflexivity).
        rewrite El in I1. exact (Tl _ _ _ _ I1). }
    exists out, w', qs, l. split; [exact He|]. split; [exact Q|]. split; [exact L'|]. split; [exact Ms|]. split; [exact Rq|]. split; [exact U|]. split.
    { intros q a I1. rewrite Forall_forall in Fq. specialize (Fq _ I1). cbn [fst] in Fq. split; [exact Fq|]. exact (As q a I1 Fq). }
    rewrite <- Rq in Sa. destruct (K _ ts (ws ++ [wl]) U Sa N Np Nr Il Fw) as (Pm & ms & Mu' & Oo & Po & At & _).
    assert (ms = ms0 ++ ms1) by congruence. subst ms. split; [exact Pm|]. split; [exact Oo|]. split; [exact Po|exact At].
  Qed.
End Ends.
