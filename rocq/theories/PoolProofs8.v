(* Starting a pipeline (C40, C41), is_alive (C46), keys (C39). *)
From Verif Require Import Base BaseProofs Lit NumModel TextModel XmlModel WsmanModel ShellModel ShellSpec FragModel FragSpec MsgModel UtilModel TransModel PoolModel PoolSpec PoolProofs PoolProofs2 PoolProofs3 PoolProofs4 PoolProofs5 PoolProofs7.
Require Import Lia ZifyBool ZifyNat ZifyN.

Section Begin.
  Context {Obj Cmd HS RK : Type} (E : env Obj Cmd HS RK).
  Notation world := (world Obj Cmd HS RK).
  Notation event := (event Obj Cmd).
  Notation M A := (world -> out A * world).

  (* the creation message and what follows it *)
  Definition creation (a : invoke_args (Obj := Obj)) (p : ps Obj Cmd) (pool_apartment : Z) : omsg Obj Cmd :=
    OCreate (match ia_input a with None => true | Some i => input_falsy E i end)
      (match ia_apartment a with Some z => if Z.eqb z 0 then pool_apartment else z | None => pool_apartment end)
      (ia_options a) (ia_history a) (ps_commands p) (ps_nested p) (ps_history p) (ia_redirect a).
  Inductive yields : option (input (Obj := Obj)) -> list (omsg Obj Cmd) -> Prop :=
  | yields_none : yields None []
  | yields_value i : yields (Some (InValue i)) (input_msgs [i])
  | yields_gen i is_ : yields (Some (InGen (map Some (i :: is_)))) (input_msgs (i :: is_)).
  Definition begun (r : nat) (msgs : list (omsg Obj Cmd)) (w w' : world) : Prop :=
    exists ops bss f rest q x qs,
      let id := ps_id (the_ps r w) in
      mapM (packed E (rp_cipher (w_pool w)) (rp_id (w_pool w)) (Some id)) msgs = Ok (concat (map op_msgs ops)) /\
      run_sends (rp_sender (w_pool w)) ops = Ok (rp_sender (w_pool w'), bss) /\ concat bss = f :: rest /\
      since w w' (map (EOut (Some id)) msgs) /\
      requests w w' ((q, WBody (Some x)) :: qs) /\ q_op q = OpCommand /\
      q_body q = Some (command_line [] (Some [b64encode f]) (Some id)) /\
      exists cid, sends_after cid rest qs /\
        ((r < length (w_heap w))%nat -> forall y, find_first [rsp (lit "CommandResponse"); rsp (lit "CommandId")] x = Some y -> cid = Some (or_empty (x_text y))).
  Lemma begin_done r a ms w w' : yields (ia_input a) ms -> begin_invoke E r a w = (Ret tt, w') ->
    begun r (creation a (the_ps r w) (rp_apartment (w_pool w)) :: ms) w w'.
  Proof.
    intros Y H. unfold begin_invoke in H. rewrite mbind_getps in H.
    destruct (negb _) eqn:_St in H; [exfalso; unfold throw, fail in H; congruence|].
    destruct (ps_commands (the_ps r w)) as [|c cs] eqn:Cm; [exfalso; unfold throw, fail in H; congruence|].
    rewrite mbind_getp in H. rewrite <- Cm in H. apply mbind_ret in H as [[] [w1 [H1 H2]]].
    fold (creation a (the_ps r w) (rp_apartment (w_pool w))) in H1. set (o := creation _ _ _) in *.
    apply ps_invoke_done in H1 as [_ L _ [Sc [Si Sid]] [b [fs [f [q [x [qs [P [F [Q [Qo [Qb [A Hcid]]]]]]]]]]]]].
    set (id := ps_id (the_ps r w)) in *.
    assert (D : forall ms', transmitted E id (ps_command_id (the_ps r w1)) ms' w1 w' -> begun r (o :: ms') w w').
    { intros ms' [ops [bss [qs2 [P2 [S2 [L2 [Q2 A2]]]]]]]. exists (SendOne b :: ops), ((f :: fs) :: bss), f, (fs ++ concat bss), q, x, (qs ++ qs2).
      cbv zeta. fold id. cbn [mapM map op_msgs concat]. rewrite P. cbn [bind]. rewrite Sc, Si in P2. rewrite P2. cbn [bind].
      split; [reflexivity|]. split; [cbn [run_sends send_step]; rewrite F; cbn [bind]; rewrite S2; reflexivity|]. split; [reflexivity|].
      split; [change (EOut (Some id) o :: map (EOut (Some id)) ms') with ([EOut (Some id) o] ++ map (EOut (Some id)) ms'); eapply since_trans; eauto|].
      split; [unfold requests in *; rewrite Q2, Q, <- app_assoc; reflexivity|]. split; [exact Qo|]. split; [exact Qb|].
      exists (ps_command_id (the_ps r w1)). split; [apply Forall2_app; assumption|exact Hcid]. }
    destruct Y as [|i|i is_].
    - assert (w' = w1) as -> by (unfold ret in H2; congruence).
      exists [SendOne b], [f :: fs], f, fs, q, x, qs. cbv zeta. fold id. cbn [mapM map op_msgs concat app]. rewrite P, app_nil_r. cbn [bind].
      split; [reflexivity|]. split; [cbn [run_sends send_step]; rewrite F; reflexivity|]. split; [reflexivity|]. split; [exact L|].
      split; [exact Q|]. split; [exact Qo|]. split; [exact Qb|]. exists (ps_command_id (the_ps r w1)). split; [exact A|exact Hcid].
    - apply D. rewrite <- Sid. exact (send_inputs_done E r i [] w1 w' H2).
    - apply D. rewrite <- Sid. exact (send_inputs_done E r i is_ w1 w' H2).
  Qed.
  Lemma begun_reassembled r msgs w w' : begun r msgs w w' ->
    (1 <= sd_max (rp_sender (w_pool w)) < 2 ^ 32)%Z -> (0 <= sd_counter (rp_sender (w_pool w)))%Z ->
    (sd_counter (rp_sender (w_pool w)) + zlen msgs <= 2 ^ 64)%Z ->
    exists bs f rest q x qs cid, let id := ps_id (the_ps r w) in
      mapM (packed E (rp_cipher (w_pool w)) (rp_id (w_pool w)) (Some id)) msgs = Ok bs /\
      requests w w' ((q, WBody (Some x)) :: qs) /\ q_op q = OpCommand /\
      q_body q = Some (command_line [] (Some [b64encode f]) (Some id)) /\ sends_after cid rest qs /\
      ((r < length (w_heap w))%nat -> forall y, find_first [rsp (lit "CommandResponse"); rsp (lit "CommandId")] x = Some y -> cid = Some (or_empty (x_text y))) /\
      (Forall (fun b => b <> [] /\ (zlen b < 2 ^ 63)%Z) bs ->
       forall rc, (forall k, (sd_counter (rp_sender (w_pool w)) <= k)%Z -> dict_get Z.eqb k rc = None) ->
         delivered (snd (receive_calls rc (f :: rest))) = Ok bs).
  Proof.
    intros [ops [bss [f [rest [q [x [qs [P [S [B [L [Q [Qo [Qb [cid [A Hcid]]]]]]]]]]]]]]]] H1 H2 H3.
    exists (concat (map op_msgs ops)), f, rest, q, x, qs, cid. cbv zeta. repeat (split; [assumption|]).
    intros F rc Hrc. rewrite <- B. eapply run_sends_delivered; eauto.
    assert (Ln : forall (A B : Type) (g : A -> res B) l bs', mapM g l = Ok bs' -> length bs' = length l).
    { clear. intros A B g l. induction l as [|y l IH]; intros bs' H; cbn [mapM] in H; [apply Ok_inj in H; subst; reflexivity|].
      apply bind_ok in H as [z [_ H]]. apply bind_ok in H as [zs [Hz H]]. apply Ok_inj in H. subst. cbn [length]. rewrite (IH _ Hz). reflexivity. }
    apply Ln in P. unfold zlen in *. rewrite P. exact H3.
  Qed.

  (* opening: the whole of the two messages travels only if they fit *)
  Lemma open_asks fuel a w w' : rp_state (w_pool w) = rs_before_open -> sh_opened (rp_shell (w_pool w)) = false -> pool_open E fuel a w = (Ret tt, w') ->
    let os := [capability; OInit (rp_min (w_pool w)) (rp_max (w_pool w)) (rp_thread (w_pool w)) (rp_apartment (w_pool w)) a] in
    exists bs s f rest q x qs,
      mapM (packed E (rp_cipher (w_pool w)) (rp_id (w_pool w)) None) os = Ok bs /\
      fragment_multiple (rp_sender (w_pool w)) bs = Ok (s, f :: rest) /\
      requests w w' ((q, WBody x) :: qs) /\
      q = create_request (rp_shell (w_pool w)) (Some version_option) (Some (content_xml (lit "creationXml") f)).
  Proof.
    intros B O H. cbv zeta. unfold pool_open in H. rewrite mbind_getp, B in H. cbn [Z.eqb rs_before_open rs_opened negb] in H.
    rewrite mbind_getp in H. apply mbind_ret in H as [fs [w1 [F H]]]. apply fragment_many_done in F as [bs [s [P [F Ew1]]]].
    apply mbind_ret in H as [f [w2 [F2 H]]].
    destruct fs as [|f0 fs]; cbn [first_fragment] in F2; [exfalso; unfold throw, fail in F2; congruence|]. unfold ret in F2. apply pair_inj in F2 as [F2 <-].
    assert (f0 = f) as -> by congruence. clear F2.
    apply mbind_ret in H as [b [w3 [S H]]]. rewrite mbind_updp in H. set (w4 := set_w_pool _ w3) in H.
    assert (Hk : exists qs, requests w4 w' qs).
    { pose proof (steps_receive_until E (fun a b : world => exists qs, requests a b qs)) as K.
      assert (Ref : forall w0 : world, exists qs, requests w0 w0 qs) by (intros; exists []; unfold requests; rewrite app_nil_r; reflexivity).
      assert (Tr : forall a b c : world, (exists qs, requests a b qs) -> (exists qs, requests b c qs) -> exists qs, requests a c qs).
      { intros a0 b0 c0 [q1 R1] [q2 R2]. exists (q1 ++ q2). unfold requests in *. rewrite R2, R1, app_assoc. reflexivity. }
      specialize (K Ref Tr).
      match type of H with receive_until E ?n ?d ?w0 = _ => assert (K2 : exists qs, requests w0 (snd (receive_until E n d w0)) qs); [|rewrite H in K2; exact K2] end.
      apply K.
      - intros pl m w0. destruct (handle_effect E pl m w0) as [Fr _ _ _ _ _ _ _ _]. destruct (fr_hist _ _ Fr) as [qs [Q _]]. exists qs; exact Q.
      - intros rc w0. exists []. unfold requests. cbn. rewrite app_nil_r. reflexivity.
      - intros cid t w0. unfold on_shell, shell_receive, call. eexists. reflexivity. }
    destruct Hk as [qs Q].
    unfold on_shell_state, shell_open in S. rewrite Ew1 in S. cbn [w_pool set_w_log set_w_pool set_rp_sender rp_shell w_hist w_disabled] in S. rewrite O in S.
    unfold call in S. set (q := create_request _ _ _) in S.
    destruct (ev_srv E (w_disabled w) (w_hist w) q) as [x|fl|c t|e] eqn:Sv; try (exfalso; congruence).
    destruct (parse_shell_create x _) as [[[]|y] s'] eqn:Pc; [|exfalso; congruence].
    apply pair_inj in S as [_ S]. exists bs, s, f, fs, q, x, qs. split; [exact P|]. split; [exact F|]. split.
    - unfold requests in *. rewrite Q. unfold w4. rewrite <- S. cbn [w_hist set_w_pool set_w_hist]. rewrite <- app_assoc. reflexivity.
    - reflexivity.
  Qed.

  Lemma open_wire fuel a w w' : rp_state (w_pool w) = rs_before_open -> sh_opened (rp_shell (w_pool w)) = false -> pool_open E fuel a w = (Ret tt, w') ->
    let os := [capability; OInit (rp_min (w_pool w)) (rp_max (w_pool w)) (rp_thread (w_pool w)) (rp_apartment (w_pool w)) a] in
    exists bs s f rest q x qs,
      mapM (packed E (rp_cipher (w_pool w)) (rp_id (w_pool w)) None) os = Ok bs /\
      fragment_multiple (rp_sender (w_pool w)) bs = Ok (s, f :: rest) /\
      requests w w' ((q, WBody x) :: qs) /\ q_op q = OpCreate /\
      q_body q = Some (shell_content (rp_shell (w_pool w)) (Some (content_xml (lit "creationXml") f))).
  Proof.
    intros B O H. cbv zeta. destruct (open_asks fuel a w w' B O H) as (bs & s & f & rest & q & x & qs & P & F & Q & ->).
    exists bs, s, f, rest. eexists. exists x, qs. split; [exact P|]. split; [exact F|]. split; [exact Q|]. split; reflexivity.
  Qed.

  (* ---- C46 ---- *)
  Lemma alive_effect t w :
    exists q, let a := ev_srv E true (w_hist w) q in
      let '(r, w') := is_alive E t w in
      q_op q = OpGet /\ q_selectors q = sh_selectors (rp_shell (w_pool w)) /\ q_timeout q = t /\
      requests w w' [(q, a)] /\ w_log w' = w_log w /\ w_heap w' = w_heap w /\ w_disabled w' = w_disabled w /\
      w_pool w' = match r with Ret false => set_rp_state rs_closed (w_pool w) | _ => w_pool w end /\
      match a with
      | WBody (Some b) =>
          r = Ret (negb (match find_first [rsp (lit "Shell")] b with
                         | Some e => match dict_get str_eqb (lit "State") (fold_left (fun d c => dict_set str_eqb (field_name (x_tag c)) (x_text c) d) (x_children e) []) with
                                     | Some (Some s) => str_eqb s (lit "Disconnected") | _ => false end
                         | None => false end))
      | WBody None => r = Raise (XExn AttributeError)
      | WFault f => r = if fault_closed (XFault f) then Ret false else Raise (XFault f)
      | WHttp c x => r = Raise (XHttp c x)
      | WExn e => r = if net_closed (XExn e) then Ret false else Raise (XExn e)
      end.
  Proof.
    unfold is_alive, on_shell, get_shell, call. cbn [w_disabled w_pool w_hist set_w_disabled].
    set (q := Build_sreq _ _ _ _ _ _). exists q. cbv zeta. set (a := ev_srv E true (w_hist w) q).
    destruct a as [[b|]|f|c x|e].
    - destruct (find_first _ b) as [e|]; cbn [dict_get].
      + destruct (dict_get _ _ _) as [[s|]|]; [destruct (str_eqb s _)|..]; repeat split.
      + repeat split.
    - repeat split.
    - assert (N : net_closed (XFault f) = false) by reflexivity. rewrite N, orb_false_r.
      destruct (fault_closed (XFault f)); repeat split.
    - repeat split.
    - assert (N : fault_closed (XExn e) = false) by reflexivity. rewrite N. cbn [orb].
      destruct (net_closed (XExn e)); repeat split.
  Qed.
  Lemma alive_closed t w w' : is_alive E t w = (Ret false, w') -> pool_close E w' = (Ret tt, w').
  Proof.
    intros H. destruct (alive_effect t w) as [q K]. cbv zeta in K. rewrite H in K. destruct K as [_ [_ [_ [_ [_ [_ [_ [P _]]]]]]]].
    unfold pool_close. rewrite mbind_getp, P. reflexivity.
  Qed.

  (* ---- C39 ---- *)
  Lemma wait_done fuel start : forall w x w', key_wait E fuel start w = (Ret x, w') -> rp_exchanged (w_pool w') = true.
  Proof.
    induction fuel as [|fuel IH]; intros w x w' H; cbn [key_wait] in H; destruct (rp_exchanged (w_pool w)) eqn:D;
      try (assert (w' = w) as -> by congruence; exact D); destruct (Z.ltb _ _); try (exfalso; congruence).
    apply mbind_ret in H as [y [w1 [_ H]]]. eapply IH; exact H.
  Qed.
  Lemma exchange_done fuel w w' : rp_exchange (w_pool w) = None -> rp_exchanged (w_pool w) = false -> exchange_keys E fuel w = (Ret tt, w') ->
    rp_exchanged (w_pool w') = true /\
    exists blob l, let k := ev_keygen E (w_hist w) in
      public_blob (ev_modulus E k) (ev_exponent E k) = Ok blob /\ since w w' (EOut None (OPublicKey (b64encode blob)) :: l) /\ public_keys l = [].
  Proof.
    intros K X H. pose proof (keyed_op E fuel ExchangeKeys w) as Ky. cbn [run_op] in Ky. rewrite H in Ky. cbn [snd] in Ky. destruct Ky as [l0 [L0 [N0 _]]].
    unfold exchange_keys in H. rewrite !mbind_getp, X, K in H. rewrite mbind_get, mbind_updp in H.
    set (k := ev_keygen E (w_hist w)) in *. set (w1 := set_w_pool _ w) in H.
    destruct (public_blob _ _) as [blob|e] eqn:Pb; [|exfalso; unfold lift, throw, fail, mbind in H; congruence]. rewrite mbind_ok in H.
    destruct (fragment_one_effect E (OPublicKey (b64encode blob)) None w1) as [[e Fe]|[b [s [fs [_ [_ Fo]]]]]].
    { rewrite (mbind_raise _ _ _ _ _ Fe) in H. exfalso; congruence. }
    rewrite (mbind_some _ _ _ _ _ Fo) in H. set (w2 := set_w_log _ _) in H. apply mbind_ret in H as [[] [w3 [S H]]]. rewrite mbind_get in H.
    pose proof (keyed_wait E fuel (ev_clock E (w_hist w3)) w3) as [l [L _]]. rewrite H in L. cbn [snd] in L.
    destruct (sends_const E (lit "stdin") None fs w2) as [qs [Q _]]. rewrite S in Q. cbn [snd] in Q.
    assert (LL : since w w' (EOut None (OPublicKey (b64encode blob)) :: l)).
    { unfold since in *. rewrite L, Q. cbn [w_log set_w_hist]. unfold w2. cbn [w_log set_w_log]. rewrite <- app_assoc. reflexivity. }
    split; [exact (wait_done _ _ _ _ _ H)|]. exists blob, l. cbv zeta. fold k. split; [exact Pb|]. split; [exact LL|].
    unfold since in L0, LL. rewrite L0 in LL. apply app_inv_head in LL. subst l0. cbn [public_keys flat_map app] in N0. fold (public_keys l) in N0.
    destruct N0 as [N0|[[k' N0] _]]; [discriminate N0|]. apply cons_inj in N0 as [_ N0]. exact N0.
  Qed.
  Lemma key_reply pl m o k b d w : carries ENCRYPTED_SESSION_KEY m o -> rp_exchange (w_pool w) = Some k ->
    b64decode (ev_session_key E o) = Ok b -> ev_decrypt E k (rev (slice_from b 12)) = Ok d -> (length d = 16 \/ length d = 24 \/ length d = 32)%nat ->
    exists w', handle E pl m w = (Ret tt, w') /\ rp_exchanged (w_pool w') = true /\ rp_exchange (w_pool w') = None /\ rp_cipher (w_pool w') = Some d /\ w_hist w' = w_hist w.
  Proof.
    intros [T C] K B D L. unfold handle. rewrite mbind_observe. fold (logged pl m w). unfold process_message. rewrite T.
    change (Z.eqb ENCRYPTED_SESSION_KEY SESSION_CAPABILITY) with false. rewrite Z.eqb_refl. cbv iota.
    destruct (data_obj_case m (process_session_key E) (logged pl m w)) as [[C' _]|[o' [C' ->]]]; [congruence|].
    assert (o' = o) as -> by congruence. unfold process_session_key. rewrite B, mbind_ok, mbind_getp. change (rp_exchange (w_pool (logged pl m w))) with (rp_exchange (w_pool w)).
    rewrite K, D, mbind_ok. assert (X : (Nat.eqb (length d) 16 || Nat.eqb (length d) 24 || Nat.eqb (length d) 32)%bool = true).
    { destruct L as [-> | [-> | ->]]; reflexivity. }
    rewrite X. eexists. split; [reflexivity|]. repeat split.
  Qed.
  Lemma key_request_ignored pl m w : m_type m = PUBLIC_KEY_REQUEST -> handle E pl m w = (Ret tt, logged pl m w).
  Proof. intros T. unfold handle. rewrite mbind_observe. unfold process_message. rewrite T. reflexivity. Qed.
End Begin.
