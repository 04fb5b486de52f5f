(* C73: the exchange of keys comes back. *)
From Verif Require Import Base BaseProofs Lit NumModel TextModel XmlModel WsmanModel ShellModel ShellSpec FragModel FragSpec FragProofs FragProofs2 MsgModel UtilModel UtilSpec UtilProofs TransModel PoolModel PoolSpec PoolProofs PoolProofs2 PoolProofs5 PoolProofs7 PoolProofs8 EndSpec EndProofs EndProofs2 WaitSpec WaitProofs.
Require Import Lia ZifyBool ZifyNat ZifyN.

Section Keys.
  Context {Obj Cmd HS RK : Type} (E : env Obj Cmd HS RK).
  Notation world := (world Obj Cmd HS RK).
  Notation msgs := (list (message Obj)).
  Context (c : option bytes) (k : RK) (d : bytes) (lim : Z).

  Definition is_key (m : message Obj) : bool := Z.eqb (m_type m) ENCRYPTED_SESSION_KEY.
  Definition kept_still (w w' : world) : Prop := w_hist w' = w_hist w /\ rp_receiver (w_pool w') = rp_receiver (w_pool w) /\ w_disabled w' = w_disabled w.
  Definition key_inv (pre : msgs) (w : world) : Prop :=
    rp_key_timeout (w_pool w) = lim /\
    if existsb is_key pre then rp_exchanged (w_pool w) = true /\ rp_exchange (w_pool w) = None /\ rp_cipher (w_pool w) = Some d
    else rp_exchanged (w_pool w) = false /\ rp_exchange (w_pool w) = Some k /\ rp_cipher (w_pool w) = c.
  Definition key_ok (pre : msgs) (m : message Obj) : Prop := remarks m \/ (unlocks E k d m /\ existsb is_key pre = false).

  Lemma key_step pre m w : key_inv pre w -> key_ok pre m -> exists w', handle E None m w = (Ret tt, w') /\ kept_still w w' /\ key_inv (pre ++ [m]) w'.
  Proof.
    intros Hp [T|[(o & b & (T & C) & B & D & L) Np]]; unfold key_inv in *; rewrite existsb_app; cbn [existsb]; rewrite orb_false_r; unfold handle; rewrite mbind_observe; unfold process_message, is_key at 2.
    - unfold remarks in T. repeat (destruct T as [T|T]; [rewrite <- T; cbn [Z.eqb]|]); [..|destruct T];
        (rewrite orb_false_r; destruct (m_data m); cbn [data_obj]; eexists; (split; [reflexivity|]); (split; [repeat split|exact Hp])).
    - rewrite T. types. rewrite orb_true_r. rewrite Np in Hp. destruct Hp as (Hl & H1 & H2 & H3).
      match goal with |- exists w', data_obj _ _ ?wl = _ /\ _ => set (w1 := wl) end.
      destruct (data_obj_case m (process_session_key E) w1) as [[C' _]|[o' [C' ->]]]; [congruence|].
      assert (o' = o) as -> by congruence. unfold process_session_key. rewrite B, mbind_ok, mbind_getp. change (rp_exchange (w_pool w1)) with (rp_exchange (w_pool w)). rewrite H2, D, mbind_ok.
      assert (X : (Nat.eqb (length d) 16 || Nat.eqb (length d) 24 || Nat.eqb (length d) 32)%bool = true) by (destruct L as [-> | [-> | ->]]; reflexivity).
      rewrite X. eexists. split; [reflexivity|]. split; [repeat split|]. split; [exact Hl|]. repeat split.
  Qed.
  Lemma key_batch ms : forall pre w, key_inv pre w -> okall key_ok pre ms -> exists w', each (handle E None) ms w = (Ret tt, w') /\ kept_still w w' /\ key_inv (pre ++ ms) w'.
  Proof.
    induction ms as [|m ms IH]; intros pre w Hp Ho; cbn [each okall] in *.
    - exists w. rewrite app_nil_r. split; [reflexivity|]. split; [repeat split|exact Hp].
    - destruct Ho as [O1 O2]. destruct (key_step pre m w Hp O1) as (w1 & H1 & (A1 & A2 & A3) & P1). destruct (IH _ _ P1 O2) as (w2 & H2 & (B1 & B2 & B3) & P2).
      exists w2. unfold mbind. rewrite H1. split; [exact H2|]. split; [unfold kept_still; rewrite B1, B2, B3; auto|]. rewrite <- app_assoc in P2. exact P2.
  Qed.
  Lemma key_receive (w : world) a state rc cs rc' bs ms pre : key_inv pre w -> ev_srv E (w_disabled w) (w_hist w) (asking_pool w) = a ->
    says a (Said state rc cs) -> Forall (fun c => fst c = lit "stdout") cs ->
    defragment (rp_receiver (w_pool w)) (on_stream (lit "stdout") (Said state rc cs)) = (rc', Ok bs) ->
    mapM (message_unpack (ev_codec E (rp_cipher (w_pool w)))) bs = Ok ms -> okall key_ok pre ms ->
    exists w', receive E None None w = (Ret ms, w') /\ requests w w' [(asking_pool w, a)] /\ rp_receiver (w_pool w') = rc' /\ w_disabled w' = w_disabled w /\ key_inv (pre ++ ms) w'.
  Proof.
    intros Hp Ea Sa Fc Df Mu Ok1. destruct (parse_stdout a state rc cs Sa Fc) as (b & v & Eb & Pr & Dd). subst a.
    unfold receive. rewrite mbind_getp. cbv zeta. unfold mbind at 1. unfold ret at 1. unfold mbind at 1.
    unfold on_shell, shell_receive, call. fold (asking_pool w). rewrite Eb. cbn iota. rewrite Pr, Dd.
    set (w1 := set_w_hist (w_hist w ++ [(asking_pool w, WBody b)]) w).
    unfold parse_responses. rewrite !mbind_getp. change (rp_receiver (w_pool w1)) with (rp_receiver (w_pool w)). change (rp_cipher (w_pool w1)) with (rp_cipher (w_pool w)).
    rewrite Df, mbind_updp, mbind_ok, Mu, mbind_ok. set (w2 := set_w_pool (set_rp_receiver rc' (w_pool w1)) w1).
    assert (P2 : key_inv pre w2) by exact Hp.
    destruct (key_batch ms pre w2 P2 Ok1) as (w3 & H3 & (C1 & C2 & C4) & P3). unfold mbind. rewrite H3.
    exists w3. split; [reflexivity|]. split; [unfold requests; rewrite C1; reflexivity|]. split; [exact C2|]. split; [exact C4|exact P3].
  Qed.
  Lemma in_time_next h a answers q0 : q_op q0 = OpReceive -> forall start,
    (forall qs, Forall (fun e => q_op (fst e) = OpReceive) qs -> map snd qs = firstn (length qs) (a :: answers) -> ev_clock E (h ++ qs) - start <= lim)%Z ->
    (forall qs, Forall (fun e => q_op (fst e) = OpReceive) qs -> map snd qs = firstn (length qs) answers -> ev_clock E ((h ++ [(q0, a)]) ++ qs) - start <= lim)%Z.
  Proof. intros Hq start H qs F M. rewrite <- app_assoc. apply (H ((q0, a) :: qs)); [constructor; [exact Hq|exact F]|]. cbn [map snd length firstn]. rewrite M. reflexivity. Qed.
  Lemma key_until answers ss : Forall2 says answers ss -> Forall only_stdout ss -> Forall not_late ss ->
    forall (w : world) pre rcf bss mss n start, key_inv pre w ->
      in_turn (ev_srv E (w_disabled w)) (w_hist w) None answers ->
      (forall qs, Forall (fun e => q_op (fst e) = OpReceive) qs -> map snd qs = firstn (length qs) answers -> ev_clock E (w_hist w ++ qs) - start <= lim)%Z ->
      receive_calls (rp_receiver (w_pool w)) (arrived ss) = (rcf, map Ok bss) ->
      Forall2 (fun bs ms => mapM (message_unpack (ev_codec E c)) bs = Ok ms) bss mss ->
      okall key_ok pre (concat mss) -> existsb is_key (pre ++ concat mss) = true -> length answers <= n ->
      exists j w' qs, j <= length answers /\ key_wait E n start w = (Ret tt, w') /\ requests w w' qs /\ map snd qs = firstn j answers /\
        rp_exchanged (w_pool w') = true /\ rp_exchange (w_pool w') = None /\ rp_cipher (w_pool w') = Some d.
  Proof.
    assert (Stop : forall (w : world) pre (answers : list wresult) n start, key_inv pre w -> existsb is_key pre = true ->
      exists j w' qs, j <= length answers /\ key_wait E n start w = (Ret tt, w') /\ requests w w' qs /\ map snd qs = firstn j answers /\
        rp_exchanged (w_pool w') = true /\ rp_exchange (w_pool w') = None /\ rp_cipher (w_pool w') = Some d).
    { intros w pre answers0 n start Hp Hd. unfold key_inv in Hp. rewrite Hd in Hp. destruct Hp as (_ & H1 & H2 & H3). exists 0, w, []. split; [lia|]. split; [destruct n; cbn [key_wait]; rewrite H1; reflexivity|].
      split; [unfold requests; rewrite app_nil_r; reflexivity|]. split; [reflexivity|]. auto. }
    induction 1 as [|a s answers ss Sa Fs IH]; intros Fo Fl w pre rcf bss mss n start Hp T Cl R Mu Ok1 Dn Ln.
    - cbn [arrived flat_map receive_calls] in R. apply pair_inj in R as [_ R]. destruct bss; [|discriminate R]. inversion Mu. subst mss.
      cbn [concat] in Dn. rewrite app_nil_r in Dn. exact (Stop w pre [] n start Hp Dn).
    - destruct (existsb is_key pre) eqn:Hd; [exact (Stop w pre _ n start Hp Hd)|]. destruct n as [|n]; [cbn [length] in Ln; lia|]. cbn [length] in Ln.
      assert (Ea : ev_srv E (w_disabled w) (w_hist w) (asking_pool w) = a).
      { rewrite <- (app_nil_r (w_hist w)). apply (T [] (asking_pool w) a); [constructor|reflexivity|reflexivity|reflexivity|reflexivity]. }
      assert (Tm : Z.ltb lim (ev_clock E (w_hist w) - start) = false).
      { specialize (Cl [] (Forall_nil _) eq_refl). rewrite app_nil_r in Cl. apply Z.ltb_ge. exact Cl. }
      destruct s as [|state rc cs]; [exfalso; exact (Forall_inv Fl eq_refl)|].
      change (arrived (Said state rc cs :: ss)) with (on_stream (lit "stdout") (Said state rc cs) :: arrived ss) in R. cbn [receive_calls] in R.
      destruct (defragment (rp_receiver (w_pool w)) (on_stream (lit "stdout") (Said state rc cs))) as [rc1 rb] eqn:Df.
      destruct (receive_calls rc1 (arrived ss)) as [rc2 rs] eqn:R2. apply pair_inj in R as [Er R]. destruct bss as [|bs bss]; [discriminate R|]. cbn [map] in R.
      apply cons_inj in R as [-> ->]. subst rc2. destruct mss as [|ms mss]; [inversion Mu|].
      assert (Mu' : mapM (message_unpack (ev_codec E c)) bs = Ok ms /\ Forall2 (fun bs ms => mapM (message_unpack (ev_codec E c)) bs = Ok ms) bss mss) by (inversion Mu; auto).
      destruct Mu' as [M1 M2]. clear Mu. cbn [concat] in Ok1, Dn. apply okall_app in Ok1 as [O1 O2]. rewrite app_assoc in Dn.
      pose proof Hp as Hp0. unfold key_inv in Hp0. rewrite Hd in Hp0. destruct Hp0 as (Hl & X1 & X2 & X3).
      rewrite <- X3 in M1. destruct (key_receive w a state rc cs rc1 bs ms pre Hp Ea Sa (Forall_inv Fo) Df M1 O1) as (w1 & Rv & Q1 & R1 & D1 & P1).
      rewrite <- R1 in R2.
      assert (T1 : in_turn (ev_srv E (w_disabled w1)) (w_hist w1) None answers).
      { rewrite D1. unfold requests in Q1. rewrite Q1. apply in_turn_next; [exact T|reflexivity]. }
      assert (Cl1 : forall qs, Forall (fun e => q_op (fst e) = OpReceive) qs -> map snd qs = firstn (length qs) answers -> (ev_clock E (w_hist w1 ++ qs) - start <= lim)%Z).
      { unfold requests in Q1. rewrite Q1. apply in_time_next; [reflexivity|exact Cl]. }
      destruct (IH (Forall_inv_tail Fo) (Forall_inv_tail Fl) w1 _ rcf bss mss n start P1 T1 Cl1 R2 M2 O2 Dn ltac:(lia)) as (j & w' & qs & Lk & He & Q & Ms & Fin).
      exists (S j), w', ((asking_pool w, a) :: qs). split; [cbn [length]; lia|]. split. { cbn [key_wait]. rewrite X1, Hl, Tm. unfold mbind. rewrite Rv. exact He. }
      split; [unfold requests in *; rewrite Q, Q1, <- app_assoc; reflexivity|]. split; [cbn [map snd firstn]; rewrite Ms; reflexivity|exact Fin].
  Qed.
End Keys.

Section Exchange.
  Context {Obj Cmd HS RK : Type} (E : env Obj Cmd HS RK).
  Notation world := (world Obj Cmd HS RK).
  (* sends that were all taken *)
  Lemma sends_taken stream cid fs : forall (w : world) qs, snd (each (fun f => send E stream f cid) fs w) = set_w_hist (w_hist w ++ qs) w -> Forall (fun e => exists b, snd e = WBody b) qs ->
    fst (each (fun f => send E stream f cid) fs w) = Ret tt.
  Proof.
    induction fs as [|f fs IH]; intros w qs H F; cbn [each] in *; [reflexivity|].
    destruct (send_effect E stream f cid w) as (q & r & Es & _). unfold mbind in *. rewrite Es in *.
    destruct r as [b|fl|cc t|e]; cbn [fst snd] in H.
    - set (w2 := set_w_hist (w_hist w ++ [(q, WBody b)]) w) in *. destruct (sends_const E stream cid fs w2) as (qs2 & Q2 & _). apply (IH w2 qs2 Q2).
      rewrite H in Q2. apply (f_equal w_hist) in Q2. cbn in Q2. rewrite <- app_assoc in Q2. apply app_inv_head in Q2. subst qs. exact (Forall_inv_tail F).
    - apply (f_equal w_hist) in H. cbn in H. apply app_inv_head in H. subst qs. destruct (Forall_inv F) as (b & C). discriminate C.
    - apply (f_equal w_hist) in H. cbn in H. apply app_inv_head in H. subst qs. destruct (Forall_inv F) as (b & C). discriminate C.
    - apply (f_equal w_hist) in H. cbn in H. apply app_inv_head in H. subst qs. destruct (Forall_inv F) as (b & C). discriminate C.
  Qed.
  Lemma keys_return n (w w1 : world) d qs0 answers ss ts ws ms0 m ms1 :
    rp_exchanged (w_pool w) = false -> rp_exchange (w_pool w) = None ->
    exchange_keys E 0 w = (Raise (XExn OutOfFuel), w1) -> requests w w1 qs0 -> all_taken qs0 ->
    in_turn (ev_srv E (w_disabled w1)) (w_hist w1) None answers -> in_time E (w_hist w1) answers (rp_key_timeout (w_pool w)) ->
    Forall2 says answers ss -> Forall only_stdout ss -> Forall not_late ss ->
    NoDup (map t_oid ts) -> Forall (fun t => t_pieces t <> []) ts ->
    (forall t, In t ts -> dict_get Z.eqb (t_oid t) (rp_receiver (w_pool w1)) = None) ->
    interleave (map stream ts) (concat ws) -> Forall2 word_wire ws (arrived ss) ->
    mapM (message_unpack (ev_codec E (rp_cipher (w_pool w1)))) (concat (map completes ws)) = Ok (ms0 ++ m :: ms1) ->
    Forall remarks ms0 -> unlocks E (ev_keygen E (w_hist w)) d m -> Forall remarks ms1 -> length answers <= n ->
    exists j w' qs, j <= length answers /\ exchange_keys E n w = (Ret tt, w') /\ requests w1 w' qs /\ map snd qs = firstn j answers /\
      rp_exchanged (w_pool w') = true /\ rp_exchange (w_pool w') = None /\ rp_cipher (w_pool w') = Some d.
  Proof.
    intros X K H0 Qw [Ne Ft] T Cl Sa Fo Fl N Np Nr Il Fw Mu F0 Cm F1 Ln.
    destruct (interleaved_delivery ts (rp_receiver (w_pool w1)) ws (arrived ss) N Np Nr Il Fw) as (r' & Rc & _ & _). rewrite <- (map_map completes Ok) in Rc.
    destruct (mapM_batches _ _ _ Mu) as (mss & Fm & Em).
    assert (No : w_hist w1 = w_hist w -> False).
    { intros E0. unfold requests in Qw. rewrite E0 in Qw. rewrite <- (app_nil_r (w_hist w)) in Qw at 1. apply app_inv_head in Qw. congruence. }
    unfold exchange_keys in *. rewrite !mbind_getp in *. rewrite X, K in *. rewrite mbind_get, mbind_updp in *.
    set (k := ev_keygen E (w_hist w)) in *. set (w2 := set_w_pool _ w) in *.
    destruct (public_blob _ _) as [blob|e]; [|exfalso; unfold lift, throw, fail, mbind in H0; apply pair_inj in H0 as [_ <-]; apply No; reflexivity]. rewrite mbind_ok in *.
    destruct (fragment_one_effect E (OPublicKey (b64encode blob)) None w2) as [[e Fe]|[b [s [fs [_ [_ Fr]]]]]].
    { rewrite (mbind_raise _ _ _ _ _ Fe) in H0. apply pair_inj in H0 as [_ <-]. exfalso. apply No. reflexivity. }
    rewrite (mbind_some _ _ _ _ _ Fr) in H0. rewrite (mbind_some _ _ _ _ _ Fr). set (w3 := set_w_log _ _) in *.
    destruct (sends_const E (lit "stdin") None fs w3) as (qs3 & Q3 & _).
    assert (Wh : qs3 = qs0 /\ fst (each (fun f => send E (lit "stdin") f None) fs w3) = Ret tt).
    { assert (Hh : fst (each (fun f => send E (lit "stdin") f None) fs w3) = Ret tt \/ w_hist w1 = w_hist w3 ++ qs3).
      { unfold mbind in H0. destruct (each _ fs w3) as [[u|x] w4]; cbn [fst snd] in *; [left; destruct u; reflexivity|right]. apply pair_inj in H0 as [_ <-]. rewrite Q3. reflexivity. }
      assert (Hw : w_hist w3 = w_hist w) by reflexivity.
      destruct Hh as [Hr|Hh].
      - split; [|exact Hr]. unfold mbind in H0. destruct (each _ fs w3) as [[u|x] w4]; cbn [fst snd] in *; [|discriminate Hr]. cbn [get key_wait] in H0.
        assert (w_hist w1 = w_hist w3 ++ qs3).
        { subst w4. destruct (rp_exchanged _); [apply pair_inj in H0 as [C _]; discriminate C|]. destruct (Z.ltb _ _); apply pair_inj in H0 as [_ <-]; reflexivity. }
        unfold requests in Qw. rewrite Qw, Hw in H. apply app_inv_head in H. auto.
      - assert (Eq : qs3 = qs0) by (unfold requests in Qw; rewrite Qw, Hw in Hh; apply app_inv_head in Hh; auto). split; [exact Eq|]. rewrite <- Eq in Ft. exact (sends_taken (lit "stdin") None fs w3 qs3 Q3 Ft). }
    destruct Wh as [-> Sr]. unfold mbind in H0. unfold mbind. destruct (each _ fs w3) as [[u|x] w4]; cbn [fst snd] in *; [|discriminate Sr]. clear Sr. cbn [get] in *.
    assert (W : w4 = w1).
    { cbn [key_wait] in H0. destruct (rp_exchanged (w_pool w4)); [apply pair_inj in H0 as [C _]; discriminate C|].
      destruct (Z.ltb _ _); apply pair_inj in H0 as [C H0]; [discriminate C|exact H0]. }
    subst w4. assert (W4 : key_inv (rp_cipher (w_pool w1)) k d (rp_key_timeout (w_pool w)) [] w1).
    { unfold key_inv. cbn [existsb]. rewrite <- W. repeat split. exact X. }
    rewrite W. clear H0.
    assert (Rm : forall l, Forall remarks l -> existsb (@is_key Obj) l = false).
    { intros l F. induction F as [|y l H F IH]; [reflexivity|]. cbn [existsb]. rewrite IH, orb_false_r. unfold remarks in H. unfold is_key. repeat (destruct H as [<-|H]; [reflexivity|]). destruct H. }
    assert (Ta : is_key m = true) by (destruct Cm as (o & b1 & (Tm & _) & _); unfold is_key; rewrite Tm; reflexivity).
    apply (key_until E (rp_cipher (w_pool w1)) k d (rp_key_timeout (w_pool w)) answers ss Sa Fo Fl w1 [] r' (map completes ws) mss n (ev_clock E (w_hist w1)) W4 T); try assumption.
    - rewrite Em. clear -F0 F1 Cm Rm Ta.
      assert (R : forall l pre, Forall remarks l -> okall (key_ok E k d) pre l) by (induction l as [|y l IH]; intros pre F; cbn [okall]; [exact Logic.I|]; split; [left; exact (Forall_inv F)|apply IH; exact (Forall_inv_tail F)]).
      assert (G : forall l pre, Forall remarks l -> existsb (@is_key Obj) pre = false -> okall (key_ok E k d) pre (l ++ m :: ms1)).
      { induction l as [|y l IH]; intros pre F Np; cbn [app okall].
        - split; [right; split; assumption|apply R; exact F1].
        - split; [left; exact (Forall_inv F)|]. apply IH; [exact (Forall_inv_tail F)|]. rewrite existsb_app, Np. cbn [orb]. exact (Rm [y] (Forall_cons y (Forall_inv F) (Forall_nil remarks))). }
      apply G; [exact F0|reflexivity].
    - rewrite Em. cbn [app]. rewrite existsb_app. cbn [existsb]. rewrite Ta. apply orb_true_r.
  Qed.
  (* while a key pair is held nothing is sent *)
  Lemma keys_held n (w : world) k : rp_exchange (w_pool w) = Some k -> exchange_keys E n w = (Ret tt, w).
  Proof. intros K. unfold exchange_keys. rewrite !mbind_getp, K. destruct (rp_exchanged _); reflexivity. Qed.
End Exchange.
