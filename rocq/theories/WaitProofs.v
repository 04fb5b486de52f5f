(* C73: a pool that waits comes back. *)
From Verif Require Import Base BaseProofs Lit NumModel TextModel XmlModel WsmanModel ShellModel ShellSpec FragModel FragSpec FragProofs FragProofs2 MsgModel UtilModel UtilSpec UtilProofs TransModel PoolModel PoolSpec PoolProofs PoolProofs2 PoolProofs5 PoolProofs7 EndSpec EndProofs EndProofs2 WaitSpec.
Require Import Lia ZifyBool ZifyNat ZifyN.

Section Until.
  Context {Obj Cmd HS RK : Type} (E : env Obj Cmd HS RK).
  Notation world := (world Obj Cmd HS RK).
  Notation msgs := (list (message Obj)).

  Definition calm (w w' : world) : Prop :=
    w_hist w' = w_hist w /\ rp_receiver (w_pool w') = rp_receiver (w_pool w) /\ rp_cipher (w_pool w') = rp_cipher (w_pool w) /\ w_disabled w' = w_disabled w.
  Definition asking_pool (w : world) : sreq := request OpReceive (rp_shell (w_pool w)) (Some (receive_body (lit "stdout") None)) (Some keepalive) None.

  Context (P : msgs -> world -> Prop) (okk : msgs -> message Obj -> Prop) (done : world -> bool) (dn : msgs -> bool)
    (Pdone : forall pre w, P pre w -> done w = dn pre)
    (Pstable : forall pre w h rc, P pre w -> P pre (set_w_pool (set_rp_receiver rc (w_pool (set_w_hist h w))) (set_w_hist h w)))
    (Pstep : forall pre m w, P pre w -> okk pre m -> exists w', handle E None m w = (Ret tt, w') /\ calm w w' /\ P (pre ++ [m]) w').

  Fixpoint okall (pre ms : msgs) : Prop := match ms with [] => True | m :: ms' => okk pre m /\ okall (pre ++ [m]) ms' end.
  Lemma okall_app a : forall pre b, okall pre (a ++ b) -> okall pre a /\ okall (pre ++ a) b.
  Proof.
    induction a as [|m a IH]; intros pre b H; cbn [app okall] in *; [rewrite app_nil_r; auto|]. destruct H as [H1 H2]. destruct (IH _ _ H2) as [H3 H4].
    split; [split; assumption|]. rewrite <- app_assoc in H4. exact H4.
  Qed.
  Lemma calm_trans a b c : calm a b -> calm b c -> calm a c.
  Proof. intros (A1 & A2 & A3 & A4) (B1 & B2 & B3 & B4). unfold calm. rewrite B1, B2, B3, B4. auto. Qed.
  Lemma batch ms : forall pre w, P pre w -> okall pre ms -> exists w', each (handle E None) ms w = (Ret tt, w') /\ calm w w' /\ P (pre ++ ms) w'.
  Proof.
    induction ms as [|m ms IH]; intros pre w Hp Ho; cbn [each okall] in *.
    - exists w. rewrite app_nil_r. split; [reflexivity|]. split; [repeat split|exact Hp].
    - destruct Ho as [O1 O2]. destruct (Pstep pre m w Hp O1) as (w1 & H1 & C1 & P1). destruct (IH _ _ P1 O2) as (w2 & H2 & C2 & P2).
      exists w2. unfold mbind. rewrite H1. split; [exact H2|]. split; [eapply calm_trans; eauto|]. rewrite <- app_assoc in P2. exact P2.
  Qed.
  Lemma receive_said (w : world) a state rc cs rc' bs ms pre : P pre w -> ev_srv E (w_disabled w) (w_hist w) (asking_pool w) = a ->
    says a (Said state rc cs) -> Forall (fun c => fst c = lit "stdout") cs ->
    defragment (rp_receiver (w_pool w)) (on_stream (lit "stdout") (Said state rc cs)) = (rc', Ok bs) ->
    mapM (message_unpack (ev_codec E (rp_cipher (w_pool w)))) bs = Ok ms -> okall pre ms ->
    exists w', receive E None None w = (Ret ms, w') /\ requests w w' [(asking_pool w, a)] /\ rp_receiver (w_pool w') = rc' /\ rp_cipher (w_pool w') = rp_cipher (w_pool w) /\ w_disabled w' = w_disabled w /\ P (pre ++ ms) w'.
  Proof.
    intros Hp Ea Sa Fc Df Mu Ok1. destruct (parse_stdout a state rc cs Sa Fc) as (b & v & Eb & Pr & Dd). subst a.
    unfold receive. rewrite mbind_getp. cbv zeta. unfold mbind at 1. unfold ret at 1. unfold mbind at 1.
    unfold on_shell, shell_receive, call. fold (asking_pool w). rewrite Eb. cbn iota. rewrite Pr, Dd.
    set (w1 := set_w_hist (w_hist w ++ [(asking_pool w, WBody b)]) w).
    unfold parse_responses. rewrite !mbind_getp. change (rp_receiver (w_pool w1)) with (rp_receiver (w_pool w)). change (rp_cipher (w_pool w1)) with (rp_cipher (w_pool w)).
    rewrite Df, mbind_updp, mbind_ok, Mu, mbind_ok. set (w2 := set_w_pool (set_rp_receiver rc' (w_pool w1)) w1).
    assert (P2 : P pre w2) by (apply Pstable; exact Hp).
    destruct (batch ms pre w2 P2 Ok1) as (w3 & H3 & (C1 & C2 & C3 & C4) & P3). unfold mbind. rewrite H3.
    exists w3. split; [reflexivity|]. split; [unfold requests; rewrite C1; reflexivity|]. split; [exact C2|]. split; [exact C3|]. split; [exact C4|exact P3].
  Qed.
  Lemma until answers ss : Forall2 says answers ss -> Forall only_stdout ss -> Forall not_late ss ->
    forall (w : world) pre rcf bss mss n, P pre w ->
      in_turn (ev_srv E (w_disabled w)) (w_hist w) None answers ->
      receive_calls (rp_receiver (w_pool w)) (arrived ss) = (rcf, map Ok bss) ->
      Forall2 (fun bs ms => mapM (message_unpack (ev_codec E (rp_cipher (w_pool w)))) bs = Ok ms) bss mss ->
      okall pre (concat mss) -> dn (pre ++ concat mss) = true -> length answers <= n ->
      exists k w' qs used rest, k <= length answers /\ receive_until E n done w = (Ret tt, w') /\ done w' = true /\ requests w w' qs /\
        map snd qs = firstn k answers /\ concat mss = used ++ rest /\ P (pre ++ used) w'.
  Proof.
    assert (Stop : forall (w : world) pre (answers : list wresult) (ms : msgs) n, P pre w -> done w = true ->
      exists k w' qs used rest, k <= length answers /\ receive_until E n done w = (Ret tt, w') /\ done w' = true /\ requests w w' qs /\
        map snd qs = firstn k answers /\ ms = used ++ rest /\ P (pre ++ used) w').
    { intros w pre answers0 ms n Hp Hd. exists 0, w, [], [], ms. split; [lia|]. split; [destruct n; cbn [receive_until]; rewrite Hd; reflexivity|]. split; [exact Hd|].
      split; [unfold requests; rewrite app_nil_r; reflexivity|]. split; [reflexivity|]. split; [reflexivity|]. rewrite app_nil_r. exact Hp. }
    induction 1 as [|a s answers ss Sa Fs IH]; intros Fo Fl w pre rcf bss mss n Hp T R Mu Ok1 Dn Ln.
    - cbn [arrived flat_map receive_calls] in R. apply pair_inj in R as [_ R]. destruct bss; [|discriminate R]. inversion Mu. subst mss. apply Stop; [exact Hp|].
      cbn [concat] in Dn. rewrite app_nil_r in Dn. rewrite (Pdone _ _ Hp). exact Dn.
    - destruct (done w) eqn:Hd; [apply Stop; assumption|]. destruct n as [|n]; [cbn [length] in Ln; lia|]. cbn [length] in Ln.
      assert (Ea : ev_srv E (w_disabled w) (w_hist w) (asking_pool w) = a).
      { rewrite <- (app_nil_r (w_hist w)). apply (T [] (asking_pool w) a); [constructor|reflexivity|reflexivity|reflexivity|reflexivity]. }
      destruct s as [|state rc cs]; [exfalso; exact (Forall_inv Fl eq_refl)|].
      change (arrived (Said state rc cs :: ss)) with (on_stream (lit "stdout") (Said state rc cs) :: arrived ss) in R. cbn [receive_calls] in R.
      destruct (defragment (rp_receiver (w_pool w)) (on_stream (lit "stdout") (Said state rc cs))) as [rc1 rb] eqn:Df.
      destruct (receive_calls rc1 (arrived ss)) as [rc2 rs] eqn:R2. apply pair_inj in R as [Er R]. destruct bss as [|bs bss]; [discriminate R|]. cbn [map] in R.
      apply cons_inj in R as [-> ->]. subst rc2. destruct mss as [|ms mss]; [inversion Mu|].
      assert (Mu' : mapM (message_unpack (ev_codec E (rp_cipher (w_pool w)))) bs = Ok ms /\ Forall2 (fun bs ms => mapM (message_unpack (ev_codec E (rp_cipher (w_pool w)))) bs = Ok ms) bss mss) by (inversion Mu; auto).
      destruct Mu' as [M1 M2]. clear Mu. cbn [concat] in Ok1, Dn. apply okall_app in Ok1 as [O1 O2]. rewrite app_assoc in Dn.
      destruct (receive_said w a state rc cs rc1 bs ms pre Hp Ea Sa (Forall_inv Fo) Df M1 O1) as (w1 & Rv & Q1 & R1 & C1 & D1 & P1).
      rewrite <- R1 in R2. rewrite <- C1 in M2.
      assert (T1 : in_turn (ev_srv E (w_disabled w1)) (w_hist w1) None answers).
      { rewrite D1. unfold requests in Q1. rewrite Q1. apply in_turn_next; [exact T|reflexivity]. }
      destruct (IH (Forall_inv_tail Fo) (Forall_inv_tail Fl) w1 _ rcf bss mss n P1 T1 R2 M2 O2 Dn ltac:(lia)) as (k & w' & qs & used & rest & Lk & He & Hd' & Q & Ms & Eu & P').
      exists (S k), w', ((asking_pool w, a) :: qs), (ms ++ used), rest. split; [cbn [length]; lia|]. split. { cbn [receive_until]. rewrite Hd. unfold mbind. rewrite Rv. exact He. }
      split; [exact Hd'|]. split; [unfold requests in *; rewrite Q, Q1, <- app_assoc; reflexivity|]. split; [cbn [map snd firstn]; rewrite Ms; reflexivity|].
      split; [cbn [concat]; rewrite Eu, <- app_assoc; reflexivity|]. rewrite app_assoc. exact P'.
  Qed.
End Until.

Ltac types := repeat match goal with |- context [Z.eqb ?a ?b] => let v := eval vm_compute in (Z.eqb a b) in match v with true => change (Z.eqb a b) with true | false => change (Z.eqb a b) with false end end; cbn iota.

Section Pools.
  Context {Obj Cmd HS RK : Type} (E : env Obj Cmd HS RK).
  Notation world := (world Obj Cmd HS RK).
  Notation msgs := (list (message Obj)).

  (* ---- opening ---- *)
  Definition open_inv (pre : msgs) (w : world) : Prop := rp_state (w_pool w) = pool_said E rs_negotiation_sent pre.
  Lemma pool_said_snoc z pre m : pool_said E z (pre ++ [m]) =
    if Z.eqb (m_type m) RUNSPACEPOOL_STATE then match carried m with Some o => ev_pool_state E o | None => pool_said E z pre end else pool_said E z pre.
  Proof. unfold pool_said. rewrite fold_left_app. reflexivity. Qed.
  Lemma version_readable v : version_parts v -> exists b, version_equal_or_newer (dotted v) (lit "2.2") = Ok b.
  Proof.
    intros V. assert (R : version_parts [lit "2"; lit "2"]) by (split; [discriminate|]; repeat constructor; try discriminate; unfold digit; cbn; lia).
    change (lit "2.2") with (dotted [lit "2"; lit "2"]). destruct (version_compare v [lit "2"; lit "2"] V R) as (b & H & _). eauto.
  Qed.
  Lemma open_step pre m w : open_inv pre w -> greets E m -> exists w', handle E None m w = (Ret tt, w') /\ calm w w' /\ open_inv (pre ++ [m]) w'.
  Proof.
    intros Hp G. unfold open_inv in *. rewrite pool_said_snoc. unfold handle. rewrite mbind_observe. unfold process_message.
    destruct G as [T|[[T V]|[T V]]].
    - repeat (destruct T as [T|T]; [rewrite <- T; cbn [Z.eqb]|]); [..|destruct T];
        (destruct (m_data m); cbn [data_obj]; unfold process_init_data; try (destruct (ev_init E o)); eexists; (split; [reflexivity|]); (split; [repeat split|exact Hp])).
    - rewrite T. types. destruct (m_data m) eqn:D; cbn [data_obj];
        try (eexists; split; [reflexivity|]; split; [repeat split|exact Hp]);
        (assert (Co : carried m = Some o) by (unfold carried; rewrite D; reflexivity); destruct (V o Co) as (v & Ev & Vp); unfold process_session_capability;
         destruct (ev_capability E o) as [[p pv] sv]; cbn [fst] in Ev; subst p; rewrite mbind_updp; destruct (version_readable v Vp) as (b & ->); rewrite mbind_ok, mbind_getp;
         match goal with |- context [if ?c then _ else _] => destruct c end; eexists; (split; [reflexivity|]); (split; [repeat split|exact Hp])).
    - rewrite T. types. unfold carried in *. destruct (m_data m) eqn:D; cbn [data_obj];
        try (eexists; split; [reflexivity|]; split; [repeat split|exact Hp]);
        (specialize (V o eq_refl); unfold process_pool_state; rewrite mbind_updp; destruct (Z.eqb_spec (ev_pool_state E o) rs_broken) as [C|C]; [contradiction|];
         eexists; (split; [reflexivity|]); (split; [repeat split|reflexivity])).
  Qed.
  Lemma observe_each {A} (f : A -> event Obj Cmd) l : forall w : world, exists w', each (fun o => observe (f o)) l w = (Ret tt, w') /\ w_pool w' = w_pool w.
  Proof.
    induction l as [|a l IH]; intros w; cbn [each]; [exists w; split; reflexivity|]. rewrite mbind_observe. destruct (IH (set_w_log (w_log w ++ [f a]) w)) as (w' & H & Pw). exists w'. split; [exact H|exact Pw].
  Qed.
  Lemma fragn_state os pid (w : world) : rp_state (w_pool (snd (fragment_many E os pid w))) = rp_state (w_pool w).
  Proof.
    unfold fragment_many. rewrite !mbind_getp. destruct (mapM (packed E (rp_cipher (w_pool w)) (rp_id (w_pool w)) pid) os) as [bs|e]; [|reflexivity]. rewrite mbind_ok.
    destruct (fragment_multiple (rp_sender (w_pool w)) bs) as [[s fs]|e]; [|reflexivity]. rewrite mbind_ok, mbind_updp. unfold mbind.
    destruct (observe_each (fun o => EOut pid o) os (set_w_pool (set_rp_sender (fst (s, fs)) (w_pool w)) w)) as (w' & -> & Pw). cbn [snd ret]. rewrite Pw. reflexivity.
  Qed.

  Lemma open_returns n a (w w1 : world) answers ss ts ws ms :
    rp_state (w_pool w) = rs_before_open -> pool_open E 0 a w = (Raise (XExn OutOfFuel), w1) -> rp_state (w_pool w1) = rs_negotiation_sent ->
    in_turn (ev_srv E (w_disabled w1)) (w_hist w1) None answers ->
    Forall2 says answers ss -> Forall only_stdout ss -> Forall not_late ss ->
    NoDup (map t_oid ts) -> Forall (fun t => t_pieces t <> []) ts ->
    (forall t, In t ts -> dict_get Z.eqb (t_oid t) (rp_receiver (w_pool w1)) = None) ->
    interleave (map stream ts) (concat ws) -> Forall2 word_wire ws (arrived ss) ->
    mapM (message_unpack (ev_codec E (rp_cipher (w_pool w1)))) (concat (map completes ws)) = Ok ms ->
    Forall (greets E) ms -> pool_said E rs_negotiation_sent ms <> rs_negotiation_sent -> length answers <= n ->
    exists k w' qs heard rest, k <= length answers /\ pool_open E n a w = (Ret tt, w') /\ requests w1 w' qs /\ map snd qs = firstn k answers /\
      ms = heard ++ rest /\ rp_state (w_pool w') = pool_said E rs_negotiation_sent heard /\ rp_state (w_pool w') <> rs_negotiation_sent.
  Proof.
    intros B H0 S1 T Sa Fo Fl N Np Nr Il Fw Mu Fr Fin Ln.
    destruct (interleaved_delivery ts (rp_receiver (w_pool w1)) ws (arrived ss) N Np Nr Il Fw) as (r' & Rc & _ & _). rewrite <- (map_map completes Ok) in Rc.
    destruct (mapM_batches _ _ _ Mu) as (mss & Fm & Em). subst ms.
    set (done := fun w : world => negb (Z.eqb (rp_state (w_pool w)) rs_negotiation_sent)).
    assert (U : exists k w' qs used rest, k <= length answers /\ receive_until E n done w1 = (Ret tt, w') /\ done w' = true /\ requests w1 w' qs /\
        map snd qs = firstn k answers /\ concat mss = used ++ rest /\ open_inv ([] ++ used) w').
    { apply (until E open_inv (fun _ m => greets E m) done (fun pre => negb (Z.eqb (pool_said E rs_negotiation_sent pre) rs_negotiation_sent))) with (ss := ss) (rcf := r') (bss := map completes ws); try assumption.
      - intros pre w0 Hp. unfold done. rewrite Hp. reflexivity.
      - intros pre w0 h rc Hp. exact Hp.
      - intros pre m w0. apply open_step.
      - clear -Fr. generalize (@nil (message Obj)). induction (concat mss) as [|m l IH]; intros pre; cbn [okall]; [exact Logic.I|]. split; [exact (Forall_inv Fr)|apply IH; exact (Forall_inv_tail Fr)].
      - cbn [app]. destruct (Z.eqb_spec (pool_said E rs_negotiation_sent (concat mss)) rs_negotiation_sent); [contradiction|reflexivity]. }
    destruct U as (k & w' & qs & used & rest & Lk & He & Hd & Q & Ms & Eu & Ei).
    exists k, w', qs, used, rest. split; [exact Lk|]. split; [|split; [exact Q|split; [exact Ms|split; [exact Eu|split; [exact Ei|]]; unfold done in Hd; destruct (Z.eqb_spec (rp_state (w_pool w')) rs_negotiation_sent); [discriminate Hd|assumption]]]].
    unfold pool_open in *. rewrite mbind_getp in *. rewrite B in *. change (Z.eqb rs_before_open rs_opened) with false in *. change (Z.eqb rs_before_open rs_before_open) with true in *. cbn [negb] in *.
    rewrite mbind_getp in *. unfold mbind at 1 in H0. unfold mbind at 1.
    match type of H0 with context [fragment_many E ?os ?p w] => pose proof (fragn_state os p w) as F1; destruct (fragment_many E os p w) as [[fs|x] w2] end; cbn [snd] in F1.
    2: { apply pair_inj in H0 as [_ <-]. rewrite F1, B in S1. discriminate S1. }
    unfold mbind at 1 in H0. unfold mbind at 1. destruct fs as [|f fs]; cbn [first_fragment] in *.
    { unfold throw, fail in H0. apply pair_inj in H0 as [C _]. discriminate C. }
    unfold ret at 1 in H0. unfold ret at 1. unfold mbind at 1 in H0. unfold mbind at 1. unfold on_shell_state in *.
    match type of H0 with context [shell_open ?s ?o ?c ?sh ?h] => destruct (shell_open s o c sh h) as [[[v|x] sh'] h'] end.
    2: { apply pair_inj in H0 as [_ <-]. change (rp_state (w_pool w2) = rs_negotiation_sent) in S1. rewrite F1, B in S1. discriminate S1. }
    rewrite mbind_updp in *. cbn [receive_until] in H0.
    match type of H0 with context [if ?c then _ else _] => destruct c; [discriminate H0|] end. apply pair_inj in H0 as [_ H0]. rewrite H0. exact He.
  Qed.

  (* ---- the limits ---- *)
  Definition fits (k : handler) (x : rval) : Prop := match k with HAvailable => exists z, x = VInt z | _ => x = VBool true end.
  Definition said_to (ci : Z) (x : rval) (m : message Obj) : Prop := exists o, carries RUNSPACE_AVAILABILITY m o /\ ev_availability E o = (ci, x).
  Definition limit_inv (ci : Z) (k : handler) (x : rval) (pre : msgs) (w : world) : Prop :=
    slot_of ci w = Some (if existsb (fun m => Z.eqb (m_type m) RUNSPACE_AVAILABILITY) pre then SValue x else SHandler k).
  Definition limit_ok (ci : Z) (x : rval) (pre : msgs) (m : message Obj) : Prop :=
    remarks m \/ (said_to ci x m /\ existsb (fun m => Z.eqb (m_type m) RUNSPACE_AVAILABILITY) pre = false).
  Lemma limit_step ci k x pre m w : fits k x -> limit_inv ci k x pre w -> limit_ok ci x pre m ->
    exists w', handle E None m w = (Ret tt, w') /\ calm w w' /\ limit_inv ci k x (pre ++ [m]) w'.
  Proof.
    intros Hk Hp [T|((o & (T & C) & Ev) & Np)]; unfold limit_inv in *; rewrite existsb_app; cbn [existsb]; rewrite orb_false_r; unfold handle; rewrite mbind_observe; unfold process_message.
    - unfold remarks in T. repeat (destruct T as [T|T]; [rewrite <- T; cbn [Z.eqb]|]); [..|destruct T];
        (rewrite orb_false_r; destruct (m_data m); cbn [data_obj]; eexists; (split; [reflexivity|]); (split; [repeat split|exact Hp])).
    - rewrite T. types. rewrite orb_true_r. rewrite Np in Hp. unfold carried in C.
      assert (K : data_obj (m_data m) (process_availability E) (set_w_log (w_log w ++ [EMsg None m]) w) = process_availability E o (set_w_log (w_log w ++ [EMsg None m]) w)) by (destruct (m_data m); cbn [data_obj]; first [discriminate C | apply Some_inj in C; subst; reflexivity]).
      assert (P : exists w', process_availability E o (set_w_log (w_log w ++ [EMsg None m]) w) = (Ret tt, w') /\ calm w w' /\ slot_of ci w' = Some (SValue x)).
      { unfold process_availability. rewrite Ev, mbind_getp. unfold slot_of in Hp. change (rp_table (w_pool (set_w_log (w_log w ++ [EMsg None m]) w))) with (rp_table (w_pool w)). rewrite Hp.
        unfold mbind. destruct k; cbn [fits] in Hk; [subst x|subst x|destruct Hk as (z & ->)|subst x]; cbn [rfalsy negb]; unfold ret;
          (eexists; split; [reflexivity|]; split; [repeat split|]; unfold slot_of; cbn; apply dict_get_set_same; intros; apply Z.eqb_eq). }
      destruct P as (w' & H & Cl & Sl). exists w'. split; [|split; [exact Cl|exact Sl]].
      exact (eq_trans K H).
  Qed.
  Lemma until_answered n ci k x done (w1 : world) answers ss ts ws ms0 m ms1 : fits k x -> (forall y, done (Some (SValue x)) = true /\ done (Some (SHandler y)) = false) ->
    slot_of ci w1 = Some (SHandler k) ->
    in_turn (ev_srv E (w_disabled w1)) (w_hist w1) None answers ->
    Forall2 says answers ss -> Forall only_stdout ss -> Forall not_late ss ->
    NoDup (map t_oid ts) -> Forall (fun t => t_pieces t <> []) ts ->
    (forall t, In t ts -> dict_get Z.eqb (t_oid t) (rp_receiver (w_pool w1)) = None) ->
    interleave (map stream ts) (concat ws) -> Forall2 word_wire ws (arrived ss) ->
    mapM (message_unpack (ev_codec E (rp_cipher (w_pool w1)))) (concat (map completes ws)) = Ok (ms0 ++ m :: ms1) ->
    Forall remarks ms0 -> said_to ci x m -> Forall remarks ms1 -> length answers <= n ->
    exists j w' qs, j <= length answers /\ receive_until E n (fun w => done (slot_of ci w)) w1 = (Ret tt, w') /\ requests w1 w' qs /\ map snd qs = firstn j answers /\ slot_of ci w' = Some (SValue x).
  Proof.
    intros Hk Hd S1 T Sa Fo Fl N Np Nr Il Fw Mu F0 Cm F1 Ln.
    destruct (interleaved_delivery ts (rp_receiver (w_pool w1)) ws (arrived ss) N Np Nr Il Fw) as (r' & Rc & _ & _). rewrite <- (map_map completes Ok) in Rc.
    destruct (mapM_batches _ _ _ Mu) as (mss & Fm & Em).
    assert (Rm : forall l, Forall remarks l -> existsb (fun m : message Obj => Z.eqb (m_type m) RUNSPACE_AVAILABILITY) l = false).
    { intros l F. induction F as [|y l H F IH]; [reflexivity|]. cbn [existsb]. rewrite IH, orb_false_r. unfold remarks in H. repeat (destruct H as [<-|H]; [reflexivity|]). destruct H. }
    assert (Ta : m_type m = RUNSPACE_AVAILABILITY) by (destruct Cm as (o & (Tm & _) & _); exact Tm).
    assert (U : exists j w' qs used rest, j <= length answers /\ receive_until E n (fun w => done (slot_of ci w)) w1 = (Ret tt, w') /\ done (slot_of ci w') = true /\ requests w1 w' qs /\
        map snd qs = firstn j answers /\ concat mss = used ++ rest /\ limit_inv ci k x ([] ++ used) w').
    { apply (until E (limit_inv ci k x) (limit_ok ci x) (fun w => done (slot_of ci w)) (fun pre => existsb (fun m => Z.eqb (m_type m) RUNSPACE_AVAILABILITY) pre)) with (ss := ss) (rcf := r') (bss := map completes ws); try assumption.
      - intros pre w0 Hp. unfold limit_inv in Hp. rewrite Hp. destruct (Hd k) as [D1 D2]. destruct (existsb _ pre); assumption.
      - intros pre w0 h rc Hp. exact Hp.
      - intros pre m0 w0 Hp Ho. exact (limit_step ci k x pre m0 w0 Hk Hp Ho).
      - rewrite Em. clear -F0 F1 Cm Rm Ta.
        assert (R : forall l pre, Forall remarks l -> okall (limit_ok ci x) pre l) by (induction l as [|y l IH]; intros pre F; cbn [okall]; [exact Logic.I|]; split; [left; exact (Forall_inv F)|apply IH; exact (Forall_inv_tail F)]).
        assert (G : forall l pre, Forall remarks l -> existsb (fun m : message Obj => Z.eqb (m_type m) RUNSPACE_AVAILABILITY) pre = false -> okall (limit_ok ci x) pre (l ++ m :: ms1)).
        { induction l as [|y l IH]; intros pre F Np; cbn [app okall].
          - split; [right; split; assumption|apply R; exact F1].
          - split; [left; exact (Forall_inv F)|]. apply IH; [exact (Forall_inv_tail F)|]. rewrite existsb_app, Np. cbn [existsb orb]. rewrite orb_false_r. specialize (Rm [y] (Forall_cons y (Forall_inv F) (Forall_nil remarks))). cbn [existsb] in Rm. rewrite orb_false_r in Rm. exact Rm. }
        apply G; [exact F0|reflexivity].
      - rewrite Em. cbn [app]. rewrite existsb_app. cbn [existsb]. rewrite Ta. cbn. apply orb_true_r. }
    destruct U as (j & w' & qs & used & rest & Lj & He & Dw & Q & Ms & _ & Iw). exists j, w', qs. split; [exact Lj|]. split; [exact He|]. split; [exact Q|]. split; [exact Ms|].
    unfold limit_inv in Iw. rewrite Iw in *. destruct (existsb _ ([] ++ used)); [reflexivity|]. rewrite (proj2 (Hd k)) in Dw. discriminate Dw.
  Qed.
  Lemma ask_accepted k mk (w : world) x w1 q b : ask E k mk w = (x, w1) -> requests w w1 [(q, WBody b)] ->
    x = Ret (rp_ci (w_pool w)) /\ slot_of (rp_ci (w_pool w)) w1 = Some (SHandler k).
  Proof.
    intros H Q. unfold ask, new_call in H. unfold mbind at 1 in H. rewrite mbind_getp, mbind_updp in H. unfold ret at 1 in H.
    set (w0 := set_w_pool _ w) in H.
    assert (S0 : slot_of (rp_ci (w_pool w)) w0 = Some (SHandler k)) by (unfold slot_of, w0; cbn; apply dict_get_set_same; intros; apply Z.eqb_eq).
    assert (No : w_hist w1 = w_hist w -> False).
    { intros E0. unfold requests in Q. rewrite E0 in Q. rewrite <- (app_nil_r (w_hist w)) in Q at 1. apply app_inv_head in Q. discriminate Q. }
    unfold mbind at 1 in H. destruct (fragment_one_effect E (mk (rp_ci (w_pool w))) None w0) as [(e & Fe)|(b0 & s & fs & _ & _ & Fo)].
    { rewrite Fe in H. apply pair_inj in H as [_ <-]. exfalso. apply No. reflexivity. }
    rewrite Fo in H. unfold mbind at 1 in H. destruct fs as [|f fs]; cbn [first_fragment] in H.
    { unfold throw, fail in H. apply pair_inj in H as [_ <-]. exfalso. apply No. reflexivity. }
    unfold ret at 1 in H. unfold mbind in H. set (w2 := set_w_log _ _) in H.
    destruct (send_effect E (lit "stdin") f None w2) as (q' & r & Es & _). rewrite Es in H.
    assert (Er : r = WBody b).
    { assert (Hh : w_hist w1 = w_hist w ++ [(q', r)]) by (destruct r; unfold ret in H; apply pair_inj in H as [_ <-]; reflexivity).
      unfold requests in Q. rewrite Hh in Q. apply app_inv_head in Q. congruence. }
    subst r. unfold ret in H. apply pair_inj in H as [<- <-]. split; [reflexivity|exact S0].
  Qed.
End Pools.

(* ---- the two limits, as their setters ---- *)
Section Limits.
  Context {Obj Cmd HS RK : Type} (E : env Obj Cmd HS RK).
  Notation world := (world Obj Cmd HS RK).
  Lemma min_returns n v (w w1 : world) q b answers ss ts ws ms0 m ms1 :
    rp_state (w_pool w) = rs_opened -> rval_is (rp_min (w_pool w)) v = false ->
    set_min_runspaces E 0 v w = (Raise (XExn OutOfFuel), w1) -> requests w w1 [(q, WBody b)] ->
    in_turn (ev_srv E (w_disabled w1)) (w_hist w1) None answers ->
    Forall2 says answers ss -> Forall only_stdout ss -> Forall not_late ss ->
    NoDup (map t_oid ts) -> Forall (fun t => t_pieces t <> []) ts ->
    (forall t, In t ts -> dict_get Z.eqb (t_oid t) (rp_receiver (w_pool w1)) = None) ->
    interleave (map stream ts) (concat ws) -> Forall2 word_wire ws (arrived ss) ->
    mapM (message_unpack (ev_codec E (rp_cipher (w_pool w1)))) (concat (map completes ws)) = Ok (ms0 ++ m :: ms1) ->
    Forall remarks ms0 -> confirms E (rp_ci (w_pool w)) m -> Forall remarks ms1 -> length answers <= n ->
    exists j w' qs, j <= length answers /\ set_min_runspaces E n v w = (Ret tt, w') /\ requests w1 w' qs /\ map snd qs = firstn j answers /\ rp_min (w_pool w') = VInt v.
  Proof.
    intros So Nv H0 Qw T Sa Fo Fl N Np Nr Il Fw Mu F0 Cm F1 Ln. unfold set_min_runspaces in *. rewrite !mbind_getp in *. rewrite So, Nv in *. change (Z.eqb rs_opened rs_opened) with true in *. cbn [negb] in *.
    unfold mbind at 1 in H0. unfold mbind at 1. destruct (ask E HSetMin (fun ci => OSetMin v ci) w) as [[ci|x] w2] eqn:Ak.
    2: { apply pair_inj in H0 as [_ <-]. destruct (ask_accepted E _ _ _ _ _ _ _ Ak Qw) as [C _]. discriminate C. }
    assert (W : w2 = w1).
    { unfold mbind in H0. cbn [receive_until] in H0. destruct (is_bool (slot_of ci w2)); [cbn in H0; apply pair_inj in H0 as [C _]; discriminate C|]. apply pair_inj in H0 as [_ H0]. exact H0. }
    subst w2. destruct (ask_accepted E _ _ _ _ _ _ _ Ak Qw) as [C Sl]. assert (ci = rp_ci (w_pool w)) by congruence. subst ci.
    destruct (until_answered E n _ HSetMin (VBool true) is_bool w1 answers ss ts ws ms0 m ms1 eq_refl (fun y => conj eq_refl eq_refl) Sl T Sa Fo Fl N Np Nr Il Fw Mu F0 Cm F1 Ln) as (j & w' & qs & Lj & He & Q & Ms & _).
    exists j. eexists. exists qs. split; [exact Lj|]. split; [unfold mbind; rewrite He; reflexivity|]. split; [exact Q|]. split; [exact Ms|reflexivity].
  Qed.
  Lemma max_returns n v (w w1 : world) q b answers ss ts ws ms0 m ms1 :
    rp_state (w_pool w) = rs_opened -> rval_is (rp_max (w_pool w)) v = false ->
    set_max_runspaces E 0 v w = (Raise (XExn OutOfFuel), w1) -> requests w w1 [(q, WBody b)] ->
    in_turn (ev_srv E (w_disabled w1)) (w_hist w1) None answers ->
    Forall2 says answers ss -> Forall only_stdout ss -> Forall not_late ss ->
    NoDup (map t_oid ts) -> Forall (fun t => t_pieces t <> []) ts ->
    (forall t, In t ts -> dict_get Z.eqb (t_oid t) (rp_receiver (w_pool w1)) = None) ->
    interleave (map stream ts) (concat ws) -> Forall2 word_wire ws (arrived ss) ->
    mapM (message_unpack (ev_codec E (rp_cipher (w_pool w1)))) (concat (map completes ws)) = Ok (ms0 ++ m :: ms1) ->
    Forall remarks ms0 -> confirms E (rp_ci (w_pool w)) m -> Forall remarks ms1 -> length answers <= n ->
    exists j w' qs, j <= length answers /\ set_max_runspaces E n v w = (Ret tt, w') /\ requests w1 w' qs /\ map snd qs = firstn j answers /\ rp_max (w_pool w') = VInt v.
  Proof.
    intros So Nv H0 Qw T Sa Fo Fl N Np Nr Il Fw Mu F0 Cm F1 Ln. unfold set_max_runspaces in *. rewrite !mbind_getp in *. rewrite So, Nv in *. change (Z.eqb rs_opened rs_opened) with true in *. cbn [negb] in *.
    unfold mbind at 1 in H0. unfold mbind at 1. destruct (ask E HSetMax (fun ci => OSetMax v ci) w) as [[ci|x] w2] eqn:Ak.
    2: { apply pair_inj in H0 as [_ <-]. destruct (ask_accepted E _ _ _ _ _ _ _ Ak Qw) as [C _]. discriminate C. }
    assert (W : w2 = w1).
    { unfold mbind in H0. cbn [receive_until] in H0. destruct (is_bool (slot_of ci w2)); [cbn in H0; apply pair_inj in H0 as [C _]; discriminate C|]. apply pair_inj in H0 as [_ H0]. exact H0. }
    subst w2. destruct (ask_accepted E _ _ _ _ _ _ _ Ak Qw) as [C Sl]. assert (ci = rp_ci (w_pool w)) by congruence. subst ci.
    destruct (until_answered E n _ HSetMax (VBool true) is_bool w1 answers ss ts ws ms0 m ms1 eq_refl (fun y => conj eq_refl eq_refl) Sl T Sa Fo Fl N Np Nr Il Fw Mu F0 Cm F1 Ln) as (j & w' & qs & Lj & He & Q & Ms & _).
    exists j. eexists. exists qs. split; [exact Lj|]. split; [unfold mbind; rewrite He; reflexivity|]. split; [exact Q|]. split; [exact Ms|reflexivity].
  Qed.
  Lemma reset_returns n (w w1 : world) q b answers ss ts ws ms0 m ms1 :
    rp_state (w_pool w) = rs_opened ->
    reset_runspace_state E 0 w = (Raise (XExn OutOfFuel), w1) -> requests w w1 [(q, WBody b)] ->
    in_turn (ev_srv E (w_disabled w1)) (w_hist w1) None answers ->
    Forall2 says answers ss -> Forall only_stdout ss -> Forall not_late ss ->
    NoDup (map t_oid ts) -> Forall (fun t => t_pieces t <> []) ts ->
    (forall t, In t ts -> dict_get Z.eqb (t_oid t) (rp_receiver (w_pool w1)) = None) ->
    interleave (map stream ts) (concat ws) -> Forall2 word_wire ws (arrived ss) ->
    mapM (message_unpack (ev_codec E (rp_cipher (w_pool w1)))) (concat (map completes ws)) = Ok (ms0 ++ m :: ms1) ->
    Forall remarks ms0 -> confirms E (rp_ci (w_pool w)) m -> Forall remarks ms1 -> length answers <= n ->
    exists j w' qs, j <= length answers /\ reset_runspace_state E n w = (Ret tt, w') /\ requests w1 w' qs /\ map snd qs = firstn j answers.
  Proof.
    intros So H0 Qw T Sa Fo Fl N Np Nr Il Fw Mu F0 Cm F1 Ln. unfold reset_runspace_state in *. rewrite !mbind_getp in *. rewrite So in *. change (Z.eqb rs_opened rs_opened) with true in *. change (Z.eqb rs_opened rs_before_open) with false in *. cbn [negb] in *.
    rewrite !mbind_getp in *. set (newer := version_equal_or_newer _ _) in *. destruct newer as [v|e].
    2: { unfold mbind, lift in H0. apply pair_inj in H0 as [_ <-]. exfalso. unfold requests in Qw. rewrite <- (app_nil_r (w_hist w)) in Qw at 1. apply app_inv_head in Qw. discriminate Qw. }
    rewrite mbind_ok in *. destruct v; cbn [negb] in *.
    2: { unfold throw, fail in H0. apply pair_inj in H0 as [_ <-]. exfalso. unfold requests in Qw. rewrite <- (app_nil_r (w_hist w)) in Qw at 1. apply app_inv_head in Qw. discriminate Qw. }
    unfold mbind at 1 in H0. unfold mbind at 1. destruct (ask E HReset (fun ci => OReset ci) w) as [[ci|x] w2] eqn:Ak.
    2: { apply pair_inj in H0 as [_ <-]. destruct (ask_accepted E _ _ _ _ _ _ _ Ak Qw) as [C _]. discriminate C. }
    assert (W : w2 = w1).
    { unfold mbind in H0. cbn [receive_until] in H0. destruct (is_bool (slot_of ci w2)); [cbn in H0; apply pair_inj in H0 as [C _]; discriminate C|]. apply pair_inj in H0 as [_ H0]. exact H0. }
    subst w2. destruct (ask_accepted E _ _ _ _ _ _ _ Ak Qw) as [C Sl]. assert (ci = rp_ci (w_pool w)) by congruence. subst ci.
    destruct (until_answered E n _ HReset (VBool true) is_bool w1 answers ss ts ws ms0 m ms1 eq_refl (fun y => conj eq_refl eq_refl) Sl T Sa Fo Fl N Np Nr Il Fw Mu F0 Cm F1 Ln) as (j & w' & qs & Lj & He & Q & Ms & _).
    exists j. eexists. exists qs. split; [exact Lj|]. split; [unfold mbind; rewrite He; reflexivity|]. split; [exact Q|exact Ms].
  Qed.
  Lemma available_returns n ci z (w w1 : world) q b answers ss ts ws ms0 m ms1 :
    ask E HAvailable (fun ci => OAvailable ci) w = (Ret ci, w1) -> requests w w1 [(q, WBody b)] ->
    in_turn (ev_srv E (w_disabled w1)) (w_hist w1) None answers ->
    Forall2 says answers ss -> Forall only_stdout ss -> Forall not_late ss ->
    NoDup (map t_oid ts) -> Forall (fun t => t_pieces t <> []) ts ->
    (forall t, In t ts -> dict_get Z.eqb (t_oid t) (rp_receiver (w_pool w1)) = None) ->
    interleave (map stream ts) (concat ws) -> Forall2 word_wire ws (arrived ss) ->
    mapM (message_unpack (ev_codec E (rp_cipher (w_pool w1)))) (concat (map completes ws)) = Ok (ms0 ++ m :: ms1) ->
    Forall remarks ms0 -> counts E ci z m -> Forall remarks ms1 -> length answers <= n ->
    exists j w' qs, j <= length answers /\ get_available_runspaces E n w = (Ret (Some (SValue (VInt z))), w') /\ requests w1 w' qs /\ map snd qs = firstn j answers.
  Proof.
    intros Ak Qw T Sa Fo Fl N Np Nr Il Fw Mu F0 Cm F1 Ln. destruct (ask_accepted E _ _ _ _ _ _ _ Ak Qw) as [C Sl]. assert (ci = rp_ci (w_pool w)) by congruence. subst ci.
    destruct (until_answered E (S n) _ HAvailable (VInt z) is_int w1 answers ss ts ws ms0 m ms1 (ex_intro _ z eq_refl) (fun y => conj eq_refl eq_refl) Sl T Sa Fo Fl N Np Nr Il Fw Mu F0 Cm F1 (le_S _ _ Ln)) as (j & w' & qs & Lj & He & Q & Ms & Sv).
    exists j. eexists. exists qs. split; [exact Lj|]. split.
    { unfold get_available_runspaces. unfold mbind at 1. rewrite Ak. cbn [receive_until] in He. rewrite Sl in He. cbn [is_int] in He.
    unfold mbind at 1 in He. unfold mbind at 1. destruct (receive E None None w1) as [[v|x] w2]; [|discriminate He].
    unfold mbind at 1. rewrite He. unfold mbind, get. rewrite Sv. reflexivity. }
    split; [exact Q|exact Ms].
  Qed.
End Limits.
