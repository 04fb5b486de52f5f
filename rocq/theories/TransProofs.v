(* Proofs about the transport: settings, endpoint, sizes, encryption of requests. *)
From Coq Require Import Lia ZifyBool ZifyNat ZifyN.
From Verif Require Import Base BaseProofs Lit NumModel ReModel ReProofs EncModel Utf8Model TransModel TransSpec.
Ltac Zify.zify_post_hook ::= Z.div_mod_to_equations.

Lemma one_of_iff x l : one_of x l = true <-> In x l.
Proof.
  unfold one_of. rewrite existsb_exists. split.
  - intros (y & Hy & E). apply str_eqb_spec in E. now subst.
  - intros H. exists x. split; [exact H|apply str_eqb_refl].
Qed.

Lemma one_of_false x l : one_of x l = false <-> ~ In x l.
Proof.
  rewrite <- one_of_iff. destruct (one_of x l); split; congruence.
Qed.

(* ---- settings ---- *)
Lemma wrap_flag s : known_encryption (s_encryption s) ->
  (if s_ssl s then str_eqb (s_encryption s) (lit "always") else negb (str_eqb (s_encryption s) (lit "never"))) = true
  <-> encryption_required s.
Proof.
  unfold encryption_required. intros [E|[E|[E|[]]]]; rewrite <- E; destruct (s_ssl s);
    (split; [intros H; vm_compute in H; try discriminate; auto|]).
  - intros [H|[_ H]]; [discriminate H|discriminate H].
  - reflexivity.
  - reflexivity.
  - reflexivity.
  - intros [H|[H _]]; discriminate H.
  - intros [H|[H _]]; discriminate H.
Qed.

Lemma supported_iff auth : In auth supported_auths <-> known_auth auth.
Proof.
  unfold supported_auths, known_auth, can_encrypt. cbn [In]. intuition (subst; auto).
Qed.

Lemma init_accepts ipv6 s : (exists t, transport_init ipv6 s = Ok t) <-> acceptable s.
Proof.
  unfold transport_init, acceptable.
  destruct (one_of (s_auth s) supported_auths) eqn:Ea; cbn [negb].
  2:{ apply one_of_false in Ea. rewrite supported_iff in Ea. split; [intros [t H]; discriminate|tauto]. }
  apply one_of_iff in Ea. rewrite supported_iff in Ea.
  destruct (one_of (s_encryption s) _) eqn:Ee; cbn [negb].
  2:{ apply one_of_false in Ee. split; [intros [t H]; discriminate|]. intros (_ & H & _). contradiction. }
  apply one_of_iff in Ee. change (known_encryption (s_encryption s)) in Ee.
  pose proof (wrap_flag s Ee) as Hw.
  set (wf := if s_ssl s then _ else _) in *.
  destruct (wf && negb (one_of (s_auth s) enc_providers))%bool eqn:E.
  - apply andb_prop in E. destruct E as [E1 E2]. apply negb_true_iff in E2. apply one_of_false in E2.
    split; [intros [t H]; discriminate|]. intros (_ & _ & H). exfalso. apply E2. apply H. now apply Hw.
  - split; [intros _|intros _; eexists; reflexivity]. split; [exact Ea|]. split; [exact Ee|].
    intros H. apply Hw in H. rewrite H in E. cbn [andb] in E. apply negb_false_iff in E. now apply one_of_iff in E.
Qed.

Lemma init_error ipv6 s e : transport_init ipv6 s = Err e -> e = ValueError.
Proof. unfold transport_init. repeat (destruct (_ : bool); try congruence). Qed.

Lemma init_wrap ipv6 s t : transport_init ipv6 s = Ok t ->
  (t_wrap t = true <-> encryption_required s) /\ t_settings t = s.
Proof.
  unfold transport_init.
  destruct (one_of (s_auth s) supported_auths); cbn [negb]; [|discriminate].
  destruct (one_of (s_encryption s) _) eqn:Ee; cbn [negb]; [|discriminate].
  apply one_of_iff in Ee. change (known_encryption (s_encryption s)) in Ee.
  pose proof (wrap_flag s Ee) as Hw. set (wf := if s_ssl s then _ else _) in *.
  destruct (wf && negb (one_of (s_auth s) enc_providers))%bool; [discriminate|].
  intros H. apply Ok_inj in H. subst t. cbn. split; [exact Hw|reflexivity].
Qed.

Lemma init_endpoint ipv6 s t : transport_init ipv6 s = Ok t ->
  t_endpoint t =
    (if s_ssl s then lit "https" else lit "http") ++ lit "://" ++
    match ipv6 (s_server s) with Some a => lit "[" ++ a ++ lit "]" | None => s_server s end ++
    lit ":" ++ py_str (match s_port s with Some p => p | None => if s_ssl s then 5986%Z else 5985%Z end) ++
    lit "/" ++ s_path s.
Proof.
  unfold transport_init.
  destruct (one_of (s_auth s) supported_auths); cbn [negb]; [|discriminate].
  destruct (one_of (s_encryption s) _) eqn:Ee; cbn [negb]; [|discriminate].
  set (wf := if s_ssl s then _ else _) in *.
  destruct (wf && negb (one_of (s_auth s) enc_providers))%bool; [discriminate|].
  intros H. apply Ok_inj in H. subst t. reflexivity.
Qed.

(* ---- one request ---- *)
Section Req.
  Context {W : Type}.
  Context (wrap : W -> list N -> res (list N * list N * Z * W)).
  Context (unwrap : W -> list N -> list N -> res (list N * W)).
  Context (net : nat -> @answer W) (t : transport).
  Notation st_t := (@tstate W).
  Notation event := (@event W).

  Definition same_enc (e1 e2 : option (@context W * list N)) : Prop :=
    match e1, e2 with
    | None, None => True
    | Some (c, p), Some (c', p') => c_id c' = c_id c /\ c_kerberos c' = c_kerberos c /\ p' = p
    | _, _ => False
    end.

  Lemma same_enc_refl e : same_enc e e.
  Proof. destruct e as [[c p]|]; cbn; auto. Qed.

  Lemma send_request_state st r st' tr : send_request unwrap net st = (r, st', tr) ->
    exists a, a = net (st_calls st) /\ tr = [EvAnswer a] /\
      st_context st' = match a_context a with Some c => Some c | None => st_context st end /\
      same_enc (st_encryption st) (st_encryption st') /\
      st_session st' = st_session st /\ st_calls st' = S (st_calls st) /\
      (forall b, r = RBody b -> answered_well a).
  Proof.
    unfold send_request. set (a := net (st_calls st)).
    set (st1 := {| st_session := _ |}). intros H. exists a. split; [reflexivity|].
    assert (FW : forall status content text (st2 : st_t), 
       (finish status content text, st2, [EvAnswer a]) = (r, st', tr) ->
       st_context st2 = st_context st1 -> same_enc (st_encryption st) (st_encryption st2) ->
       st_session st2 = st_session st -> st_calls st2 = S (st_calls st) ->
       (exists ct b tx, a_outcome a = OResp status ct b tx) ->
       tr = [EvAnswer a] /\
      st_context st' = match a_context a with Some c => Some c | None => st_context st end /\
      same_enc (st_encryption st) (st_encryption st') /\
      st_session st' = st_session st /\ st_calls st' = S (st_calls st) /\
      (forall b, r = RBody b -> answered_well a)).
    { intros status content text st2 E Hc He Hs Hn (ct & b & tx & Ho).
      apply pair_inj in E. destruct E as [E <-]. apply pair_inj in E. destruct E as [<- <-].
      split; [reflexivity|]. split; [rewrite Hc; reflexivity|]. split; [exact He|]. split; [exact Hs|]. split; [exact Hn|].
      intros b0 Hb. exists status, ct, b, tx. split; [exact Ho|]. unfold finish in Hb.
      destruct (Z.leb_spec 400 status); destruct (Z.ltb_spec status 600); cbn [andb] in Hb; try lia.
      destruct (status =? 401)%Z; discriminate. }
    assert (FE : forall e (st2 : st_t),
       (RExn e, st2, [EvAnswer a]) = (r, st', tr) ->
       st_context st2 = st_context st1 -> same_enc (st_encryption st) (st_encryption st2) ->
       st_session st2 = st_session st -> st_calls st2 = S (st_calls st) ->
       tr = [EvAnswer a] /\
      st_context st' = match a_context a with Some c => Some c | None => st_context st end /\
      same_enc (st_encryption st) (st_encryption st') /\
      st_session st' = st_session st /\ st_calls st' = S (st_calls st) /\
      (forall b, r = RBody b -> answered_well a)).
    { intros e st2 E Hc He Hs Hn.
      apply pair_inj in E. destruct E as [E <-]. apply pair_inj in E. destruct E as [<- <-].
      split; [reflexivity|]. split; [rewrite Hc; reflexivity|]. split; [exact He|]. split; [exact Hs|]. split; [exact Hn|].
      discriminate. }
    assert (R1 : same_enc (st_encryption st) (st_encryption st1)) by apply same_enc_refl.
    destruct (a_outcome a) as [e|status ct body text] eqn:Eo.
    - eapply FE; [exact H|reflexivity|exact R1|reflexivity|reflexivity].
    - destruct (encrypted_type ct).
      + destruct (find_boundary ct) as [b|].
        2:{ eapply FE; [exact H|reflexivity|exact R1|reflexivity|reflexivity]. }
        destruct (st_encryption st1) as [[c proto]|] eqn:Ee.
        2:{ eapply FE; [exact H|reflexivity|rewrite Ee; exact R1|reflexivity|reflexivity]. }
        destruct (utf8_encode b) as [b'|e].
        2:{ eapply FE; [exact H|reflexivity|rewrite Ee; exact R1|reflexivity|reflexivity]. }
        destruct (unwrap_message unwrap b' (c_state c) body) as [[content w]|e].
        2:{ eapply FE; [exact H|reflexivity|rewrite Ee; exact R1|reflexivity|reflexivity]. }
        assert (R2 : same_enc (st_encryption st) (Some (with_state c w, proto))).
        { destruct (st_encryption st) as [[c1 p1]|]; cbn in R1 |- *; [|contradiction]. exact R1. }
        destruct (utf8_decode content) as [tx|e].
        * eapply FW; [exact H|reflexivity|exact R2|reflexivity|reflexivity|eauto].
        * eapply FE; [exact H|reflexivity|exact R2|reflexivity|reflexivity].
      + eapply FW; [exact H|reflexivity|exact R1|reflexivity|reflexivity|eauto].
  Qed.

  (* ---- the invariant of a protected transport ---- *)
  Definition proto_of (c : @context W) : list N :=
    if str_eqb (s_auth (t_settings t)) (lit "credssp") then CREDSSP else if c_kerberos c then KERBEROS else SPNEGO.

  Definition probed (tr : list event) (c : @context W) (proto : list N) : Prop :=
    exists before1 a before2 c0, tr = before1 ++ EvProbe :: EvAnswer a :: before2 /\ answered_well a /\
      (forall e, In e before2 -> ~ is_sleep e /\ e <> EvProbe) /\
      held_context (before1 ++ [EvProbe; EvAnswer a]) = Some c0 /\ c_id c = c_id c0 /\
      proto = proto_of c0.

  Definition inv (st : st_t) (tr : list event) : Prop :=
    st_context st = held_context tr /\
    match st_encryption st with Some (c, proto) => probed tr c proto | None => True end.

  Lemma held_app (tr tr' : list event) : held_context (tr ++ tr') =
    match held_context tr' with Some c => Some c | None => held_context tr end.
  Proof.
    induction tr as [|e tr IH]; cbn [app held_context].
    - now destruct (held_context tr').
    - destruct e; try exact IH. rewrite IH. destruct (held_context tr'); reflexivity.
  Qed.

  Lemma probed_more tr x c proto : (forall e, In e x -> ~ is_sleep e /\ e <> EvProbe) ->
    probed tr c proto -> probed (tr ++ x) c proto.
  Proof.
    intros Hx (b1 & a & b2 & c0 & -> & H1 & H2 & H3 & H4 & H5).
    exists b1, a, (b2 ++ x), c0. split; [now rewrite <- app_assoc|]. split; [exact H1|]. split; [|auto].
    intros e He. apply in_app_or in He. destruct He as [He|He]; auto.
  Qed.

  Lemma quiet_answer (a : @answer W) : forall e : event, In e [EvAnswer a] -> ~ is_sleep e /\ e <> EvProbe.
  Proof. intros e [<-|[]]. split; [intros [n H]; discriminate|discriminate]. Qed.

  Lemma inv_request st r st' tr tr0 : inv st tr0 -> send_request unwrap net st = (r, st', tr) -> inv st' (tr0 ++ tr).
  Proof.
    intros [H1 H2] H. destruct (send_request_state _ _ _ _ H) as (a & _ & -> & Hc & He & _).
    split.
    - rewrite Hc, held_app. cbn [held_context]. destruct (a_context a); [reflexivity|exact H1].
    - destruct (st_encryption st) as [[c p]|], (st_encryption st') as [[c' p']|]; cbn in He; try contradiction; [|exact I].
      destruct He as (E1 & E2 & ->). destruct (probed_more _ [EvAnswer a] _ _ (quiet_answer a) H2) as (b1 & a' & b2 & c0 & ? & ? & ? & ? & ? & ?).
      exists b1, a', b2, c0. repeat (split; auto). congruence.
  Qed.

  Lemma inv_drop st tr : inv st tr -> inv (set_encryption st None) tr.
  Proof. intros [H1 _]. split; [exact H1|exact I]. Qed.

  Definition good (messages : list (list N)) (tr0 tr : list event) : Prop :=
    forall pre h p c post, tr = pre ++ EvPost h p c :: post ->
      sealed_request wrap (str_eqb (s_auth (t_settings t)) (lit "credssp")) messages (tr0 ++ pre) h p c.

  Lemma good_nil ms tr0 : good ms tr0 [].
  Proof. intros pre h p c post E. destruct pre; discriminate. Qed.

  Lemma good_app ms tr0 tr1 tr2 : good ms tr0 tr1 -> good ms (tr0 ++ tr1) tr2 -> good ms tr0 (tr1 ++ tr2).
  Proof.
    intros G1 G2 pre h p c post E.
    assert (D : (exists z, tr1 = pre ++ EvPost h p c :: z) \/ (exists z, pre = tr1 ++ z /\ tr2 = z ++ EvPost h p c :: post)).
    { clear G1 G2. revert tr1 E. induction pre as [|x pre IH]; intros tr1 E.
      - destruct tr1 as [|y tr1]; cbn [app] in E.
        + right. exists []. split; [reflexivity|]. exact E.
        + injection E as E1 E2. subst y. left. now exists tr1.
      - destruct tr1 as [|y tr1]; cbn [app] in E.
        + right. exists (x :: pre). split; [reflexivity|exact E].
        + injection E as E1 E2. subst y. destruct (IH tr1 E2) as [[z ->]|(z & -> & Hz)].
          * left. now exists z.
          * right. exists z. split; [reflexivity|exact Hz]. }
    destruct D as [[z ->]|(z & -> & ->)].
    - now apply (G1 pre h p c z).
    - rewrite app_assoc. now apply (G2 z h p c post).
  Qed.

  Lemma good_no_post ms tr0 tr : (forall e, In e tr -> ~ is_post e) -> good ms tr0 tr.
  Proof.
    intros H pre h p c post ->. exfalso. apply (H (EvPost h p c)).
    - apply in_or_app. right. now left.
    - now exists h, p, c.
  Qed.

  Lemma establish_good ms st r st' tr tr0 : inv st tr0 -> st_encryption st = None ->
    establish unwrap net t st = (r, st', tr) ->
    good ms tr0 tr /\ inv st' (tr0 ++ tr) /\ (forall b, r = RBody b -> st_encryption st' <> None) /\
    ((forall b, r <> RBody b) -> st_encryption st' = None).
  Proof.
    intros HI Hn. unfold establish. destruct (send_request unwrap net st) as [[r1 st1] tr1] eqn:E.
    pose proof (inv_request _ _ _ _ (tr0 ++ [EvProbe]) ltac:(destruct HI as [I1 I2]; split; [rewrite held_app; exact I1|rewrite Hn; exact I]) E) as HI1.
    destruct (send_request_state _ _ _ _ E) as (a & _ & -> & Hc & He & _ & _ & Hw).
    rewrite Hn in He. assert (He1 : st_encryption st1 = None) by (destruct (st_encryption st1) as [[? ?]|]; [contradiction|reflexivity]).
    rewrite <- app_assoc in HI1. cbn [app] in HI1.
    assert (NP : good ms tr0 [EvProbe; EvAnswer a]).
    { apply good_no_post. intros e [<-|[<-|[]]] (h & p & c & X); discriminate. }
    assert (OUT : forall rr, (rr, st1, [EvProbe; EvAnswer a]) = (r, st', tr) -> (forall b, rr <> RBody b) ->
      good ms tr0 tr /\ inv st' (tr0 ++ tr) /\ (forall b, r = RBody b -> st_encryption st' <> None) /\
      ((forall b, r <> RBody b) -> st_encryption st' = None)).
    { intros rr H Hr. apply pair_inj in H. destruct H as [H <-]. apply pair_inj in H. destruct H as [<- <-].
      split; [exact NP|]. split; [exact HI1|]. split; [intros b Hb; now apply Hr in Hb|]. intros _. exact He1. }
    destruct r1 as [b|code tx|e]; intros H.
    - destruct (st_context st1) as [c|] eqn:Ec.
      + apply pair_inj in H. destruct H as [H <-]. apply pair_inj in H. destruct H as [<- <-].
        split; [exact NP|]. split; [|split; [intros b0 _; discriminate|intros Hb; exfalso; now apply (Hb [])]].
        destruct HI1 as [I1 I2]. split; [cbn; exact I1|].
        cbn [set_encryption st_encryption]. exists tr0, a, [], c. split; [reflexivity|].
        split; [now apply (Hw b)|]. split; [intros e []|]. split; [rewrite <- I1; exact Ec|]. split; [reflexivity|].
        unfold proto_of. reflexivity.
      + eapply OUT; [exact H|discriminate].
    - eapply OUT; [exact H|discriminate].
    - eapply OUT; [exact H|discriminate].
  Qed.

  Lemma prepare_good m st h p c st' tr0 : inv st tr0 -> t_wrap t = true ->
    prepare wrap t m st = Ok (h, p, c, st') ->
    sealed_request wrap (str_eqb (s_auth (t_settings t)) (lit "credssp")) [m] tr0 h p c /\
    inv st' (tr0 ++ [EvPost h p c]).
  Proof.
    intros [I1 I2] Hw. unfold prepare. rewrite Hw. destruct (st_encryption st) as [[c1 proto]|]; [|discriminate].
    intros H. apply bind_ok in H. destruct H as ([[ct payload] w] & Em & H). apply Ok_inj in H.
    apply pair_inj in H. destruct H as [H <-]. apply pair_inj in H. destruct H as [H <-].
    apply pair_inj in H. destruct H as [<- <-].
    destruct I2 as (b1 & a & b2 & c0 & -> & H1 & H2 & H3 & H4 & H5).
    split.
    - exists c1, m, proto, ct, w, b1, a, b2, c0. split; [reflexivity|]. split; [now left|]. split; [reflexivity|].
      split; [exact H1|]. split; [exact H2|]. split; [exact H3|]. split; [exact H4|]. split; [exact H5|].
      split; [exact Em|reflexivity].
    - split.
      + rewrite held_app. cbn [held_context]. exact I1.
      + cbn [set_encryption st_encryption]. apply probed_more.
        * intros e [<-|[]]. split; [intros [n X]; discriminate|discriminate].
        * exists b1, a, b2, c0. split; [reflexivity|]. split; [exact H1|]. split; [exact H2|]. split; [exact H3|].
          split; [exact H4|exact H5].
  Qed.

  Lemma sealed_mono ms ms' tr h p c : (forall m, In m ms -> In m ms') ->
    forall cr, sealed_request wrap cr ms tr h p c -> sealed_request wrap cr ms' tr h p c.
  Proof.
    intros Hm cr (c1 & m & proto & ct & w & b1 & a & b2 & c0 & H1 & H2 & H3).
    exists c1, m, proto, ct, w, b1, a, b2, c0. split; [exact H1|]. split; [now apply Hm|exact H3].
  Qed.

  Lemma loop_good m : t_wrap t = true -> forall rem attempt st r st' tr tr0, inv st tr0 ->
    send_loop wrap unwrap net t m rem attempt st = (r, st', tr) ->
    good [m] tr0 tr /\ inv st' (tr0 ++ tr).
  Proof.
    intros Hw. induction rem as [rem IH] using lt_wf_ind. intros attempt st r st' tr tr0 HI H.
    destruct rem as [|rem]; cbn [send_loop] in H; rewrite Hw in H; cbn [andb] in H.
    all: destruct (if match st_encryption st with None => true | Some _ => false end
        then establish unwrap net t st else (RBody [], st, [])) as [[r1 st1] tr1] eqn:E1.
    all: assert (P1 : good [m] tr0 tr1 /\ inv st1 (tr0 ++ tr1)).
    1,3: destruct (st_encryption st) as [[c p]|] eqn:Ee;
      [apply pair_inj in E1; destruct E1 as [E1 <-]; apply pair_inj in E1; destruct E1 as [_ <-];
       split; [apply good_nil|rewrite app_nil_r; exact HI]
      |destruct (establish_good [m] _ _ _ _ _ HI Ee E1) as (? & ? & _); auto].
    all: destruct P1 as [G1 I1].
    all: assert (DONE : forall rr, (rr, st1, tr1) = (r, st', tr) -> good [m] tr0 tr /\ inv st' (tr0 ++ tr))
      by (intros rr X; apply pair_inj in X; destruct X as [X <-]; apply pair_inj in X; destruct X as [_ <-]; auto).
    all: destruct r1 as [b|code tx|e]; [|exact (DONE _ H)|].
    2: { destruct (is_timeout e); exact (DONE _ H). }
    3: { destruct (is_timeout e); [|exact (DONE _ H)].
         destruct (send_loop wrap unwrap net t m rem (S attempt) st1) as [[r2 st2] tr2] eqn:E2.
         apply pair_inj in H. destruct H as [H <-]. apply pair_inj in H. destruct H as [_ <-].
         match goal with |- context [EvSleep ?n] => set (f := n) end.
         assert (I1' : inv st1 ((tr0 ++ tr1) ++ [EvSleep f])).
         { assert (Hn : st_encryption st1 = None).
           { destruct (st_encryption st) as [[c p]|] eqn:Ee.
             - apply pair_inj in E1; destruct E1 as [E1 _]; apply pair_inj in E1; destruct E1 as [E1 _]; discriminate.
             - destruct (establish_good [m] _ _ _ _ _ HI Ee E1) as (_ & _ & _ & X). apply X. discriminate. }
           destruct I1 as [Ia Ib]. split; [rewrite held_app; exact Ia|rewrite Hn; exact I]. }
         destruct (IH rem ltac:(lia) _ _ _ _ _ _ I1' E2) as [G2 I2].
         change (EvSleep f :: tr2) with ([EvSleep f] ++ tr2). split.
         - apply good_app; [exact G1|]. apply good_app; [|exact G2].
           apply good_no_post. intros e0 [<-|[]] (h & p & c & X). discriminate.
         - rewrite <- !app_assoc in I2. exact I2. }
    all: destruct (prepare wrap t m st1) as [[[[h p] c] st2]|e] eqn:Ep; [|exact (DONE _ H)].
    all: destruct (prepare_good _ _ _ _ _ _ _ I1 Hw Ep) as [S1 I2].
    all: destruct (send_request unwrap net st2) as [[r2 st3] tr2] eqn:E2.
    all: pose proof (inv_request _ _ _ _ _ I2 E2) as I3; rewrite <- app_assoc in I3; cbn [app] in I3; rewrite <- app_assoc in I3.
    all: destruct (send_request_state _ _ _ _ E2) as (a & _ & Etr2 & _); subst tr2.
    all: assert (G2 : good [m] tr0 (tr1 ++ [EvPost h p c; EvAnswer a])).
    1,3: apply good_app; [exact G1|]; intros pre h0 p0 c0 post Ex;
      destruct pre as [|x pre]; cbn [app] in Ex;
      [injection Ex as <- <- <- _; rewrite app_nil_r; exact S1|];
      destruct pre as [|y pre]; cbn [app] in Ex; [discriminate|]; injection Ex; intros; destruct pre; discriminate.
    all: assert (DONE2 : forall rr, (rr, st3, tr1 ++ [EvPost h p c; EvAnswer a]) = (r, st', tr) -> good [m] tr0 tr /\ inv st' (tr0 ++ tr))
      by (intros rr X; apply pair_inj in X; destruct X as [X <-]; apply pair_inj in X; destruct X as [_ <-]; auto).
    all: destruct r2 as [b2|code tx|e]; [exact (DONE2 _ H)|exact (DONE2 _ H)|].
    all: destruct (is_timeout e); [|exact (DONE2 _ H)].
    1: exact (DONE2 _ H).
    destruct (send_loop wrap unwrap net t m rem (S attempt) (set_encryption st3 None)) as [[r4 st4] tr4] eqn:E4.
    apply pair_inj in H. destruct H as [H <-]. apply pair_inj in H. destruct H as [_ <-].
    match goal with |- context [EvSleep ?n] => set (f := n) end.
    assert (I3' : inv (set_encryption st3 None) ((tr0 ++ tr1 ++ [EvPost h p c; EvAnswer a]) ++ [EvSleep f])).
    { destruct I3 as [Ia _]. split; [rewrite held_app; exact Ia|exact I]. }
    destruct (IH rem ltac:(lia) _ _ _ _ _ _ I3' E4) as [G4 I4].
    change (EvSleep f :: tr4) with ([EvSleep f] ++ tr4). split.
    - apply good_app; [exact G2|]. apply good_app; [|exact G4].
      apply good_no_post. intros e0 [<-|[]] (h0 & p0 & c0 & X). discriminate.
    - rewrite <- !app_assoc in I4. rewrite <- !app_assoc. exact I4.
  Qed.

  Lemma send_good m retries st r st' tr tr0 : t_wrap t = true -> inv st tr0 ->
    send wrap unwrap net t m retries st = (r, st', tr) -> good [m] tr0 tr /\ inv st' (tr0 ++ tr).
  Proof.
    intros Hw HI. unfold send. destruct (st_session st).
    - now apply loop_good.
    - destruct (build_session t).
      + apply loop_good; [exact Hw|]. exact HI.
      + intros H. apply pair_inj in H. destruct H as [H <-]. apply pair_inj in H. destruct H as [_ <-].
        split; [apply good_nil|]. now rewrite app_nil_r.
  Qed.

  Lemma sends_good : t_wrap t = true -> forall ops st rs st' tr tr0, inv st tr0 ->
    sends wrap unwrap net t ops st = (rs, st', tr) -> good (map fst ops) tr0 tr /\ inv st' (tr0 ++ tr).
  Proof.
    intros Hw. induction ops as [|[m k] ops IH]; intros st rs st' tr tr0 HI H; cbn [sends] in H.
    - apply pair_inj in H. destruct H as [H <-]. apply pair_inj in H. destruct H as [_ <-].
      split; [apply good_nil|]. now rewrite app_nil_r.
    - destruct (send wrap unwrap net t m k st) as [[x st1] tr1] eqn:E1.
      destruct (sends wrap unwrap net t ops st1) as [[xs st2] tr2] eqn:E2.
      apply pair_inj in H. destruct H as [H <-]. apply pair_inj in H. destruct H as [_ <-].
      destruct (send_good _ _ _ _ _ _ _ Hw HI E1) as [G1 I1].
      destruct (IH _ _ _ _ _ I1 E2) as [G2 I2]. rewrite <- app_assoc in I2. split; [|exact I2].
      apply good_app.
      + intros pre h p c post E. eapply sealed_mono; [|exact (G1 pre h p c post E)].
        intros m0 [<-|[]]. now left.
      + intros pre h p c post E. eapply sealed_mono; [|exact (G2 pre h p c post E)].
        intros m0 Hm. now right.
  Qed.

  Lemma sends_protected ops rs st' tr : t_wrap t = true ->
    sends wrap unwrap net t ops initial = (rs, st', tr) ->
    forall pre h p c post, tr = pre ++ EvPost h p c :: post ->
      sealed_request wrap (str_eqb (s_auth (t_settings t)) (lit "credssp")) (map fst ops) pre h p c.
  Proof.
    intros Hw H. destruct (sends_good Hw ops initial rs st' tr [] ltac:(split; [reflexivity|exact I]) H) as [G _].
    exact G.
  Qed.
End Req.
