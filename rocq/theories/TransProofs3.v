(* Consequences of the shape of the retry loop. *)
From Coq Require Import Lia ZifyBool ZifyNat ZifyN.
From Verif Require Import Base BaseProofs Lit NumModel NumProofs ReModel ReProofs EncModel Utf8Model TransModel TransSpec TransProofs TransProofs2.
Ltac Zify.zify_post_hook ::= Z.div_mod_to_equations.

Lemma is_timeout_iff e : is_timeout e = true <-> e = ReadTimeout \/ e = ConnectTimeout.
Proof. destruct e; cbn; split; intuition congruence. Qed.

Lemma starts_with_app p s : starts_with p s = true <-> exists r, s = p ++ r.
Proof.
  revert s. induction p as [|x p IH]; intros s.
  - split; [intros _; now exists s|reflexivity].
  - destruct s as [|y s]; cbn [starts_with].
    + split; [discriminate|intros [r H]; discriminate].
    + rewrite andb_true_iff, N.eqb_eq, IH. split.
      * intros [-> [r ->]]. now exists r.
      * intros [r H]. cbn [app] in H. apply cons_inj in H. destruct H as [-> ->]. split; [reflexivity|now exists r].
Qed.

Lemma encrypted_type_iff ct : encrypted_type ct = false <->
  forall rest, ct <> lit "multipart/encrypted;" ++ rest /\ ct <> lit "multipart/x-multi-encrypted;" ++ rest.
Proof.
  unfold encrypted_type. split.
  - intros H rest. apply orb_false_elim in H. destruct H as [H1 H2].
    split; intros ->.
    + assert (X := proj2 (starts_with_app (lit "multipart/encrypted;") (lit "multipart/encrypted;" ++ rest))).
      rewrite H1 in X. discriminate X. now exists rest.
    + assert (X := proj2 (starts_with_app (lit "multipart/x-multi-encrypted;") (lit "multipart/x-multi-encrypted;" ++ rest))).
      rewrite H2 in X. discriminate X. now exists rest.
  - intros H. apply orb_false_iff. split.
    + destruct (starts_with _ ct) eqn:E; [|reflexivity]. apply starts_with_app in E. destruct E as [r E]. now destruct (H r).
    + destruct (starts_with (lit "multipart/x-multi-encrypted;") ct) eqn:E; [|reflexivity].
      apply starts_with_app in E. destruct E as [r E]. now destruct (H r).
Qed.

Section Retry.
  Context {W : Type}.
  Context (wrap : W -> list N -> res (list N * list N * Z * W)).
  Context (unwrap : W -> list N -> list N -> res (list N * W)).
  Context (net : nat -> @answer W) (t : transport) (message : list N).
  Notation event := (@event W).
  Notation answered := (answered unwrap net).
  Notation loop := (loop wrap unwrap net t message).
  Notation opening := (opening unwrap net).

  Lemma finish_plain status body text (r : reply) : finish status body text = r ->
    (401%Z = status /\ r = RExn AuthenticationError) \/
    ((400 <= status < 600)%Z /\ status <> 401%Z /\ r = RHttp status text) \/
    (~ (400 <= status < 600)%Z /\ r = RBody body).
  Proof.
    clear. unfold finish. intros <-. destruct (Z.leb_spec 400 status); destruct (Z.ltb_spec status 600); cbn [andb].
    - destruct (Z.eqb_spec status 401); [left|right; left]; auto.
    - right. right. split; [lia|reflexivity].
    - right. right. split; [lia|reflexivity].
    - right. right. split; [lia|reflexivity].
  Qed.

  Lemma answered_shape a r : answered a r ->
    match a_outcome a with
    | ORaise e => r = RExn e
    | OResp status ct body text =>
        if encrypted_type ct then
          (exists e, r = RExn e /\ (e = AttributeError \/ (exists s, utf8_encode s = Err e) \/ (exists s, utf8_decode s = Err e) \/
             exists b w, unwrap_message unwrap b w body = Err e)) \/
          (exists b w w' content tx, unwrap_message unwrap b w body = Ok (content, w') /\ r = finish status content tx)
        else r = finish status body (match body with [] => [] | _ => text end)
    end.
  Proof.
    clear. intros (st & st' & H). unfold send_request in H. set (st1 := {| st_session := _ |}) in H.
    assert (X : forall (x : reply) (y : @tstate W) (z : list event),
      (x, y, [EvAnswer (net (st_calls st))]) = (r, st', [EvAnswer a]) -> x = r).
    { intros x y z E. apply pair_inj in E. destruct E as [E _]. apply pair_inj in E. tauto. }
    assert (Ea : net (st_calls st) = a).
    { set (e0 := net (st_calls st)) in *. clearbody e0 st1.
      assert (Y : forall (x : reply) (y : @tstate W), (x, y, [EvAnswer e0]) = (r, st', [EvAnswer a]) -> e0 = a).
      { intros x y E. apply pair_inj in E. destruct E as [_ E]. congruence. }
      destruct (a_outcome e0) as [e|status ct body text]; [eapply Y; exact H|].
      destruct (encrypted_type ct); [|eapply Y; exact H].
      destruct (find_boundary ct) as [b|]; [|eapply Y; exact H].
      destruct (st_encryption st1) as [[c proto]|]; [|eapply Y; exact H].
      destruct (utf8_encode b) as [b'|e]; [|eapply Y; exact H].
      destruct (unwrap_message unwrap b' (c_state c) body) as [[content w]|e]; [|eapply Y; exact H].
      destruct (utf8_decode content) as [tx|e]; eapply Y; exact H. }
    rewrite Ea in *. clearbody st1.
    assert (X' : forall (x : reply) (y : @tstate W), (x, y, [EvAnswer a]) = (r, st', [EvAnswer a]) -> r = x)
      by (intros x y E; symmetry; eapply X; [exact []|exact E]).
    destruct (a_outcome a) as [e|status ct body text]; [now apply X' in H|].
    destruct (encrypted_type ct); [|now apply X' in H].
    destruct (find_boundary ct) as [b|]; [|apply X' in H; left; eauto].
    destruct (st_encryption st1) as [[c proto]|]; [|apply X' in H; left; eauto].
    destruct (utf8_encode b) as [b'|e] eqn:E1; [|apply X' in H; left; eauto 7].
    destruct (unwrap_message unwrap b' (c_state c) body) as [[content w]|e] eqn:E2; [|apply X' in H; left; eauto 10].
    destruct (utf8_decode content) as [tx|e] eqn:E3; apply X' in H; [right; eauto 10|left; eauto 8].
  Qed.

  Lemma timed_out_reply a r : answered a r -> timed_out a -> timeout_reply r.
  Proof.
    intros H [E|E]; apply answered_shape in H; rewrite E in H; subst r; eexists; split; try reflexivity.
  Qed.

  Lemma well_not_timed_out a : answered_well a -> ~ @timed_out W a.
  Proof. intros (s & ct & b & tx & H & _) [E|E]; congruence. Qed.

  Lemma body_well a b : answered a (RBody b) -> answered_well a.
  Proof.
    intros H. apply answered_shape in H. destruct (a_outcome a) as [e|status ct body text] eqn:Eo; [discriminate|].
    exists status, ct, body, text. split; [exact Eo|].
    destruct (encrypted_type ct).
    - destruct H as [(e & H & _)|(b0 & w & w' & content & tx & _ & H)]; [discriminate|].
      symmetry in H. apply finish_plain in H. destruct H as [[_ H]|[(_ & _ & H)|[H _]]]; try discriminate. exact H.
    - symmetry in H. apply finish_plain in H. destruct H as [[_ H]|[(_ & _ & H)|[H _]]]; try discriminate. exact H.
  Qed.

  Lemma answered_server a r : answered a r -> server_reply unwrap a r.
  Proof.
    intros H. apply answered_shape in H. unfold server_reply.
    destruct (a_outcome a) as [e|status ct body text] eqn:Eo; cbn [not_encrypted plain_reply].
    - split; [auto|]. intros X. exfalso. apply X. exact I.
    - pose proof (encrypted_type_iff ct) as Het. destruct (encrypted_type ct).
      + split; [intros X; apply Het in X; discriminate|]. intros _ b ->.
        destruct H as [(e & H & _)|(b0 & w & w' & content & tx & E & H)]; [discriminate|].
        symmetry in H. apply finish_plain in H. destruct H as [[_ H]|[(_ & _ & H)|[H Hb]]]; try discriminate.
        exists status, ct, body, text, b0, w, w'. split; [reflexivity|]. split; [exact H|]. congruence.
      + split; [|intros X; exfalso; apply X; now apply Het].
        intros _. symmetry in H. apply finish_plain in H. exact H.
  Qed.

  Section Calm.
    Context (Hc : calm_contexts wrap unwrap).

    Lemma calm_unwrap : forall w h d e, unwrap w h d = Err e -> calm e.
    Proof.
      intros w h d e H. destruct (proj2 Hc w h d) as [H1 H2]. unfold calm.
      destruct (is_timeout e) eqn:E; [|reflexivity]. apply is_timeout_iff in E. destruct E; subst; contradiction.
    Qed.

    Lemma reply_timed_out a e : answered a (RExn e) -> is_timeout e = true -> a_outcome a = ORaise e /\ timed_out a.
    Proof.
      intros H E. apply answered_shape in H.
      assert (G : a_outcome a = ORaise e -> a_outcome a = ORaise e /\ timed_out a).
      { intros X. split; [exact X|]. unfold timed_out. rewrite X. apply is_timeout_iff in E. destruct E; subst; auto. }
      destruct (a_outcome a) as [e'|status ct body text]; [apply G; congruence|]. exfalso.
      destruct (encrypted_type ct).
      - destruct H as [(e' & H & D)|(b0 & w & w' & content & tx & _ & H)].
        + assert (e' = e) by congruence. subst e'. destruct D as [->|[[s D]|[[s D]|(b & w & D)]]].
          * discriminate.
          * apply utf8_encode_calm in D. unfold calm in D. congruence.
          * apply (utf8_decode_calm (length s)) in D; [unfold calm in D; congruence|reflexivity].
          * unfold unwrap_message in D. eapply unwrap_calm in D; [unfold calm in D; congruence|exact calm_unwrap|reflexivity].
        + symmetry in H. apply finish_plain in H. destruct H as [[_ H]|[(_ & _ & H)|[_ H]]]; try discriminate.
          assert (e = AuthenticationError) by congruence. subst. discriminate.
      - symmetry in H. apply finish_plain in H. destruct H as [[_ H]|[(_ & _ & H)|[_ H]]]; try discriminate.
        assert (e = AuthenticationError) by congruence. subst. discriminate.
    Qed.

    Lemma wrap_parts_calm proto chunks : forall w e, wrap_parts wrap proto w chunks = Err e -> calm e.
    Proof.
      induction chunks as [|m chunks IH]; intros w e H; cbn [wrap_parts] in H; [discriminate|].
      destruct (wrap_part wrap proto w m) as [[x w1]|e1] eqn:E1; cbn [bind] in H.
      - destruct (wrap_parts wrap proto w1 chunks) as [[y w2]|e2] eqn:E2; cbn [bind] in H; [discriminate|].
        assert (e2 = e) by congruence. subst. now apply (IH w1).
      - assert (e1 = e) by congruence. subst. clear H. revert E1. unfold wrap_part.
        destruct (wrap w m) as [[[[h d] pad] w2]|e1] eqn:E; cbn [bind].
        + unfold pack_i. destruct (_ : bool); cbn [bind]; intros X; [discriminate|].
          assert (e = StructError) by congruence. subst. reflexivity.
        + intros X. assert (e1 = e) by congruence. subst. destruct (proj1 Hc w m) as [H1 H2].
          unfold calm. destruct (is_timeout e) eqn:Et; [|reflexivity]. apply is_timeout_iff in Et. destruct Et; subst; contradiction.
    Qed.

    Lemma wrap_message_calm proto w e : wrap_message wrap proto w message = Err e -> calm e.
    Proof.
      unfold wrap_message. destruct (_ && _)%bool.
      - unfold py_range0. destruct (_ : bool); cbn [bind]; intros H.
        + assert (e = ValueError) by congruence. subst. reflexivity.
        + destruct (wrap_parts _ _ _ _) as [[x w1]|e1] eqn:E; cbn [bind] in H; [discriminate|].
          assert (e1 = e) by congruence. subst. now apply wrap_parts_calm in E.
      - destruct (wrap_part wrap proto w message) as [[x w1]|e1] eqn:E; cbn [bind]; intros H; [discriminate|].
        assert (e1 = e) by congruence. subst. apply (wrap_parts_calm proto [message] w). cbn [wrap_parts].
        rewrite E. reflexivity.
    Qed.
  End Calm.
End Retry.
