(* Retries: what a whole send does. *)
From Coq Require Import Lia ZifyBool ZifyNat ZifyN.
From Verif Require Import Base BaseProofs Lit NumModel EncModel TransModel TransSpec TransProofs TransProofs2 TransProofs3.
Ltac Zify.zify_post_hook ::= Z.div_mod_to_equations.

Section Retry.
  Context {W : Type}.
  Context (wrap : W -> list N -> res (list N * list N * Z * W)).
  Context (unwrap : W -> list N -> list N -> res (list N * W)).
  Context (net : nat -> @answer W) (t : transport) (message : list N).
  Notation event := (@event W).
  Notation answered := (answered unwrap net).
  Notation loop := (loop wrap unwrap net t message).
  Notation opening := (opening unwrap net).

  Lemma count_app p (x y : list event) : count p (x ++ y) = count p x + count p y.
  Proof. clear. induction x as [|e x IH]; cbn [app count]; [reflexivity|]. rewrite IH. destruct (p e); lia. Qed.

  Lemma opening_cases need op : opening need op ->
    op = [] /\ need = false \/ exists a b, op = [EvProbe; EvAnswer a] /\ answered a (RBody b) /\ need = true.
  Proof. clear. unfold TransProofs2.opening. destruct need; [intros (a & b & H & ->); right; eauto|intros ->; left; auto]. Qed.

  Ltac ops := repeat match goal with H : TransProofs2.opening _ _ _ _ |- _ =>
    apply opening_cases in H; destruct H as [[-> ?]|(?a & ?b & -> & ? & ?)] end.

  Lemma loop_counts rem att need r tr : loop rem att need r tr ->
    count post_event tr <= S rem /\ count probe_event tr <= S rem /\ count sleep_event tr <= rem /\
    count post_event tr <= S (count sleep_event tr).
  Proof.
    induction 1; ops; cbn [app count post_event probe_event sleep_event] in *; lia.
  Qed.

  (* every place in a trace *)
  Lemma places_cons (e x : event) tr pre post : e :: tr = pre ++ x :: post ->
    (pre = [] /\ e = x /\ tr = post) \/ exists pre', pre = e :: pre' /\ tr = pre' ++ x :: post.
  Proof.
    destruct pre as [|y pre]; cbn [app]; intros H; apply cons_inj in H; destruct H as [-> H].
    - left. auto.
    - right. now exists pre.
  Qed.
  Lemma places_nil (x : event) pre post : [] = pre ++ x :: post -> False.
  Proof. destruct pre; discriminate. Qed.

  Ltac places := repeat match goal with
    | H : _ :: _ = _ ++ _ :: _ |- _ => apply places_cons in H; destruct H as [(-> & ? & ?)|(?pre & -> & H)]
    | H : [] = _ ++ _ :: _ |- _ => apply places_nil in H; contradiction
    end.

  Lemma loop_posts rem att need r tr : loop rem att need r tr ->
    forall pre h p c post, tr = pre ++ EvPost h p c :: post -> posted wrap t message h p c.
  Proof.
    induction 1; intros pre h' p' c' post E; ops; cbn [app] in E; places; try discriminate; eauto;
    match goal with H : EvPost _ _ _ = EvPost _ _ _ |- _ => injection H; intros; subst; assumption end.
  Qed.

  Lemma loop_request_answer rem att need r tr : loop rem att need r tr ->
    forall pre q post, tr = pre ++ q :: post -> is_request q -> exists a post', post = EvAnswer a :: post'.
  Proof.
    assert (A : forall a : @answer W, ~ is_request (EvAnswer a)) by (intros a [X|(h & p & c & X)]; discriminate).
    assert (B : forall f, ~ is_request (@EvSleep W f)) by (intros f [X|(h & p & c & X)]; discriminate).
    induction 1; intros pre q post E Q; ops; cbn [app] in E; places; subst; try (now apply A in Q); try (now apply B in Q); eauto.
  Qed.

  Lemma loop_nonempty rem att r tr : loop rem att true r tr -> exists tr', tr = EvProbe :: tr'.
  Proof.
    intros H. inversion H; subst; ops; try discriminate; cbn [app]; eauto.
  Qed.

  Lemma loop_wrapless_start rem att r tr : t_wrap t = false -> loop rem att false r tr -> exists h p c tr', tr = EvPost h p c :: tr'.
  Proof.
    intros Hw H. inversion H; subst; ops; try discriminate; try congruence; cbn [app]; eauto.
  Qed.

  Lemma loop_start rem att r tr : loop rem att (t_wrap t) r tr ->
    exists q tr', tr = q :: tr' /\ (if t_wrap t then q = EvProbe else is_post q).
  Proof.
    intros H. destruct (t_wrap t) eqn:Ew.
    - apply loop_nonempty in H. destruct H as [tr' ->]. eauto.
    - apply loop_wrapless_start in H; [|exact Ew]. destruct H as (h & p & c & tr' & ->). eexists. eexists.
      split; [reflexivity|]. now exists h, p, c.
  Qed.

  Lemma loop_need_wrap rem att need r tr : loop rem att need r tr -> (need = true -> t_wrap t = true) ->
    forall pre f post, tr = pre ++ EvSleep f :: post ->
    exists q tr', post = q :: tr' /\ (if t_wrap t then q = EvProbe else is_post q).
  Proof.
    induction 1; intros Hn pre f post E; ops; cbn [app] in E; places; try discriminate; subst;
      try (eapply IHloop; [auto|reflexivity]); try (eapply loop_start; eassumption).
    - rewrite <- (Hn eq_refl) in H1. apply loop_start in H1. exact H1.
  Qed.

  Lemma answer_inj (a b : @answer W) : EvAnswer a = EvAnswer b -> a = b.
  Proof. congruence. Qed.

  Section Calm.
    Context (Hc : calm_contexts wrap unwrap).

    Lemma loop_sleep_after_timeout rem att need r tr : loop rem att need r tr ->
      forall pre f post, tr = pre ++ EvSleep f :: post ->
      exists pre' q a, pre = pre' ++ [q; EvAnswer a] /\ is_request q /\ timed_out a.
    Proof.
      induction 1; intros pre f post E.
      - places; discriminate.
      - places; discriminate.
      - ops; places; discriminate.
      - destruct (reply_timed_out wrap unwrap net Hc _ _ H H0) as [_ HT].
        places; try discriminate.
        + subst. exists [], EvProbe, a. split; [reflexivity|]. split; [now left|exact HT].
        + destruct (IHloop _ _ _ E) as (pre' & q & a' & -> & H2). exists (EvProbe :: EvAnswer a :: EvSleep (2 ^ N.of_nat (S att)) :: pre'), q, a'.
          split; [reflexivity|exact H2].
      - ops; cbn [app] in E; places; discriminate.
      - destruct (reply_timed_out wrap unwrap net Hc _ _ H1 H2) as [_ HT].
        assert (HP : is_post (EvPost h p c)) by now exists h, p, c.
        ops; cbn [app] in E; places; try discriminate.
        + subst. exists [], (EvPost h p c), a. split; [reflexivity|]. split; [now right|exact HT].
        + destruct (IHloop _ _ _ E) as (pre' & q & a' & -> & H5).
          exists (EvPost h p c :: EvAnswer a :: EvSleep (2 ^ N.of_nat (S att) - 1) :: pre'), q, a'. split; [reflexivity|exact H5].
        + subst. exists [EvProbe; EvAnswer a0], (EvPost h p c), a. split; [reflexivity|]. split; [now right|exact HT].
        + destruct (IHloop _ _ _ E) as (pre' & q & a' & -> & H7).
          exists (EvProbe :: EvAnswer a0 :: EvPost h p c :: EvAnswer a :: EvSleep (2 ^ N.of_nat (S att) - 1) :: pre'), q, a'. split; [reflexivity|exact H7].
    Qed.

    (* what follows an answer *)
    Lemma loop_after_answer rem att need r tr : loop rem att need r tr ->
      forall pre q a post, tr = pre ++ q :: EvAnswer a :: post -> is_request q ->
        post = [] \/
        (timed_out a /\ exists f post', post = EvSleep f :: post') \/
        (answered_well a /\ q = EvProbe /\ exists h p c post', post = EvPost h p c :: post').
    Proof.
      assert (A : forall a : @answer W, ~ is_request (EvAnswer a)) by (intros a [X|(h & p & c & X)]; discriminate).
      assert (B : forall f, ~ is_request (@EvSleep W f)) by (intros f [X|(h & p & c & X)]; discriminate).
      assert (F : forall (a b : @answer W) (x y : list event), EvAnswer a :: x = EvAnswer b :: y -> a = b /\ x = y)
        by (intros a b x y E; apply cons_inj in E; destruct E as [E ->]; apply answer_inj in E; auto).
      induction 1; intros pre q a' post E Q.
      - places; subst; try (now apply A in Q); try discriminate.
        all: match goal with H : _ = EvAnswer _ :: _ |- _ => apply F in H; destruct H as [<- <-] end. now left.
      - places; subst; try (now apply A in Q); try discriminate.
        all: match goal with H : _ = EvAnswer _ :: _ |- _ => apply F in H; destruct H as [<- <-] end. now left.
      - ops; places; subst; try (now apply A in Q); try discriminate.
        all: match goal with H : _ = EvAnswer _ :: _ |- _ => apply F in H; destruct H as [<- <-] end. now left.
      - destruct (reply_timed_out wrap unwrap net Hc _ _ H H0) as [_ HT].
        places; subst; try (now apply A in Q); try (now apply B in Q); try (eapply IHloop; [reflexivity|exact Q]).
        match goal with H : _ = EvAnswer _ :: _ |- _ => apply F in H; destruct H as [<- <-] end.
        right. left. eauto.
      - ops; cbn [app] in E; places; subst; try (now apply A in Q); try discriminate;
        match goal with H : _ = EvAnswer _ :: _ |- _ => apply F in H; destruct H as [<- <-] end.
        + now left.
        + right. right. split; [eapply body_well; eassumption|]. split; [reflexivity|]. eauto.
        + now left.
      - destruct (reply_timed_out wrap unwrap net Hc _ _ H1 H2) as [_ HT].
        ops; cbn [app] in E; places; subst; try (now apply A in Q); try (now apply B in Q); try (eapply IHloop; [reflexivity|exact Q]);
        match goal with H : _ = EvAnswer _ :: _ |- _ => apply F in H; destruct H as [<- <-] end.
        + right. left. eauto.
        + right. right. split; [eapply body_well; eassumption|]. split; [reflexivity|]. eauto.
        + right. left. eauto.
    Qed.

    Lemma loop_timeout rem att need r tr : loop rem att need r tr -> forall e, r = RExn e -> is_timeout e = true ->
      count sleep_event tr = rem /\ exists pre q a, tr = pre ++ [q; EvAnswer a] /\ is_request q /\ a_outcome a = ORaise e.
    Proof.
      induction 1; intros e0 R E; cbn [app count sleep_event].
      - subst r. rewrite (H1 ltac:(eexists; eauto)). split; [reflexivity|]. exists [], EvProbe, a. split; [reflexivity|].
        split; [now left|]. exact (proj1 (reply_timed_out wrap unwrap net Hc _ _ H E)).
      - exfalso. assert (e0 = KeyError) by congruence. subst e0. discriminate.
      - exfalso. assert (e = e0) by congruence. subst. destruct H1.
        + discriminate.
        + eapply wrap_message_calm in H1; [|exact Hc]. unfold calm in H1. congruence.
      - destruct (IHloop _ R E) as [IH1 (pre & q & a' & -> & H2)]. split; [lia|].
        exists (EvProbe :: EvAnswer a :: EvSleep (2 ^ N.of_nat (S att)) :: pre), q, a'. split; [reflexivity|exact H2].
      - subst r. rewrite (H2 ltac:(eexists; eauto)). rewrite count_app. cbn [count sleep_event].
        split; [ops; reflexivity|]. exists op, (EvPost h p c), a. split; [reflexivity|].
        split; [right; now exists h, p, c|]. exact (proj1 (reply_timed_out wrap unwrap net Hc _ _ H1 E)).
      - destruct (IHloop _ R E) as [IH1 (pre & q & a' & -> & H4)]. rewrite count_app. cbn [count sleep_event].
        split; [ops; cbn [count sleep_event]; lia|].
        exists (op ++ EvPost h p c :: EvAnswer a :: EvSleep (2 ^ N.of_nat (S att) - 1) :: pre), q, a'.
        split; [rewrite <- app_assoc; reflexivity|exact H4].
    Qed.
  End Calm.

  Lemma loop_reply rem att need r tr : loop rem att need r tr ->
    (exists pre q a, tr = pre ++ [q; EvAnswer a] /\ is_request q /\ server_reply unwrap a r /\
        (forall b, r = RBody b -> is_post q /\ answered_well a)) \/
    (r = RExn KeyError /\ exists pre a, tr = pre ++ [EvProbe; EvAnswer a] /\ answered_well a) \/
    (t_wrap t = true /\ exists e, r = RExn e /\ (e = AttributeError \/ exists proto w, wrap_message wrap proto w message = Err e)).
  Proof.
    induction 1.
    - left. exists [], EvProbe, a. split; [reflexivity|]. split; [now left|]. split; [eapply answered_server; eassumption|].
      intros b Hb. now apply H0 in Hb.
    - right. left. split; [reflexivity|]. exists [], a. split; [reflexivity|]. eapply body_well; eassumption.
    - right. right. split; [assumption|]. exists e. split; [reflexivity|]. destruct H1; eauto.
    - destruct IHloop as [(pre & q & a' & -> & H2)|[(-> & pre & a' & -> & H2)|H2]].
      + left. exists (EvProbe :: EvAnswer a :: EvSleep (2 ^ N.of_nat (S att)) :: pre), q, a'. split; [reflexivity|exact H2].
      + right. left. split; [reflexivity|]. exists (EvProbe :: EvAnswer a :: EvSleep (2 ^ N.of_nat (S att)) :: pre), a'. split; [reflexivity|exact H2].
      + right. right. exact H2.
    - left. exists op, (EvPost h p c), a. split; [reflexivity|].
      assert (is_post (EvPost h p c)) by now exists h, p, c.
      split; [now right|]. split; [eapply answered_server; eassumption|].
      intros b ->. split; [assumption|]. eapply body_well; eassumption.
    - destruct IHloop as [(pre & q & a' & -> & H4)|[(-> & pre & a' & -> & H4)|H4]].
      + left. exists (op ++ EvPost h p c :: EvAnswer a :: EvSleep (2 ^ N.of_nat (S att) - 1) :: pre), q, a'.
        split; [rewrite <- app_assoc; reflexivity|exact H4].
      + right. left. split; [reflexivity|]. exists (op ++ EvPost h p c :: EvAnswer a :: EvSleep (2 ^ N.of_nat (S att) - 1) :: pre), a'.
        split; [rewrite <- app_assoc; reflexivity|exact H4].
      + right. right. exact H4.
  Qed.

  Lemma loop_delays rem att need r tr : loop rem att need r tr ->
    forall b i k f, nth_error (delays b tr) i = Some (k, f) ->
      f = (2 ^ N.of_nat (S (att + i)) - (if k then 1 else 0))%N.
  Proof.
    assert (NIL : forall (i : nat) (k : bool) (f : N), nth_error ([] : list (bool * N)) i = Some (k, f) -> False)
      by (intros i k f E; destruct i; discriminate).
    induction 1; intros b' i k f E; ops; cbn [app delays] in E; try (now apply NIL in E).
    all: destruct i as [|i]; cbn [nth_error] in E;
      [apply Some_inj in E; apply pair_inj in E; destruct E as [<- <-]; rewrite Nat.add_0_r; cbn [Nat.add]; try reflexivity; now rewrite N.sub_0_r
      |apply IHloop in E; rewrite E; rewrite Nat.add_succ_r; reflexivity].
  Qed.

  Lemma send_loop_of retries (st : @tstate W) r st' tr : send wrap unwrap net t message retries st = (r, st', tr) ->
    (tr = [] /\ st_session st = false /\ exists e, build_session t = Err e /\ r = RExn e) \/
    exists need, (need = true -> t_wrap t = true) /\ loop retries 0 need r tr.
  Proof.
    unfold send. intros H.
    assert (NW : forall s : @tstate W, needs t s = true -> t_wrap t = true).
    { intros s E. unfold needs in E. now apply andb_prop in E. }
    destruct (st_session st).
    - right. apply loop_sound in H. eexists. split; [|exact H]. apply NW.
    - destruct (build_session t) as [[]|e].
      + right. apply loop_sound in H. eexists. split; [|exact H]. apply NW.
      + left. apply pair_inj in H. destruct H as [H <-]. apply pair_inj in H. destruct H as [<- <-]. eauto.
  Qed.
End Retry.
