(* Retries of a whole send, and payload sizes. *)
From Coq Require Import Lia ZifyBool ZifyNat ZifyN.
From Verif Require Import Base BaseProofs Lit NumModel EncModel TextModel TextProofs TransModel TransSpec TransProofs TransProofs2 TransProofs3 TransProofs4.
Ltac Zify.zify_post_hook ::= Z.div_mod_to_equations.

Section Send.
  Context {W : Type}.
  Context (wrap : W -> list N -> res (list N * list N * Z * W)).
  Context (unwrap : W -> list N -> list N -> res (list N * W)).
  Context (net : nat -> @answer W) (t : transport) (message : list N) (retries : nat).
  Context (st : @tstate W) (r : reply) (st' : @tstate W) (tr : list (@event W)).
  Context (H : send wrap unwrap net t message retries st = (r, st', tr)).

  Lemma send_bounded : count post_event tr <= S retries /\ count probe_event tr <= S retries /\
    count sleep_event tr <= retries.
  Proof.
    apply send_loop_of in H. destruct H as [(-> & _)|(need & _ & L)]; [cbn; lia|].
    apply loop_counts in L. intuition lia.
  Qed.

  Lemma send_retries : calm_contexts wrap unwrap -> forall pre q a post, tr = pre ++ q :: EvAnswer a :: post ->
    is_request q -> post <> [] ->
    (timed_out a /\ exists f q' post', post = EvSleep f :: q' :: post' /\ (if t_wrap t then q' = EvProbe else is_post q')) \/
    (answered_well a /\ q = EvProbe /\ exists h p c post', post = EvPost h p c :: post').
  Proof.
    intros Hc pre q a post E Q Hp. apply send_loop_of in H. destruct H as [(-> & _)|(need & Hn & L)]; [destruct pre; discriminate|].
    destruct (loop_after_answer _ _ _ _ _ Hc _ _ _ _ _ L _ _ _ _ E Q) as [X|[(T & f & post' & ->)|X]]; [contradiction| |now right].
    left. split; [exact T|]. 
    assert (E' : tr = (pre ++ [q; EvAnswer a]) ++ EvSleep f :: post') by (rewrite <- app_assoc; exact E).
    destruct (loop_need_wrap _ _ _ _ _ _ _ _ _ _ L Hn _ _ _ E') as (q' & tr' & -> & Hq). eauto.
  Qed.

  Lemma send_answers : forall pre q post, tr = pre ++ q :: post -> is_request q -> exists a post', post = EvAnswer a :: post'.
  Proof.
    intros pre q post E Q. apply send_loop_of in H. destruct H as [(-> & _)|(need & Hn & L)]; [destruct pre; discriminate|].
    exact (loop_request_answer _ _ _ _ _ _ _ _ _ _ L _ _ _ E Q).
  Qed.

  Lemma send_posts : forall pre h p c post, tr = pre ++ EvPost h p c :: post -> posted wrap t message h p c.
  Proof.
    intros pre h p c post E. apply send_loop_of in H. destruct H as [(-> & _)|(need & Hn & L)]; [destruct pre; discriminate|].
    exact (loop_posts _ _ _ _ _ _ _ _ _ _ L _ _ _ _ _ E).
  Qed.

  Lemma send_reply :
    (exists pre q a, tr = pre ++ [q; EvAnswer a] /\ is_request q /\ server_reply unwrap a r /\
        (forall b, r = RBody b -> is_post q /\ answered_well a)) \/
    (r = RExn KeyError /\ exists pre a, tr = pre ++ [EvProbe; EvAnswer a] /\ answered_well a) \/
    (t_wrap t = true /\ exists e, r = RExn e /\ (e = AttributeError \/ exists proto w, wrap_message wrap proto w message = Err e)) \/
    (tr = [] /\ st_session st = false /\ exists e, build_session t = Err e /\ r = RExn e).
  Proof.
    apply send_loop_of in H. destruct H as [X|(need & Hn & L)]; [tauto|].
    apply loop_reply in L. tauto.
  Qed.

  Lemma build_session_error e : build_session t = Err e -> e = ValueError.
  Proof.
    clear. unfold build_session. repeat (destruct (_ : bool)); repeat (destruct (_ : option _)); congruence.
  Qed.

  Lemma send_timeout : calm_contexts wrap unwrap -> forall e, r = RExn e -> (e = ReadTimeout \/ e = ConnectTimeout) ->
    count sleep_event tr = retries /\ exists pre q a, tr = pre ++ [q; EvAnswer a] /\ is_request q /\ a_outcome a = ORaise e.
  Proof.
    intros Hc e He Et. apply send_loop_of in H. destruct H as [(_ & _ & e' & X & Y)|(need & Hn & L)].
    - apply build_session_error in X. exfalso. subst. assert (e = ValueError) by congruence. subst. destruct Et; discriminate.
    - apply is_timeout_iff in Et. exact (loop_timeout _ _ _ _ _ Hc _ _ _ _ _ L e He Et).
  Qed.

  Lemma send_delays : forall i k f, nth_error (delays false tr) i = Some (k, f) ->
      f = (2 ^ N.of_nat (S i) - (if k then 1 else 0))%N.
  Proof.
    intros i k f E. apply send_loop_of in H. destruct H as [(-> & _)|(need & Hn & L)]; [destruct i; discriminate|].
    exact (loop_delays _ _ _ _ _ _ _ _ _ _ L _ _ _ _ E).
  Qed.
End Send.

(* ---- C36 ---- *)
Lemma payload_bound est limit rest payload : (0 <= limit - (est + 256))%Z -> (rest <= est + 256)%Z ->
  (zlen payload <= max_payload_size est limit)%Z ->
  (rest + zlen (b64encode payload) <= limit + 2)%Z /\
  ((limit - (est + 256)) mod 4 <= 1 -> rest + zlen (b64encode payload) <= limit)%Z.
Proof.
  intros H1 H2 H3. rewrite b64_length. unfold max_payload_size, calc_envelope_size in H3.
  pose proof (zlen_nonneg payload). set (n := zlen payload) in *. clearbody n.
  rewrite Z.quot_div_nonneg in H3 by lia. lia.
Qed.

Lemma payload_tight est limit payload : (0 <= limit - (est + 256))%Z ->
  (max_payload_size est limit + 4 <= zlen payload)%Z ->
  (limit < (est + 256) + zlen (b64encode payload))%Z.
Proof.
  intros H1 H3. rewrite b64_length. unfold max_payload_size, calc_envelope_size in H3.
  pose proof (zlen_nonneg payload). set (n := zlen payload) in *. clearbody n.
  rewrite Z.quot_div_nonneg in H3 by lia. lia.
Qed.
