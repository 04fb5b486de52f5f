(* Proofs about retries. *)
From Coq Require Import Lia ZifyBool ZifyNat ZifyN.
From Verif Require Import Base BaseProofs Lit NumModel NumProofs ReModel ReProofs EncModel Utf8Model TransModel TransSpec TransProofs.
Ltac Zify.zify_post_hook ::= Z.div_mod_to_equations.

Definition calm (e : exn) : Prop := is_timeout e = false.

Lemma utf8_encode_calm s : forall e, utf8_encode s = Err e -> calm e.
Proof.
  induction s as [|c s IH]; cbn [utf8_encode]; intros e H; [discriminate|].
  destruct (utf8_enc1 c) as [x|e'] eqn:Ec; cbn [bind] in H.
  - destruct (utf8_encode s) as [y|e'] eqn:Es; cbn [bind] in H; [discriminate|].
    assert (e' = e) by congruence. subst. now apply IH.
  - assert (e' = e) by congruence. subst. unfold utf8_enc1 in Ec.
    repeat match type of Ec with context [if ?b then _ else _] => destruct b end;
      try discriminate; assert (e = ValueError) by congruence; subst; reflexivity.
Qed.

Lemma utf8_decode_calm n : forall b, length b <= n -> forall e, utf8_decode b = Err e -> calm e.
Proof.
  induction n as [|n IH]; intros b Hb e H.
  - destruct b; [discriminate|cbn in Hb; lia].
  - destruct b as [|x b1]; [discriminate|]. cbn [utf8_decode] in H. cbn [length] in Hb.
    assert (V : forall (A : Type) (r : res A), r = Err ValueError -> r = Err e -> calm e)
      by (intros A r -> E; assert (e = ValueError) by congruence; subst; reflexivity).
    assert (R : forall (f : list N -> list N) b', length b' <= n -> (do s <- utf8_decode b'; Ok (f s)) = Err e -> calm e).
    { intros f b' Hl E. destruct (utf8_decode b') as [s|e'] eqn:E'; cbn [bind] in E; [discriminate|].
      assert (e' = e) by congruence. subst. now apply (IH b'). }
    repeat first
      [ eapply (R (fun s => _ :: s)); [|exact H]; cbn [length] in *; lia
      | eapply V; [|exact H]; reflexivity
      | match type of H with
        | context [match ?l with [] => _ | _ :: _ => _ end] => destruct l
        | context [if ?c then _ else _] => destruct c
        end ].
Qed.

Lemma int_digits_error n : forall s acc e, length s <= n -> int_digits acc s = Err e -> e = ValueError.
Proof.
  induction n as [|n IH]; intros s acc e Hl H; destruct s as [|c s]; cbn [int_digits] in H; cbn [length] in Hl; try discriminate; try lia.
  destruct (is_digit c).
  - apply (IH s _ _ ltac:(lia) H).
  - destruct (N.eqb c 95); [|congruence]. destruct s as [|d s]; [congruence|].
    destruct (is_digit d); [|congruence]. cbn [length] in Hl. apply (IH s _ _ ltac:(lia) H).
Qed.

Lemma int_body_error s e : int_body s = Err e -> e = ValueError.
Proof.
  unfold int_body. destruct s as [|c s]; [congruence|]. destruct (is_digit c); [|congruence].
  now apply (int_digits_error (length s)).
Qed.

Lemma py_int_error s e : py_int s = Err e -> e = ValueError.
Proof.
  unfold py_int. destruct (py_strip s) as [|c t]; [congruence|].
  assert (B : forall x (f : N -> Z), (do n <- int_body x; Ok (f n)) = Err e -> e = ValueError).
  { intros x f H. destruct (int_body x) eqn:E; cbn [bind] in H; [discriminate|].
    apply int_body_error in E. congruence. }
  destruct (N.eqb c 45); [apply B|]. destruct (N.eqb c 43); apply B.
Qed.

Lemma bytes_int_calm t e : bytes_int t = Err e -> calm e.
Proof.
  unfold bytes_int. destruct (existsb _ _); intros H.
  - assert (e = ValueError) by congruence. subst. reflexivity.
  - apply py_int_error in H. subst. reflexivity.
Qed.

Lemma unpack_i_calm t e : unpack_i t = Err e -> calm e.
Proof.
  unfold unpack_i, struct_unpack_le. destruct (_ : bool); cbn [bind]; intros H; [discriminate|].
  assert (e = StructError) by congruence. subst. reflexivity.
Qed.

Section Calm.
  Context {W : Type}.
  Context (unwrap : W -> list N -> list N -> res (list N * W)).
  Context (Hcalm : forall w h d e, unwrap w h d = Err e -> calm e).

  Lemma unwrap_calm boundary n : forall parts u e, length parts <= n -> unwrap_parts unwrap boundary u parts = Err e -> calm e.
  Proof.
    induction n as [|n IH]; intros parts u e Hl H.
    - destruct parts; [discriminate|cbn in Hl; lia].
    - destruct parts as [|head parts]; [discriminate|]. destruct parts as [|payload rest]; cbn [unwrap_parts] in H.
      + assert (e = IndexError) by congruence. subst. reflexivity.
      + destruct (unwrap_part unwrap boundary u head payload) as [[m u1]|e1] eqn:E1; cbn [bind] in H.
        * destruct (unwrap_parts unwrap boundary u1 rest) as [[ms u2]|e2] eqn:E2; cbn [bind] in H; [discriminate|].
          assert (e2 = e) by congruence. subst. apply (IH rest u1 e); [cbn [length] in Hl; lia|exact E2].
        * assert (e1 = e) by congruence. subst. unfold unwrap_part in E1.
          destruct (match re_split _ _ _ with [] => _ | _ :: _ => _ end) as [expected|e'] eqn:E2; cbn [bind] in E1.
          2:{ assert (e' = e) by congruence. subst. clear E1. revert E2.
              destruct (re_split _ _ _) as [|a [|b c]]; intros E2.
              - assert (e = IndexError) by congruence. subst. reflexivity.
              - assert (e = IndexError) by congruence. subst. reflexivity.
              - now apply bytes_int_calm in E2. }
          destruct (unpack_i _) as [hl|e'] eqn:E3; cbn [bind] in E1.
          2:{ assert (e' = e) by congruence. subst. now apply unpack_i_calm in E3. }
          destruct (unwrap u _ _) as [[plain u']|e'] eqn:E4; cbn [bind] in E1.
          2:{ assert (e' = e) by congruence. subst. now apply Hcalm in E4. }
          destruct (_ =? _)%Z; [discriminate|]. assert (e = WinRMError) by congruence. subst. reflexivity.
  Qed.
End Calm.

Section Retry.
  Context {W : Type}.
  Context (wrap : W -> list N -> res (list N * list N * Z * W)).
  Context (unwrap : W -> list N -> list N -> res (list N * W)).
  Context (net : nat -> @answer W) (t : transport) (message : list N).
  Notation event := (@event W).

  Definition answered (a : @answer W) (r : reply) : Prop :=
    exists st st' : @tstate W, send_request unwrap net st = (r, st', [EvAnswer a]).

  Definition opening (need : bool) (op : list event) : Prop :=
    if need then exists a b, answered a (RBody b) /\ op = [EvProbe; EvAnswer a] else op = [].

  Definition posted (h p : list N) (c : option (@context W)) : Prop :=
    if t_wrap t then exists c' proto ct w, c = Some c' /\
      wrap_message wrap proto (c_state c') message = Ok (ct, p, w)
    else h = lit "application/soap+xml;charset=UTF-8" /\ p = message /\ c = None.

  Definition timeout_reply (r : reply) : Prop := exists e, r = RExn e /\ is_timeout e = true.

  Inductive loop : nat -> nat -> bool -> reply -> list event -> Prop :=
  | L_probe_end rem att a r : answered a r -> (forall b, r <> RBody b) -> (timeout_reply r -> rem = 0) ->
      loop rem att true r [EvProbe; EvAnswer a]
  | L_no_context rem att a b : answered a (RBody b) -> loop rem att true (RExn KeyError) [EvProbe; EvAnswer a]
  | L_prepare rem att need op e : opening need op -> t_wrap t = true -> prepare_fails e -> loop rem att need (RExn e) op
  | L_probe_retry rem att a e r tr : answered a (RExn e) -> is_timeout e = true ->
      loop rem (S att) true r tr ->
      loop (S rem) att true r (EvProbe :: EvAnswer a :: EvSleep (2 ^ N.of_nat (S att)) :: tr)
  | L_post_end rem att need op h p c a r : opening need op -> posted h p c -> answered a r ->
      (timeout_reply r -> rem = 0) -> loop rem att need r (op ++ [EvPost h p c; EvAnswer a])
  | L_post_retry rem att need op h p c a e r tr : opening need op -> posted h p c -> answered a (RExn e) ->
      is_timeout e = true -> loop rem (S att) (t_wrap t) r tr ->
      loop (S rem) att need r (op ++ EvPost h p c :: EvAnswer a :: EvSleep (2 ^ N.of_nat (S att) - 1) :: tr)
  with prepare_fails : exn -> Prop :=
  | PF_none : prepare_fails AttributeError
  | PF_wrap proto w e : wrap_message wrap proto w message = Err e -> prepare_fails e.

  Definition needs (st : @tstate W) : bool :=
    (t_wrap t && match st_encryption st with None => true | Some _ => false end)%bool.

  Lemma request_answered (st : @tstate W) r st' tr : send_request unwrap net st = (r, st', tr) ->
    exists a, tr = [EvAnswer a] /\ answered a r /\ (st_encryption st = None -> st_encryption st' = None).
  Proof.
    intros H. destruct (send_request_state wrap _ _ _ _ _ _ H) as (a & _ & -> & _ & He & _).
    exists a. split; [reflexivity|]. split; [now exists st, st'|].
    intros E. rewrite E in He. destruct (st_encryption st') as [[? ?]|]; [contradiction|reflexivity].
  Qed.

  Lemma loop_sound : forall rem att st r st' tr,
    send_loop wrap unwrap net t message rem att st = (r, st', tr) -> loop rem att (needs st) r tr.
  Proof.
    induction rem as [rem IH] using lt_wf_ind. intros att st r st' tr H.
    assert (OP : forall r1 st1 tr1,
      (if needs st then establish unwrap net t st else (RBody [], st, [])) = (r1, st1, tr1) ->
      match r1 with
      | RBody _ => opening (needs st) tr1
      | RExn e => needs st = true /\ (exists a, tr1 = [EvProbe; EvAnswer a] /\
          ((answered a (RExn e) /\ st_encryption st1 = None) \/ (e = KeyError /\ exists b, answered a (RBody b))))
      | RHttp c x => needs st = true /\ exists a, tr1 = [EvProbe; EvAnswer a] /\ answered a r1
      end).
    { intros r1 st1 tr1 E. destruct (needs st) eqn:En.
      2:{ apply pair_inj in E. destruct E as [E <-]. apply pair_inj in E. destruct E as [<- <-]. reflexivity. }
      assert (Hn : st_encryption st = None) by (unfold needs in En; destruct (st_encryption st); [now rewrite andb_false_r in En|reflexivity]).
      unfold establish in E. destruct (send_request unwrap net st) as [[r0 st0] tr0] eqn:E0.
      destruct (request_answered _ _ _ _ E0) as (a & -> & Ha & Hk). specialize (Hk Hn).
      destruct r0 as [b|code x|e].
      - destruct (st_context st0).
        + apply pair_inj in E. destruct E as [E <-]. apply pair_inj in E. destruct E as [<- <-].
          exists a, b. auto.
        + apply pair_inj in E. destruct E as [E <-]. apply pair_inj in E. destruct E as [<- <-].
          split; [reflexivity|]. exists a. split; [reflexivity|]. right. eauto.
      - apply pair_inj in E. destruct E as [E <-]. apply pair_inj in E. destruct E as [<- <-]. eauto.
      - apply pair_inj in E. destruct E as [E <-]. apply pair_inj in E. destruct E as [<- <-].
        split; [reflexivity|]. exists a. split; [reflexivity|]. left. auto. }
    destruct rem as [|rem]; cbn [send_loop] in H; fold (needs st) in H.
    all: destruct (if needs st then establish unwrap net t st else (RBody [], st, [])) as [[r1 st1] tr1] eqn:E1.
    all: specialize (OP _ _ _ eq_refl).
    all: destruct r1 as [b|code x|e].
    2,5: destruct OP as (En & a & -> & Ha); apply pair_inj in H; destruct H as [H <-]; apply pair_inj in H; destruct H as [<- <-];
      rewrite En; apply L_probe_end; [exact Ha|discriminate|intros (e & X & _); discriminate].
    2:{ destruct OP as (En & a & -> & [[Ha _]|(-> & b & Ha)]); rewrite En.
        - assert (X : (RExn e, st1, [EvProbe; EvAnswer a]) = (r, st', tr)) by (destruct (is_timeout e); exact H).
          apply pair_inj in X; destruct X as [X <-]; apply pair_inj in X; destruct X as [<- <-].
          apply L_probe_end; [exact Ha|discriminate|reflexivity].
        - cbn [is_timeout] in H. apply pair_inj in H; destruct H as [H <-]; apply pair_inj in H; destruct H as [<- <-].
          now apply (L_no_context _ _ _ b). }
    3:{ destruct OP as (En & a & -> & [[Ha He]|(-> & b & Ha)]); rewrite En.
        - destruct (is_timeout e) eqn:Et.
          + destruct (send_loop wrap unwrap net t message rem (S att) st1) as [[r2 st2] tr2] eqn:E2.
            apply pair_inj in H; destruct H as [H <-]; apply pair_inj in H; destruct H as [<- <-].
            cbn [app]. apply (L_probe_retry _ _ _ e); [exact Ha|exact Et|].
            apply IH in E2; [|lia]. replace (needs st1) with true in E2; [exact E2|].
            unfold needs in En |- *. rewrite He. apply andb_prop in En. now rewrite (proj1 En).
          + apply pair_inj in H; destruct H as [H <-]; apply pair_inj in H; destruct H as [<- <-].
            apply L_probe_end; [exact Ha|discriminate|]. intros (e' & X & Y). assert (e' = e) by congruence. subst. congruence.
        - cbn [is_timeout] in H. apply pair_inj in H; destruct H as [H <-]; apply pair_inj in H; destruct H as [<- <-].
          now apply (L_no_context _ _ _ b). }
    all: destruct (prepare wrap t message st1) as [[[[h p] c] st2]|e] eqn:Ep.
    2,4: apply pair_inj in H; destruct H as [H <-]; apply pair_inj in H; destruct H as [<- <-];
      unfold prepare in Ep; destruct (t_wrap t) eqn:Ew; [|discriminate];
      apply L_prepare; [exact OP|exact Ew|];
      destruct (st_encryption st1) as [[c proto]|]; [|assert (e = AttributeError) by congruence; subst; constructor];
      destruct (wrap_message wrap proto (c_state c) message) as [[[ct pl] w]|e'] eqn:Em; cbn [bind] in Ep; [discriminate|];
      assert (e' = e) by congruence; subst; eapply PF_wrap; exact Em.
    all: assert (HP : posted h p c /\ (t_wrap t = false -> st2 = st1)).
    1,3: unfold prepare in Ep; unfold posted; destruct (t_wrap t);
      [ split; [|discriminate]; destruct (st_encryption st1) as [[c' proto]|]; [|discriminate];
        apply bind_ok in Ep; destruct Ep as ([[ct pl] w] & Em & Ep); apply Ok_inj in Ep;
        apply pair_inj in Ep; destruct Ep as [Ep _]; apply pair_inj in Ep; destruct Ep as [Ep <-];
        apply pair_inj in Ep; destruct Ep as [_ <-]; exists c', proto, ct, w; split; [reflexivity|exact Em]
      | apply Ok_inj in Ep; apply pair_inj in Ep; destruct Ep as [Ep <-]; apply pair_inj in Ep; destruct Ep as [Ep <-];
        apply pair_inj in Ep; destruct Ep as [<- <-]; auto ].
    all: destruct HP as [HP _].
    all: destruct (send_request unwrap net st2) as [[r2 st3] tr2] eqn:E2.
    all: destruct (request_answered _ _ _ _ E2) as (a & -> & Ha & _).
    all: assert (DONE : forall k, (timeout_reply r2 -> k = 0) -> (r2, st3, tr1 ++ [EvPost h p c; EvAnswer a]) = (r, st', tr) -> loop k att (needs st) r tr)
      by (intros k Hz X; apply pair_inj in X; destruct X as [X <-]; apply pair_inj in X; destruct X as [<- <-];
          apply L_post_end; [exact OP|exact HP|exact Ha|exact Hz]).
    - apply DONE; [reflexivity|]. destruct r2; try exact H. destruct (is_timeout e); exact H.
    - destruct r2 as [b2|code x|e]; [apply DONE; [intros (? & X & _); discriminate|exact H]..|].
      destruct (is_timeout e) eqn:Et.
      2:{ apply DONE; [|exact H]. intros (e' & X & Y). assert (e' = e) by congruence. subst. congruence. }
      destruct (send_loop wrap unwrap net t message rem (S att) (set_encryption st3 None)) as [[r4 st4] tr4] eqn:E4.
      apply pair_inj in H; destruct H as [H <-]; apply pair_inj in H; destruct H as [<- <-].
      rewrite <- app_assoc. cbn [app]. apply (L_post_retry _ _ _ _ _ _ _ _ e); [exact OP|exact HP|exact Ha|exact Et|].
      apply IH in E4; [|lia]. unfold needs in E4. cbn [set_encryption st_encryption] in E4. now rewrite andb_true_r in E4.
  Qed.
End Retry.
