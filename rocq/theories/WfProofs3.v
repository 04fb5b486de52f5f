(* Values that fit their metadata are written so that a text can carry them. *)
From Verif Require Import Base BaseProofs Lit NumModel NumProofs TextModel TextSpec TextProofs Utf8Model MsgModel MsgSpec XmlModel SerModel SerClasses SerProofs SerSpec SerSpec2 XtModel XtSpec XtProofs XtProofs3 ClsSpec ClsProofs ClsProofs2 ClsProofs3 WfModel WfSpec WfProofs WfProofs2.
Local Open Scope list_scope.

Section Fits.
  Context (ci : option cipher) (show : value -> list N) (xml_text : xml -> list N) (float_of : list N -> res (list N)) (classes : list N -> option cdesc).
  Context (canon : list N -> list (list N)) (heap : list hobj).
  Notation conforms := (conforms ci float_of classes canon heap said raw).
  Notation bears := (bears ci float_of said raw).
  Definition fitting (n : nat) : Prop := exists m, conforms m (VObj n).
  Notation loose := (loose show fitting).

  Lemma bears_loose m v : bears (m_tag m) v -> loose m v.
  Proof.
    intros B. remember (m_tag m) as tag eqn:E. destruct B as [tag s I S H D|c C|b|tag z I|tag t I N F W|b B N|g G|tag s I N W|c s C V S].
    - apply lo_str; [exact D|]. rewrite <- E. right. exact I.
    - apply lo_hidden. rewrite <- E. left. reflexivity.
    - apply lo_strict. constructor.
    - apply lo_strict. constructor.
    - apply lo_strict. constructor. exact W.
    - apply lo_bytes. rewrite <- E. right. left. reflexivity.
    - apply lo_strict. constructor. exact G.
    - apply lo_strict. constructor. exact W.
    - apply lo_hidden. rewrite <- E. right. left. reflexivity.
  Qed.
  (* with the tag that is inferred *)
  Lemma natural_loose m v : m_tag m = star -> bears (natural v) v -> loose m v.
  Proof.
    intros E B. remember (natural v) as tag eqn:T. destruct B as [tag s I S H D|c C|b|tag z I|tag t I N F W|b B N|g G|tag s I N W|c s C V S].
    - apply lo_str; [exact D|]. rewrite E. left. reflexivity.
    - discriminate T.
    - apply lo_strict. constructor.
    - apply lo_strict. constructor.
    - apply lo_strict. constructor. exact W.
    - apply lo_bytes. rewrite E. left. reflexivity.
    - apply lo_strict. constructor. exact G.
    - apply lo_strict. constructor. exact W.
    - discriminate T.
  Qed.
  Lemma lone_loose m v : m_tag m = star -> lone ci float_of said raw v -> loose m v.
  Proof. intros E [-> |B]; [apply lo_strict; constructor|exact (natural_loose m v E B)]. Qed.
  Lemma conforms_loose m v : conforms m v -> loose m v.
  Proof.
    induction 1 as [m T|tag name opt v B|name opt v B|name opt tag v B|name opt l L|name opt d Lk Dk C IH|ts name opt d Ct Lk Dk C IH
      |name opt n c attrs d Hn Hc P F Nt Ch G C IH|tag name opt n c attrs d Ht Hn Hc P F G C IH|e ts name opt l Ct Ke Oe Nn C IH].
    - apply lo_strict. constructor.
    - apply bears_loose. exact B.
    - apply natural_loose; [reflexivity|exact B].
    - apply lo_tagged; [reflexivity|]. apply bears_loose. exact B.
    - apply (lo_list _ _ _ any_meta); [left; reflexivity|reflexivity|]. intros v Hv. rewrite Forall_forall in L. apply lone_loose; [reflexivity|exact (L v Hv)].
    - eapply lo_dict; [left; reflexivity|split; reflexivity| |].
      + intros k v Hi. rewrite Forall_forall in Lk. apply lone_loose; [reflexivity|exact (Lk _ Hi)].
      + intros k v Hi. exact (IH _ Hi).
    - eapply lo_dict; [right; left; reflexivity|split; reflexivity| |].
      + intros k v Hi. rewrite Forall_forall in Lk. apply lone_loose; [reflexivity|exact (Lk _ Hi)].
      + intros k v Hi. exact (IH _ Hi).
    - apply lo_obj; [left; reflexivity|]. exists (Meta KPlain star name opt None). eapply cf_known; eassumption.
    - apply lo_obj; [destruct Ht as [-> | ->]; [right; left|left]; reflexivity|]. exists (Meta KPlain tag name opt (Some c)). eapply cf_class; eassumption.
    - apply (lo_list _ _ _ e); [right; left; reflexivity|reflexivity|exact IH].
  Qed.
  Lemma fair_texts t : fair_text said t -> forall v, t = Ok v -> fair v.
  Proof.
    intros [-> |(s & -> & _ & _ & S)] v E; apply Ok_inj in E; subst v; [exact I|exact S].
  Qed.
  Lemma fitting_clean : tidy_classes classes -> clean_heap show classes heap fitting.
  Proof.
    intros Tc n o (m & C) Hn.
    assert (Q : exists c attrs d, o = HCls c attrs /\ classes c = Some d /\ fair_text said (cd_text d attrs) /\
      forall a m' v, In (a, m') (attributes d) -> dict_get str_eqb a attrs = Some v -> conforms m' v).
    { inversion C; subst; try discriminate.
      - exfalso. match goal with B : ClsSpec.bears _ _ _ _ _ (VObj _) |- _ => inversion B end.
      - exfalso. match goal with B : ClsSpec.bears _ _ _ _ _ (VObj _) |- _ => inversion B end.
      - match goal with K : nth_error heap n = Some (HCls ?c ?a), D : classes ?c = Some ?d |- _ => rewrite Hn in K; apply Some_inj in K; exists c, a, d; auto end.
      - match goal with K : nth_error heap n = Some (HCls ?c ?a), D : classes ?c = Some ?d |- _ => rewrite Hn in K; apply Some_inj in K; exists c, a, d; auto end. }
    destruct Q as (c & attrs & d & -> & Hc & F & A). intros d' Hd. rewrite Hc in Hd. apply Some_inj in Hd. subst d'.
    destruct (Tc c d Hc) as (T1 & T2). split; [exact T1|]. split; [exact (fair_texts _ F)|].
    intros a m' v Hi Hv. split; [exact (T2 a m' Hi)|]. apply conforms_loose. exact (A a m' v Hi Hv).
  Qed.

  (* from the value to the text and back *)
  Lemma text_roundtrip reg m v : usable_registry reg -> tidy_classes classes -> tidy m -> coded canon list_names -> coded canon dict_names ->
    conforms m v -> v <> VNone \/ m_optional m = false ->
    exists f0, forall fuel, (f0 <= fuel)%nat -> exists t, serialize_text ci show classes reg heap fuel v m = Ok (Some t) /\
      forall heap0, exists w e, deserialize_text ci xml_text float_of classes heap0 t m = Ok (w, heap0 ++ e) /\ copy classes heap (length heap0) (heap0 ++ e) v w.
  Proof.
    intros U Tc Tm Cl Cd C Nn. destruct (roundtrip ci show xml_text float_of classes canon heap said raw Cl Cd m v C Nn) as (f0 & K).
    exists f0. intros fuel L. destruct (K fuel L) as (x & E & D).
    destruct (serialize_safe ci show classes heap fitting (fitting_clean Tc) fuel v m x Tm (conforms_loose m v C) E) as (W & Un).
    destruct (carried_same reg x U W Un) as (b & s & Eb & _ & Es & Ep).
    exists s. unfold serialize_text, deserialize_text. rewrite E. cbn [bind]. rewrite Eb. cbn [bind]. rewrite Es. split; [reflexivity|].
    intros heap0. rewrite Ep. apply D.
  Qed.
End Fits.
(* whatever is accepted: the text holds that tree *)
Lemma document ci show classes heap R reg fuel v m t : usable_registry reg -> clean_heap show classes heap R -> tidy m -> loose show R m v ->
  serialize_text ci show classes reg heap fuel v m = Ok (Some t) ->
  exists x, serialize ci show classes heap fuel v m = Ok (Some x) /\ xml_parse t = Some (reparse x).
Proof.
  intros U Ch Tm L H. unfold serialize_text in H. apply bind_ok in H. destruct H as ([x|] & E & H); [|discriminate H]. exists x. split; [exact E|].
  destruct (serialize_safe ci show classes heap R Ch fuel v m x Tm L E) as (W & Un).
  destruct (carried_same reg x U W Un) as (b & s & Eb & _ & Es & Ep). rewrite Eb in H. cbn [bind] in H. rewrite Es in H. cbn [bind] in H.
  apply Ok_inj in H. apply Some_inj in H. subst s. exact Ep.
Qed.
Lemma written_all ci show classes heap R reg fuel v m x : usable_registry reg -> clean_heap show classes heap R -> tidy m -> loose show R m v ->
  serialize ci show classes heap fuel v m = Ok (Some x) -> exists t, serialize_text ci show classes reg heap fuel v m = Ok (Some t).
Proof.
  intros U Ch Tm L E. destruct (serialize_safe ci show classes heap R Ch fuel v m x Tm L E) as (W & Un).
  destruct (carried_same reg x U W Un) as (b & s & Eb & _ & Es & Ep). exists s. unfold serialize_text. rewrite E. cbn [bind]. rewrite Eb. cbn [bind]. rewrite Es. reflexivity.
Qed.

(* ---- the library's classes ---- *)
Definition rawb (s : list N) : bool := forallb (fun c => N.leb 32 c && N.leb c 126)%bool s.
Lemma rawb_ok s : rawb s = true -> raw s.
Proof.
  intros H. apply visible_raw. apply Forall_forall. intros c Hc. unfold rawb in H. rewrite forallb_forall in H. specialize (H c Hc).
  apply andb_true_iff in H. destruct H as (A & B). apply N.leb_le in A. apply N.leb_le in B. split; assumption.
Qed.
Lemma rawsb_ok l : forallb rawb l = true -> Forall raw l.
Proof. intros H. apply Forall_forall. intros s Hs. rewrite forallb_forall in H. apply rawb_ok. exact (H s Hs). Qed.
Fixpoint tidyb (m : meta) : bool :=
  match m with
  | Meta k tag name _ _ =>
      match name with Some n => rawb n | None => true end &&
      match k with
      | KPlain => true
      | KList e ts => (str_eqb tag (lit "LST") || str_eqb tag (lit "IE")) && tidyb e && forallb rawb ts
      | KStack e ts | KQueue e ts => tidyb e && forallb rawb ts
      | KDict a b ts => tidyb a && tidyb b && forallb rawb ts
      end
  end%bool.
Fixpoint tidyb_ok (m : meta) : tidyb m = true -> tidy m.
Proof.
  destruct m as [k tag name opt obj]. cbn [tidyb]. intros H. apply andb_true_iff in H. destruct H as (H1 & H2). constructor.
  - intros n ->. apply rawb_ok in H1. apply H1.
  - destruct k as [|e ts|e ts|e ts|a b ts]; try exact I. apply andb_true_iff in H2. destruct H2 as (H2 & _). apply andb_true_iff in H2. destruct H2 as (H2 & _).
    apply orb_true_iff in H2. destruct H2 as [H2|H2]; apply str_eqb_spec in H2; subst tag; [left|right; left]; reflexivity.
  - destruct k as [|e ts|e ts|e ts|a b ts]; [constructor| | | |].
    + apply andb_true_iff in H2. destruct H2 as (H2 & H4). apply andb_true_iff in H2. destruct H2 as (_ & H3). constructor; [exact (tidyb_ok e H3)|exact (rawsb_ok ts H4)].
    + apply andb_true_iff in H2. destruct H2 as (H3 & H4). constructor; [exact (tidyb_ok e H3)|exact (rawsb_ok ts H4)].
    + apply andb_true_iff in H2. destruct H2 as (H3 & H4). constructor; [exact (tidyb_ok e H3)|exact (rawsb_ok ts H4)].
    + apply andb_true_iff in H2. destruct H2 as (H2 & H4). apply andb_true_iff in H2. destruct H2 as (H2 & H3). constructor; [exact (tidyb_ok a H2)|exact (tidyb_ok b H3)|exact (rawsb_ok ts H4)].
Qed.
Lemma library_tidy : tidy_classes library.
Proof.
  intros c d H. apply dict_get_in in H.
  assert (K : forallb (fun e => (forallb rawb (cd_types (snd e)) && forallb (fun a => tidyb (snd a)) (attributes (snd e)))%bool) library_classes = true) by (vm_compute; reflexivity).
  rewrite forallb_forall in K. specialize (K _ H). cbn [snd] in K. apply andb_true_iff in K. destruct K as (K1 & K2). split; [exact (rawsb_ok _ K1)|].
  intros a m Hi. rewrite forallb_forall in K2. apply tidyb_ok. exact (K2 _ Hi).
Qed.
Lemma library_text_roundtrip ci show xml_text float_of heap reg m v : usable_registry reg -> tidy m -> conforms ci float_of library library_canon heap said raw m v -> v <> VNone \/ m_optional m = false ->
  exists f0, forall fuel, (f0 <= fuel)%nat -> exists t, serialize_text ci show library reg heap fuel v m = Ok (Some t) /\
    forall heap0, exists w e, deserialize_text ci xml_text float_of library heap0 t m = Ok (w, heap0 ++ e) /\ copy library heap (length heap0) (heap0 ++ e) v w.
Proof.
  intros U Tm C Nn. eapply text_roundtrip; [exact U|exact library_tidy|exact Tm|apply declared_coded; left; reflexivity|apply declared_coded; right; left; reflexivity|exact C|exact Nn].
Qed.
