(* Proofs about constructors. *)
From Verif Require Import Base BaseProofs Lit NumModel TextModel TextSpec TextProofs MsgModel MsgSpec XmlModel SerModel SerClasses SerSpec SerSpec2 SerProofs5 ClsSpec ClsProofs ClsProofs2 ClsProofs3 NewModel NewSpec.
Require Import Lia ZifyBool ZifyNat ZifyN.
Local Open Scope list_scope.

(* ---- what the constructors keep ---- *)
Definition is_lost (c a : list N) : bool := existsb (fun e => (str_eqb (fst e) c && str_eqb (snd e) a)%bool) lost.
Lemma is_lost_ok c a : is_lost c a = true -> In (c, a) lost.
Proof.
  unfold is_lost. intros H. apply existsb_exists in H. destruct H as ([c' a'] & I & H). apply andb_true_iff in H. destruct H as (H1 & H2).
  cbn [fst snd] in H1, H2. apply str_eqb_spec in H1. apply str_eqb_spec in H2. subst. exact I.
Qed.
Definition keeps_b (c : list N) (l : list (String.string * source)) (a : list N) : bool :=
  match find (fun x => str_eqb (lit (fst x)) a) l with Some (_, Given k) => str_eqb (lit k) a | _ => false end.
Lemma made_find kw l a : dict_get str_eqb a (map (fun e => (lit (fst e), set_from kw (snd e))) l) =
  match find (fun x => str_eqb (lit (fst x)) a) l with Some (_, s) => Some (set_from kw s) | None => None end.
Proof.
  induction l as [|[k s] l IH]; [reflexivity|]. cbn [map dict_get find fst snd]. destruct (str_eqb a (lit k)) eqn:E.
  - apply str_eqb_spec in E. subst a. rewrite str_eqb_refl. reflexivity.
  - destruct (str_eqb (lit k) a) eqn:F; [|exact IH]. apply str_eqb_spec in F. subst a. rewrite str_eqb_refl in E. discriminate E.
Qed.
Definition row (c : list N) : option (String.string * list (String.string * source)) := find (fun e => str_eqb (lit (fst e)) c) constructors.
Lemma table : forallb (fun c => match row c, library c with
  | Some (_, l), Some d => forallb (fun e => (is_lost c (fst e) || keeps_b c l (fst e))%bool) (attributes d)
  | _, _ => false end) made_classes = true.
Proof. vm_compute. reflexivity. Qed.
Lemma kept c d kw attrs a m : In c made_classes -> make c kw = Some attrs -> library c = Some d -> In (a, m) (attributes d) -> ~ In (c, a) lost ->
  dict_get str_eqb a attrs = Some (given kw a).
Proof.
  intros Ic M L I NL. pose proof table as T. rewrite forallb_forall in T. specialize (T _ Ic). rewrite L in T.
  unfold make in M. fold (row c) in M. destruct (row c) as [[nm l]|]; [|discriminate M]. apply Some_inj in M. subst attrs.
  rewrite forallb_forall in T. specialize (T _ I). cbn [fst] in T. apply orb_true_iff in T. destruct T as [T|T]; [destruct (NL (is_lost_ok _ _ T))|].
  rewrite made_find. unfold keeps_b in T. destruct (find _ l) as [[k [w|w v|v|w]]|]; try discriminate T. apply str_eqb_spec in T.
  cbn [set_from]. unfold get_kw, given. rewrite T. reflexivity.
Qed.
Lemma makes c kw : In c made_classes -> exists attrs d, make c kw = Some attrs /\ library c = Some d.
Proof.
  intros Ic. pose proof table as T. rewrite forallb_forall in T. specialize (T _ Ic). unfold make. fold (row c).
  destruct (row c) as [[nm l]|]; [|discriminate T]. destruct (library c) as [d|]; [|discriminate T]. eauto.
Qed.

(* ---- their text ---- *)
Definition ascii_text (s : list N) : bool := forallb (fun c => N.ltb c 128) s.
Lemma ascii_fair s : ascii_text s = true -> fair_text (fun _ => True) (Ok (VStr s)).
Proof. intros H. right. exists s. split; [reflexivity|]. split; [apply ascii_scalars; exact H|]. split; [apply ascii_kept; exact H|exact I]. Qed.
Lemma zget_in z l s : zget z l = Some s -> exists k, In (k, s) l.
Proof.
  induction l as [|[k t] l IH]; intros H; [discriminate H|]. cbn [zget] in H. destruct (Z.eqb z k).
  - apply Some_inj in H. subst t. exists k. left. reflexivity.
  - destruct (IH H) as (k' & K). exists k'. right. exact K.
Qed.
Definition named_all (lo : Z) (n : nat) (l : list (Z * String.string)) : bool :=
  forallb (fun k => match zget (lo + Z.of_nat k) l with Some s => ascii_text (lit s) | None => false end) (seq 0 n).
Lemma enum_fair lo n l attrs z : dict_get str_eqb (lit "value") attrs = Some (VInt z) -> named_all lo n l = true -> (lo <= z < lo + Z.of_nat n)%Z ->
  fair_text (fun _ => True) (enum_text l attrs).
Proof.
  intros D A R. unfold enum_text, enum_number. rewrite D. cbn [bind]. unfold named_all in A. rewrite forallb_forall in A.
  specialize (A (Z.to_nat (z - lo))). rewrite in_seq in A. replace (lo + Z.of_nat (Z.to_nat (z - lo)))%Z with z in A by lia.
  destruct (zget z l); [apply ascii_fair; apply A; lia|]. discriminate A. lia.
Qed.
Lemma joined_ascii l : forallb (fun s => ascii_text (lit s)) l = true -> ascii_text (joined l) = true.
Proof.
  induction l as [|s l IH]; intros H; [reflexivity|]. cbn [forallb] in H. apply andb_true_iff in H. destruct H as (H1 & H2).
  destruct l as [|s' l]; [exact H1|]. change (joined (s :: s' :: l)) with (lit s ++ lit ", " ++ joined (s' :: l)).
  unfold ascii_text in *. rewrite !forallb_app, H1, (IH H2). reflexivity.
Qed.
Lemma flags_fair all name l attrs z : dict_get str_eqb (lit "value") attrs = Some (VInt z) -> ascii_text (lit name) = true ->
  forallb (fun e => ascii_text (lit (fst e))) l = true -> fair_text (fun _ => True) (flags_text all name l attrs).
Proof.
  intros D A F. unfold flags_text, enum_number. rewrite D. cbn [bind]. apply ascii_fair. destruct (Z.eqb z all); [exact A|].
  apply joined_ascii. rewrite forallb_forall in *. intros s I. apply in_map_iff in I. destruct I as (e & <- & I). apply filter_In in I. apply F, (proj1 I).
Qed.
Lemma own_fair attrs : dict_get str_eqb (lit "_to_string") attrs = Some VNone \/ (exists s, dict_get str_eqb (lit "_to_string") attrs = Some (VStr (lit s)) /\ ascii_text (lit s) = true) ->
  fair_text (fun _ => True) (own_text attrs).
Proof. unfold own_text. intros [-> |(s & -> & A)]; [left; reflexivity|apply ascii_fair; exact A]. Qed.

Lemma text_made c d kw attrs : In c made_classes -> (forall a, ~ In (c, a) lost) -> make c kw = Some attrs -> library c = Some d -> choice_made c kw ->
  fair_text (fun _ => True) (cd_text d attrs).
Proof.
  intros Ic NL M L Ch.
  assert (V : forall P m, In (c, P) choices -> In (lit "value", m) (attributes d) -> exists z, dict_get str_eqb (lit "value") attrs = Some (VInt z) /\ P z /\
    (c = lit "PipelineResultTypes" -> given kw (lit "protocol_version_2") = VBool true -> up_to 3 z)).
  { intros P m I1 I2. destruct (Ch P I1) as (z & G & Pz). exists z. rewrite <- G. split; [exact (kept c d kw attrs _ m Ic M L I2 (NL _))|exact Pz]. }
  assert (D : d = described c) by (unfold described; rewrite L; reflexivity). subst d.
  unfold made_classes in Ic. cbn [map] in Ic.
  destruct Ic as [<- |[<- |[<- |[<- |[<- |[<- |[<- |[<- |[<- |[<- |[<- |[<- |[<- |[<- |[<- |[<- |[<- |[<- |[<- |[<- |[<- |[<- |[<- |[<- |[<- |[<- |[]]]]]]]]]]]]]]]]]]]]]]]]]]].
  Local Ltac own M := change (cd_text (described _)) with own_text; apply Some_inj in M; rewrite <- M; clear; apply own_fair;
    first [left; vm_compute; reflexivity | right; exists "System.Management.Automation.PSCredential"%string; split; vm_compute; reflexivity].
  Local Ltac value V k z D Q :=
    destruct (V (snd (nth k choices (lit "", fun _ => True))) (plain "I32") (nth_error_In choices k eq_refl) (or_introl eq_refl)) as (z & D & Q); cbn [nth choices map snd fst] in Q.
  Local Ltac enum V k m lo n := let z := fresh in let D := fresh in let Q := fresh in value V k z D Q;
    apply (enum_fair lo n m _ z D); [vm_compute; reflexivity|unfold up_to in Q; lia].
  Local Ltac lose NL a := exfalso; apply (NL (lit a)); vm_compute; tauto.
  - own M.
  - own M.
  - change (cd_text (described (lit "Color"))) with (enum_text color_map). enum V 0%nat color_map 0%Z 16%nat.
  - value V 1%nat z D Q. unfold up_to in Q. apply (enum_fair 0 4 _ _ z D); [vm_compute; reflexivity|lia].
  - value V 2%nat z D Q. unfold up_to in Q. apply (enum_fair 0 3 _ _ z D); [vm_compute; reflexivity|lia].
  - value V 8%nat z D Q. eapply (flags_fair _ _ _ _ z D); vm_compute; reflexivity.
  - own M.
  - lose NL "target_object"%string.
  - lose NL "invocation"%string.
  - lose NL "invocation"%string.
  - lose NL "invocation"%string.
  - lose NL "invocation"%string.
  - value V 3%nat z D Q. apply (enum_fair 1 56 _ _ z D); [vm_compute; reflexivity|lia].
  - value V 9%nat z D Q. eapply (flags_fair _ _ _ _ z D); vm_compute; reflexivity.
  - own M.
  - own M.
  - own M.
  - own M.
  - own M.
  - own M.
  - own M.
  - value V 4%nat z D Q. unfold up_to in Q. apply (enum_fair 0 2 _ _ z D); [vm_compute; reflexivity|lia].
  - value V 5%nat z D Q. unfold up_to in Q. change (cd_text (described (lit "PipelineResultTypes"))) with result_text. unfold result_text.
    assert (E : dict_get str_eqb (lit "protocol_version_2") attrs = Some (match get_kw kw "protocol_version_2" with Some w => w | None => VBool false end)).
    { apply Some_inj in M. rewrite <- M. reflexivity. }
    rewrite E. unfold given in Q. unfold get_kw. destruct Q as (Q1 & Q2). specialize (Q2 eq_refl).
    destruct (dict_get str_eqb (lit "protocol_version_2") kw) as [[|[|]| | | | | | | | | | | |]|];
      first [specialize (Q2 eq_refl); apply (enum_fair 0 4 _ _ z D); [vm_compute; reflexivity|lia]
            | apply (enum_fair 0 9 _ _ z D); [vm_compute; reflexivity|lia]].
  - lose NL "ietf_language_tag"%string.
  - value V 6%nat z D Q. unfold up_to in Q. apply (enum_fair 0 2 _ _ z D); [vm_compute; reflexivity|lia].
  - value V 7%nat z D Q. unfold up_to in Q. apply (enum_fair 0 2 _ _ z D); [vm_compute; reflexivity|lia].
Qed.

(* ---- sent and read back ---- *)
Lemma lost_irregular c : (forall a, ~ In (c, a) lost) -> In c made_classes -> memb c irregular = false.
Proof.
  intros NL Ic. destruct (memb c irregular) eqn:E; [|reflexivity]. exfalso.
  assert (T : forallb (fun c => (negb (memb c irregular) || is_lost c (lit "target_object"))%bool) made_classes = true) by (vm_compute; reflexivity).
  rewrite forallb_forall in T. specialize (T _ Ic). rewrite E in T. cbn [negb orb] in T. exact (NL _ (is_lost_ok _ _ T)).
Qed.
Lemma sent_back ci show xml_text float_of heap n c d kw attrs : In c made_classes -> (forall a, ~ In (c, a) lost) -> make c kw = Some attrs -> library c = Some d ->
  choice_made c kw -> nth_error heap n = Some (HCls c attrs) ->
  (forall a m, In (a, m) (attributes d) -> conforms ci float_of library library_canon heap (fun _ => True) (fun _ => True) m (given kw a)) ->
  exists f0, forall fuel, (f0 <= fuel)%nat -> exists x, serialize ci show library heap fuel (VObj n) (class_meta c) = Ok (Some x) /\
    forall heap0, exists n' e attrs', deserialize ci xml_text float_of library heap0 (reparse x) (class_meta c) = Ok (VObj n', heap0 ++ e) /\
      nth_error (heap0 ++ e) n' = Some (HCls c attrs') /\
      forall a m, In (a, m) (attributes d) -> exists w, dict_get str_eqb a attrs' = Some w /\ copy library heap (length heap0) (heap0 ++ e) (given kw a) w.
Proof.
  intros Ic NL M L Ch Hn Cf.
  assert (C : conforms ci float_of library library_canon heap (fun _ => True) (fun _ => True) (class_meta c) (VObj n)).
  { unfold class_meta. apply (library_fits ci float_of heap (fun _ => True) (fun _ => True) (lit "Obj") None false n c attrs d); [left; reflexivity|exact Hn|exact L|exact (lost_irregular c NL Ic)| |].
    - exact (text_made c d kw attrs Ic NL M L Ch).
    - apply Forall_forall. intros [a m] I. cbn [fst snd]. exists (given kw a). split; [exact (kept c d kw attrs a m Ic M L I (NL a))|exact (Cf a m I)]. }
  destruct (library_roundtrip ci show xml_text float_of heap (fun _ => True) (fun _ => True) (class_meta c) (VObj n) C (or_intror eq_refl)) as (f0 & R).
  exists f0. intros fuel Le. destruct (R fuel Le) as (x & Sx & Dx). exists x. split; [exact Sx|]. intros heap0. destruct (Dx heap0) as (w & e & De & Co).
  inversion Co as [| | | | | | | | | |n0 n' c' at1 at2 d' Lb H1 H2 H3 H4 H5 H6 H7]; subst. rewrite Hn in H1. apply Some_inj in H1.
  assert (Ec : c' = c) by congruence. assert (Ea : at1 = attrs) by congruence. subst c' at1. rewrite L in H3. apply Some_inj in H3. subst d'.
  exists n', e, at2. split; [exact De|]. split; [exact H2|]. intros a m I. pose proof (H4 a m I) as P. destruct (dict_get str_eqb a at2) as [w|] eqn:G; [|destruct (P eq_refl)].
  exists w. split; [reflexivity|]. exact (H5 a m _ _ I (kept c d kw attrs a m Ic M L I (NL a)) G).
Qed.

(* ---- what cannot be sent ---- *)
Section Unset.
  Context (ci : option cipher) (show : value -> list N) (heap : list hobj).
  Lemma attrs_unset rec attrs a m props st r : In (a, m) props -> dict_get str_eqb a attrs = None -> ser_attrs rec attrs props st <> Ok r.
  Proof.
    revert st r. induction props as [|[a' m'] props IH]; intros st r I D H; [destruct I|]. cbn [ser_attrs] in H.
    destruct I as [I|I].
    - apply pair_inj in I. destruct I as (-> & ->). rewrite D in H. discriminate H.
    - destruct (dict_get str_eqb a' attrs); [|discriminate H]. apply bind_ok in H. destruct H as ([xs st1] & _ & H).
      apply bind_ok in H. destruct H as ([ys st2] & H & _). exact (IH _ _ I D H).
  Qed.
  Lemma group_unset rec p attrs a m props st r : In (a, m) props -> dict_get str_eqb a attrs = None -> ser_group rec p attrs props st <> Ok r.
  Proof.
    intros I D H. unfold ser_group in H. destruct props as [|e props]; [destruct I|]. apply bind_ok in H. destruct H as ([xs st1] & H & _).
    exact (attrs_unset rec attrs a m _ _ _ I D H).
  Qed.
  Lemma obj_unset rec n c attrs d a m st r : nth_error heap n = Some (HCls c attrs) -> library c = Some d -> In (a, m) (attributes d) -> dict_get str_eqb a attrs = None ->
    ser_obj library heap rec (VObj n) st <> Ok r.
  Proof.
    intros Hn L I D H. unfold ser_obj in H. destruct (take_id st) as [id st0]. rewrite Hn, L in H.
    apply bind_ok in H. destruct H as ([tn st1] & _ & H). apply bind_ok in H. destruct H as (t & _ & H). apply bind_ok in H. destruct H as (ts & _ & H).
    apply bind_ok in H. destruct H as ([sets st2] & H1 & H). apply bind_ok in H. destruct H as ([ms st3] & H2 & H). apply bind_ok in H. destruct H as ([ps st4] & H3 & H).
    unfold attributes in I. apply in_app_or in I. destruct I as [I|I]; [exact (attrs_unset _ _ _ _ _ _ _ I D H1)|].
    apply in_app_or in I. destruct I as [I|I]; [exact (group_unset _ _ _ _ _ _ _ _ I D H3)|exact (group_unset _ _ _ _ _ _ _ _ I D H2)].
  Qed.
  Lemma never_sent n c attrs d a m mt fuel x : nth_error heap n = Some (HCls c attrs) -> library c = Some d -> In (a, m) (attributes d) -> dict_get str_eqb a attrs = None ->
    m_tag mt = lit "Obj" \/ m_tag mt = star -> serialize ci show library heap fuel (VObj n) mt <> Ok x.
  Proof.
    intros Hn L I D T H. unfold serialize in H. apply bind_ok in H. destruct H as ([[o m1] st] & H & _). destruct fuel as [|fuel]; [discriminate H|]. cbn [ser] in H.
    assert (E : (if str_eqb (m_tag mt) star then (tag_of_value heap (VObj n), VObj n) else (m_tag mt, VObj n)) = (lit "Obj", VObj n)).
    { destruct T as [-> | ->]; [reflexivity|]. change (str_eqb star star) with true. cbv beta iota. unfold tag_of_value. rewrite Hn. reflexivity. }
    rewrite E in H. cbv beta iota in H. change (existsb (str_eqb (lit "Obj")) known_tags) with true in H. cbn [negb] in H.
    change (pack_text ci show (set_tag (lit "Obj") mt) (lit "Obj") (VObj n)) with (@None (res (list N))) in H.
    apply bind_ok in H. destruct H as ([[y m2] st1] & H & _). unfold pack_struct in H. change (str_eqb (lit "Obj") (lit "Obj")) with true in H. cbv iota in H.
    apply bind_ok in H. destruct H as ([z st2] & H & _). exact (obj_unset _ n c attrs d a m _ _ Hn L I D H).
  Qed.
End Unset.
Lemma unsent ci show heap n c kw attrs mt fuel x : c = lit "CultureInfo" \/ c = lit "ErrorRecord" -> make c kw = Some attrs ->
  nth_error heap n = Some (HCls c attrs) -> m_tag mt = lit "Obj" \/ m_tag mt = star -> serialize ci show library heap fuel (VObj n) mt <> Ok x.
Proof.
  intros [-> | ->] M Hn T; apply Some_inj in M; subst attrs.
  - eapply never_sent with (a := lit "ietf_language_tag") (m := pm "S" "IetfLanguageTag" false) (d := described (lit "CultureInfo"));
      [exact Hn|vm_compute; reflexivity|vm_compute; tauto|vm_compute; reflexivity|exact T].
  - eapply never_sent with (a := lit "target_object") (m := pm "*" "TargetObject" true) (d := described (lit "ErrorRecord"));
      [exact Hn|vm_compute; reflexivity|right; left; reflexivity|vm_compute; reflexivity|exact T].
Qed.
