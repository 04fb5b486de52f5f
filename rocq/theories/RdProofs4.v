(* What type names say, the classes of the library, and documents as texts. *)
From Verif Require Import Base BaseProofs Lit NumModel TextModel TextSpec TextProofs Utf8Model MsgModel MsgSpec XmlModel SerModel SerSpec SerSpec2 SerClasses SendClasses SerProofs3 XtModel WfModel UtilSpec UtilProofs RdSpec RdProofs RdProofs3.
Require Import Lia ZifyBool ZifyNat ZifyN.
Local Open Scope list_scope.

Lemma no_bracket p s : ~ In 91%N s -> In 91%N p -> starts_with p s = false.
Proof.
  intros H I1. destruct (starts_with p s) eqn:E; [|reflexivity]. exfalso. apply starts_with_spec in E. destruct E as (r & ->). apply H. rewrite in_app_iff. left. exact I1.
Qed.
Lemma no_bracket_end s : ~ In 91%N s -> ends_with (lit "[]") s = false.
Proof.
  intros H. unfold ends_with. apply no_bracket; [|right; left; reflexivity]. intros C. apply H. apply in_rev. exact C.
Qed.
Lemma get_key {V} (k : list N) (v : V) d : dict_get str_eqb k d = Some v -> In k (map fst d).
Proof.
  induction d as [|[k' v'] d IH]; cbn [dict_get]; [discriminate|]. destruct (str_eqb k k') eqn:E; [apply str_eqb_spec in E; subst; left; reflexivity|]. intros H. right. exact (IH H).
Qed.
Lemma prefix_stays : forall p t q, ~ In 91%N p -> p ++ q = t ++ lit "[]" -> exists q', t = p ++ q'.
Proof.
  induction p as [|c p IHp]; intros t q Np Eq; [exists t; reflexivity|]. destruct t as [|e t].
  - exfalso. apply Np. apply cons_inj in Eq. destruct Eq as (-> & _). left. reflexivity.
  - cbn [app] in Eq. apply cons_inj in Eq. destruct Eq as (-> & Eq). destruct (IHp t q) as (q' & ->); [intros C; apply Np; right; exact C|exact Eq|]. exists q'. reflexivity.
Qed.
Definition bare (t : list N) : Prop := ~ In 91%N t /\ starts_with (lit "Deserialized.System.") t = false.
Lemma choose_bare t ts : bare t -> choose (t :: ts) = match dict_get str_eqb t structures with Some m => Ok (Some m) | None => choose ts end.
Proof.
  intros (B1 & B2). cbn [choose]. rewrite B2. cbv zeta. rewrite (no_bracket_end t B1), !(no_bracket _ t B1) by (vm_compute; tauto). reflexivity.
Qed.
Definition unknown (t : list N) : Prop := bare t /\ ~ In t (map fst structures).
Lemma unknown_skipped t ts : unknown t -> choose (t :: ts) = choose ts.
Proof. intros (B & N1). rewrite (choose_bare t ts B). destruct (dict_get str_eqb t structures) eqn:E; [|reflexivity]. exfalso. apply N1. exact (get_key _ _ _ E). Qed.
Lemma choose_unknown us ts : Forall unknown us -> choose (us ++ ts) = choose ts.
Proof. induction 1 as [|u us Hu _ IH]; [reflexivity|]. cbn [app]. rewrite (unknown_skipped _ _ Hu). exact IH. Qed.
Lemma generic_types us : Forall unknown us -> by_types (us ++ [lit "System.Object"]) = Some Generic.
Proof. intros H. unfold by_types. rewrite (choose_unknown us _ H). reflexivity. Qed.
Lemma known_types us t ts m : Forall unknown us -> bare t -> dict_get str_eqb t structures = Some m ->
  by_types (us ++ t :: ts) = match as_reading m with Some Open | Some Free => None | r => r end.
Proof. intros H B E. unfold by_types. rewrite (choose_unknown us _ H), (choose_bare t ts B), E. reflexivity. Qed.
Lemma deserialized_types us t ts : by_types (us ++ (lit "Deserialized.System." ++ t) :: ts) = by_types (us ++ (lit "System." ++ t) :: ts).
Proof.
  unfold by_types. f_equal.
  assert (E : choose ((lit "Deserialized.System." ++ t) :: ts) = choose ((lit "System." ++ t) :: ts)).
  { cbn [choose]. assert (S1 : starts_with (lit "Deserialized.System.") (lit "Deserialized.System." ++ t) = true) by (apply starts_with_spec; exists t; reflexivity). rewrite S1.
    change (starts_with (lit "Deserialized.System.") (lit "System." ++ t)) with false. cbv iota. change (skipn 13 (lit "Deserialized.System." ++ t)) with (lit "System." ++ t). reflexivity. }
  enough (Q : choose (us ++ (lit "Deserialized.System." ++ t) :: ts) = choose (us ++ (lit "System." ++ t) :: ts)) by (rewrite Q; reflexivity).
  induction us as [|u us IH]; [exact E|]. cbn [app choose]. rewrite IH. reflexivity.
Qed.
Lemma array_types us t ts m : Forall unknown us -> bare t -> dict_get str_eqb t structures = Some m ->
  by_types (us ++ (t ++ lit "[]") :: ts) = match as_reading m with Some r => Some (ListOf (strict r)) | None => None end.
Proof.
  intros H (B1 & B2) E. unfold by_types. rewrite (choose_unknown us _ H). cbn [choose].
  assert (B2' : starts_with (lit "Deserialized.System.") (t ++ lit "[]") = false).
  { destruct (starts_with _ (t ++ lit "[]")) eqn:S1; [|reflexivity]. exfalso. apply starts_with_spec in S1. destruct S1 as (r & S1).
    destruct (prefix_stays (lit "Deserialized.System.") t r) as (q' & ->); [vm_compute; intuition discriminate|symmetry; exact S1|].
    assert (S2 : starts_with (lit "Deserialized.System.") (lit "Deserialized.System." ++ q') = true) by (apply starts_with_spec; exists q'; reflexivity). congruence. }
  rewrite B2'. cbv zeta. assert (S1 : ends_with (lit "[]") (t ++ lit "[]") = true) by (apply ends_with_spec; exists t; reflexivity). rewrite S1.
  assert (S2 : py_slice (t ++ lit "[]") 0 (-2) = t).
  { unfold py_slice, slice_index. replace (zlen (t ++ lit "[]")) with (zlen t + 2)%Z by (unfold zlen; rewrite app_length; cbn [length lit]; change (length (lit "[]")) with 2%nat; lia).
    assert (Z0 : (0 <= zlen t)%Z) by (unfold zlen; lia). change (0 <? 0)%Z with false. change (-2 <? 0)%Z with true. cbv iota.
    replace (Z.min 0 (zlen t + 2)) with 0%Z by lia. replace (Z.max 0 (zlen t + 2 + -2)) with (zlen t) by lia. rewrite Z.sub_0_r. change (Z.to_nat 0) with 0%nat. cbn [skipn].
    replace (Z.to_nat (zlen t)) with (length t); [rewrite firstn_app, Nat.sub_diag, firstn_all; cbn [firstn]; apply app_nil_r|]. unfold zlen. lia. }
  rewrite S2, E. cbn [list_meta as_reading]. change (str_eqb (lit "LST") (lit "LST")) with true. cbv iota. destruct (as_reading m) as [r|]; reflexivity.
Qed.

(* the classes of the library *)
Definition memb (a : list N) (l : list (list N)) : bool := existsb (str_eqb a) l.
Lemma memb_spec a l : memb a l = true <-> In a l.
Proof. unfold memb. rewrite existsb_exists. split; [intros (b & I1 & E); apply str_eqb_spec in E; subst; exact I1|intros H; exists a; split; [exact H|apply str_eqb_refl]]. Qed.
Definition class_okb (d : cdesc) : bool :=
  let names := map fst (cd_sets d ++ cd_adapted d ++ cd_extended d) in
  (nodupb names && negb (memb (lit "_to_string") names) &&
   forallb (fun e => (memb (m_tag (snd e)) scalar_tags && negb (memb (m_tag (snd e)) (map lit ["ToString"; "Nil"]%string)) && match m_name (snd e) with None => true | _ => false end)%bool) (cd_sets d))%bool.
Lemma class_okb_ok d : class_okb d = true -> class_ok d.
Proof.
  unfold class_okb, class_ok. rewrite !Bool.andb_true_iff, Bool.negb_true_iff. intros ((H1 & H2) & H3). split; [apply nodupb_spec; exact H1|]. split.
  - intros C. apply memb_spec in C. congruence.
  - apply Forall_forall. intros e He. rewrite forallb_forall in H3. specialize (H3 e He). rewrite !Bool.andb_true_iff, Bool.negb_true_iff in H3. destruct H3 as ((G1 & G2) & G3).
    split; [apply memb_spec; exact G1|]. split; [intros C; apply memb_spec in C; congruence|]. destruct (m_name (snd e)); [discriminate G3|reflexivity].
Qed.
Lemma library_ok c d : sending c = Some d -> class_ok d.
Proof.
  intros H. apply class_okb_ok. apply dict_get_in in H.
  assert (K : forallb class_okb (map snd sending_classes) = true) by (vm_compute; reflexivity). rewrite forallb_forall in K. exact (K d H).
Qed.
Lemma library_readings c d a m : sending c = Some d -> In (a, m) (cd_sets d ++ cd_adapted d ++ cd_extended d) ->
  (c, a) <> (lit "Command", lit "args") -> (c, a) <> (lit "GetCommandMetadata", lit "command_type") -> exists r, as_reading m = Some r.
Proof.
  intros H I1 N1 N2. 
  assert (K : forallb (fun ce => forallb (fun e => match as_reading (snd e) with
      | Some _ => true | None => ((str_eqb (fst ce) (lit "Command") && str_eqb (fst e) (lit "args")) || (str_eqb (fst ce) (lit "GetCommandMetadata") && str_eqb (fst e) (lit "command_type")))%bool end)
      (cd_sets (snd ce) ++ cd_adapted (snd ce) ++ cd_extended (snd ce))) sending_classes = true) by (vm_compute; reflexivity).
  rewrite forallb_forall in K. assert (I2 : In (c, d) sending_classes).
  { revert H. unfold sending. generalize sending_classes. induction l as [|[k v] l IH]; cbn [dict_get]; [discriminate|]. destruct (str_eqb c k) eqn:E; [|intros H; right; exact (IH H)].
    apply str_eqb_spec in E. subst k. intros H. apply Some_inj in H. subst v. left. reflexivity. }
  specialize (K _ I2). cbn [fst snd] in K. rewrite forallb_forall in K. specialize (K _ I1). cbn [fst snd] in K. destruct (as_reading m) as [r|]; [exists r; reflexivity|].
  exfalso. apply Bool.orb_true_iff in K. rewrite !Bool.andb_true_iff, !str_eqb_spec in K. destruct K as [(-> & ->)|(-> & ->)]; [apply N1|apply N2]; reflexivity.
Qed.

(* the text of a document *)
Lemma read_text_document ci xml_text float_of classes r t s' m heap txt : xml_parse txt = Some (write None t) -> readable ci float_of classes r ([], []) t s' -> as_reading m = Some r ->
  exists v h env, deserialize_text ci xml_text float_of classes heap txt m = Ok (v, heap ++ h) /\
    (forall id, In id (snd s') <-> dict_get str_eqb id env <> None) /\ holds ci float_of classes (length heap) (heap ++ h) env r t v.
Proof. intros E H R. unfold deserialize_text. rewrite E. apply (read_document ci xml_text float_of classes r t s' m heap H R). Qed.

(* which property suits, computed *)
Definition suitsb (m : meta) (e : option (list N) * item) : bool :=
  ((str_eqb (m_tag m) star || memb (tag_of (snd e)) (property_tags m)) &&
   match m_name m, fst e with None, _ => true | Some a, Some b => str_eqb a b | Some _, None => false end)%bool.
Lemma suitsb_spec m e : suitsb m e = true <-> suits m e.
Proof.
  unfold suitsb, suits. rewrite Bool.andb_true_iff, Bool.orb_true_iff, str_eqb_spec, memb_spec.
  assert (K : match m_name m, fst e with None, _ => true | Some a, Some b => str_eqb a b | Some _, None => false end = true <-> (m_name m = None \/ m_name m = fst e)).
  { destruct (m_name m) as [a|], (fst e) as [b|]; try rewrite str_eqb_spec; split; try intros [K|K]; try intros K; try congruence; try (left; reflexivity); try (right; congruence); try reflexivity; discriminate. }
  rewrite K. reflexivity.
Qed.
Lemma none_computed m props : existsb (suitsb m) props = false -> none_suits m props.
Proof.
  intros H e He C. apply suitsb_spec in C. assert (K : existsb (suitsb m) props = true) by (apply existsb_exists; exists e; split; assumption). congruence.
Qed.
Lemma only_computed m props a name t b : props = a ++ (name, t) :: b -> suitsb m (name, t) = true -> existsb (suitsb m) (a ++ b) = false -> only m props t.
Proof.
  intros -> H1 H2. exists name. split; [apply in_or_app; right; left; reflexivity|]. split; [apply suitsb_spec; exact H1|]. intros e He Hs. apply in_app_or in He. destruct He as [He|[He|He]].
  - exfalso. apply (none_computed _ _ H2 e); [apply in_or_app; left; exact He|exact Hs].
  - symmetry. exact He.
  - exfalso. apply (none_computed _ _ H2 e); [apply in_or_app; right; exact He|exact Hs].
Qed.
