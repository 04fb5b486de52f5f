(* The library's classes are plainly described. *)
From Verif Require Import Base BaseProofs Lit NumModel TextModel TextSpec MsgModel MsgSpec XmlModel SerModel SerClasses SerSpec SerSpec2 SerProofs3 ClsSpec ClsProofs ClsProofs2.

Local Open Scope list_scope.
Fixpoint names_eqb (a b : list (list N)) : bool :=
  match a, b with [], [] => true | x :: a', y :: b' => str_eqb x y && names_eqb a' b' | _, _ => false end.
Lemma names_eqb_eq a : forall b, names_eqb a b = true -> a = b.
Proof.
  induction a as [|x a IH]; intros [|y b] H; try discriminate H; [reflexivity|]. cbn [names_eqb] in H. apply andb_true_iff in H. destruct H as (H1 & H2).
  apply str_eqb_spec in H1. subst y. f_equal. apply IH. exact H2.
Qed.
Definition codedb (canon : list N -> list (list N)) (ts : list (list N)) : bool := match ts with [] => false | main :: _ => names_eqb (canon main) ts end.
Lemma codedb_ok canon ts : codedb canon ts = true -> coded canon ts.
Proof. destruct ts as [|t ts]; intros H; [discriminate H|]. exists t, ts. split; [reflexivity|]. apply names_eqb_eq. exact H. Qed.
Definition memb (a : list N) (l : list (list N)) : bool := existsb (str_eqb a) l.
Lemma memb_ok a l : memb a l = true <-> In a l.
Proof.
  unfold memb. rewrite existsb_exists. split; [intros (x & H & E); apply str_eqb_spec in E; subst x; exact H|intros H; exists a; split; [exact H|apply str_eqb_refl]].
Qed.
Fixpoint distinctb (l : list (list N)) : bool := match l with [] => true | a :: l' => negb (memb a l') && distinctb l' end.
Lemma distinctb_ok l : distinctb l = true -> NoDup l.
Proof.
  induction l as [|a l IH]; intros H; [constructor|]. cbn [distinctb] in H. apply andb_true_iff in H. destruct H as (H1 & H2). constructor; [|apply IH; exact H2].
  intros K. apply memb_ok in K. rewrite K in H1. discriminate H1.
Qed.
Definition name_of (e : list N * meta) : list N := match m_name (snd e) with Some n => n | None => [] end.
Definition someb (e : list N * meta) : bool := match m_name (snd e) with Some _ => true | None => false end.
Lemma names_ok (l : list (list N * meta)) : forallb someb l = true -> map (fun e => m_name (snd e)) l = map Some (map name_of l).
Proof.
  induction l as [|e l IH]; intros H; [reflexivity|]. cbn [forallb] in H. apply andb_true_iff in H. destruct H as (H1 & H2). cbn [map]. rewrite (IH H2). f_equal.
  unfold someb, name_of in *. destruct (m_name (snd e)); [reflexivity|discriminate H1].
Qed.
Lemma nodup_some (l : list (list N)) : NoDup l -> NoDup (map Some l).
Proof.
  induction 1 as [|a l H N IH]; [constructor|]. cbn [map]. constructor; [|exact IH]. intros K. apply in_map_iff in K. destruct K as (x & E & K). apply Some_inj in E. subst x. exact (H K).
Qed.
Definition setb (l : list (list N * meta)) : bool :=
  match l with
  | [] => true
  | [(_, Meta KPlain tag None false None)] => memb tag scalar_tags && negb (str_eqb tag (lit "Nil")) && negb (str_eqb tag (lit "ToString"))
  | _ => false
  end.
Definition plainb (canon : list N -> list (list N)) (d : cdesc) : bool :=
  (match cd_types d with [] => true | _ => codedb canon (cd_types d) end) &&
  (distinctb (map fst (attributes d)) && (negb (memb (lit "_to_string") (map fst (attributes d))) &&
  ((match cd_adapted d, cd_extended d with [], _ => true | _, [] => true | _, _ => false end) &&
  (forallb someb (cd_adapted d ++ cd_extended d) && (distinctb (map name_of (cd_adapted d ++ cd_extended d)) && setb (cd_sets d)))))).
Lemma plainb_ok canon d : plainb canon d = true -> plainly_described canon d.
Proof.
  unfold plainb. intros H. apply andb_true_iff in H. destruct H as (H1 & H). apply andb_true_iff in H. destruct H as (H2 & H). apply andb_true_iff in H. destruct H as (H3 & H).
  apply andb_true_iff in H. destruct H as (H4 & H). apply andb_true_iff in H. destruct H as (H5 & H). apply andb_true_iff in H. destruct H as (H6 & H7).
  unfold plainly_described. split; [|split; [|split; [|split; [|split; [|split]]]]].
  - destruct (cd_types d) as [|t ts] eqn:E; [left; reflexivity|right]. apply codedb_ok. exact H1.
  - apply distinctb_ok. exact H2.
  - intros K. apply memb_ok in K. rewrite K in H3. discriminate H3.
  - destruct (cd_adapted d); [left; reflexivity|]. destruct (cd_extended d); [right; reflexivity|discriminate H4].
  - rewrite (names_ok _ H5). apply nodup_some, distinctb_ok. exact H6.
  - apply Forall_forall. intros e He. rewrite forallb_forall in H5. specialize (H5 e He). unfold someb in H5. destruct (m_name (snd e)); [discriminate|discriminate H5].
  - destruct (cd_sets d) as [|[a [k tag nm op ob]] l]; [left; reflexivity|right]. exists a, tag. cbn [setb] in H7.
    destruct k; try discriminate H7. destruct nm; try discriminate H7. destruct op; try discriminate H7. destruct ob; try discriminate H7. destruct l; try discriminate H7.
    apply andb_true_iff in H7. destruct H7 as (H7 & H8). apply andb_true_iff in H7. destruct H7 as (H7 & H9). split; [reflexivity|]. split; [apply memb_ok; exact H7|].
    split; intros ->; [rewrite str_eqb_refl in H9; discriminate H9|rewrite str_eqb_refl in H8; discriminate H8].
Qed.
Lemma dict_get_in {A} (l : list (list N * A)) k v : dict_get str_eqb k l = Some v -> In (k, v) l.
Proof.
  induction l as [|[a x] l IH]; intros H; [discriminate H|]. cbn [dict_get] in H. destruct (str_eqb k a) eqn:E.
  - apply str_eqb_spec in E. subst a. apply Some_inj in H. subst x. left. reflexivity.
  - right. apply IH. exact H.
Qed.
Definition irregular : list (list N) := map lit ["ErrorRecordMessage"; "ErrorRecord"; "RunspacePoolStateMessage"]%string.
Lemma library_regular c d : library c = Some d -> memb c irregular = false -> plainly_described library_canon d.
Proof.
  intros H Ne. apply dict_get_in in H. apply plainb_ok.
  assert (K : forallb (fun e => (memb (fst e) irregular || plainb library_canon (snd e))%bool) library_classes = true) by (vm_compute; reflexivity).
  rewrite forallb_forall in K. specialize (K _ H). cbn [fst snd] in K. rewrite Ne in K. exact K.
Qed.
Lemma library_plain c d : library c = Some d -> c <> lit "ErrorRecordMessage" -> c <> lit "ErrorRecord" -> c <> lit "RunspacePoolStateMessage" -> plainly_described library_canon d.
Proof.
  intros H N1 N2 N3. apply (library_regular c d H). unfold memb, irregular. cbn [map existsb].
  rewrite (str_eqb_neq _ _ N1), (str_eqb_neq _ _ N2), (str_eqb_neq _ _ N3). reflexivity.
Qed.
Lemma declared_coded ts : In ts declared_names -> coded library_canon ts.
Proof.
  intros H. apply codedb_ok. assert (K : forallb (codedb library_canon) declared_names = true) by (vm_compute; reflexivity).
  rewrite forallb_forall in K. exact (K ts H).
Qed.
Lemma library_coded c d a m ts : library c = Some d -> In (a, m) (attributes d) -> In ts (declared m) -> coded library_canon ts.
Proof.
  intros H Ha Ht. apply declared_coded. apply dict_get_in in H. unfold declared_names. apply in_or_app. right. apply in_flat_map. exists (c, d). split; [exact H|].
  apply in_or_app. right. apply in_flat_map. exists (a, m). split; [exact Ha|exact Ht].
Qed.
Lemma library_roundtrip ci show xml_text float_of heap said raw m v : conforms ci float_of library library_canon heap said raw m v -> v <> VNone \/ m_optional m = false ->
  exists f0, forall fuel, (f0 <= fuel)%nat -> exists x, serialize ci show library heap fuel v m = Ok (Some x) /\
    forall heap0, exists w e, deserialize ci xml_text float_of library heap0 (reparse x) m = Ok (w, heap0 ++ e) /\ copy library heap (length heap0) (heap0 ++ e) v w.
Proof.
  apply roundtrip; apply declared_coded; [left; reflexivity|right; left; reflexivity].
Qed.
(* an instance of a class of the library fits when its attributes do *)
Lemma library_fits ci float_of heap said raw tag name opt n c attrs d : tag = lit "Obj" \/ tag = star -> nth_error heap n = Some (HCls c attrs) ->
  library c = Some d -> memb c irregular = false -> fair_text said (cd_text d attrs) ->
  Forall (fun e => exists v, dict_get str_eqb (fst e) attrs = Some v /\ conforms ci float_of library library_canon heap said raw (snd e) v) (attributes d) ->
  conforms ci float_of library library_canon heap said raw (Meta KPlain tag name opt (Some c)) (VObj n).
Proof.
  intros Ht Hn Hc Ne Ft Fa. rewrite Forall_forall in Fa. eapply cf_class; [exact Ht|exact Hn|exact Hc| |exact Ft| |].
  - exact (library_regular c d Hc Ne).
  - intros a m Hi. destruct (Fa (a, m) Hi) as (v & G & _). cbn [fst] in G. rewrite G. discriminate.
  - intros a m v Hi Hv. destruct (Fa (a, m) Hi) as (v' & G & K). cbn [fst snd] in *. rewrite Hv in G. apply Some_inj in G. subst v'. exact K.
Qed.
Lemma library_known_fits ci float_of heap said raw name opt n c attrs d : nth_error heap n = Some (HCls c attrs) ->
  library c = Some d -> memb c irregular = false -> fair_text said (cd_text d attrs) -> cd_types d <> [] -> choose (cd_types d) = Ok (Some (class_meta c)) ->
  Forall (fun e => exists v, dict_get str_eqb (fst e) attrs = Some v /\ conforms ci float_of library library_canon heap said raw (snd e) v) (attributes d) ->
  conforms ci float_of library library_canon heap said raw (Meta KPlain star name opt None) (VObj n).
Proof.
  intros Hn Hc Ne Ft Nt Ch Fa. rewrite Forall_forall in Fa. eapply cf_known; [exact Hn|exact Hc| |exact Ft|exact Nt|exact Ch| |].
  - exact (library_regular c d Hc Ne).
  - intros a m Hi. destruct (Fa (a, m) Hi) as (v & G & _). cbn [fst] in G. rewrite G. discriminate.
  - intros a m v Hi Hv. destruct (Fa (a, m) Hi) as (v' & G & K). cbn [fst snd] in *. rewrite Hv in G. apply Some_inj in G. subst v'. exact K.
Qed.
Definition described (c : list N) : cdesc := match library c with Some d => d | None => simple [] [] [] end.
Lemma described_ok c : (match library c with Some _ => true | None => false end) = true -> library c = Some (described c).
Proof. unfold described. destruct (library c); [reflexivity|discriminate]. Qed.
From Verif Require TextProofs2.
Lemma ascii_kept s : forallb (fun c => N.ltb c 128) s = true -> ~ has_straddle s.
Proof.
  intros H K. apply TextProofs2.straddle_5F00 in K. rewrite forallb_forall in H. specialize (H _ K). discriminate H.
Qed.
