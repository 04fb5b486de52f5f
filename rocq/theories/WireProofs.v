(* Messages carry copies. *)
From Verif Require Import Base BaseProofs Lit NumModel TextModel TextSpec TextProofs Utf8Model Utf8Proofs MsgModel MsgSpec MsgProofs XmlModel SerModel SerClasses SerSpec SerSpec2 XtModel XtSpec XtProofs XtProofs3 ClsSpec ClsProofs ClsProofs2 ClsProofs3 WfModel WfSpec WfProofs WfProofs2 WfProofs3 FragModel FragSpec FragProofs4 WireModel WireSpec.
Local Open Scope list_scope.

Lemma class_type ty c : class_of_type ty = Some c -> type_of_class c message_classes = Some ty.
Proof.
  intros H.
  assert (K : forallb (fun e => match type_of_class (snd e) message_classes with Some t => Z.eqb t (fst e) | None => false end) message_classes = true) by (vm_compute; reflexivity).
  rewrite forallb_forall in K. unfold class_of_type in H.
  assert (I : In (ty, c) message_classes).
  { revert H. generalize message_classes. intros l. induction l as [|[t x] l IH]; intros H; [discriminate H|]. cbn [dict_get] in H.
    destruct (Z.eqb ty t) eqn:E; [apply Z.eqb_eq in E; subst t; apply Some_inj in H; subst x; left; reflexivity|right; apply IH; exact H]. }
  specialize (K _ I). cbn [fst snd] in K. destruct (type_of_class c message_classes) as [t|]; [|discriminate K]. apply Z.eqb_eq in K. subst t. reflexivity.
Qed.
Lemma class_known ty c : class_of_type ty = Some c -> In ty known_types.
Proof.
  intros H. assert (K : forallb (fun e => existsb (Z.eqb (fst e)) known_types) message_classes = true) by (vm_compute; reflexivity).
  rewrite forallb_forall in K. unfold class_of_type in H.
  assert (I : In (ty, c) message_classes).
  { revert H. generalize message_classes. intros l. induction l as [|[t x] l IH]; intros H; [discriminate H|]. cbn [dict_get] in H.
    destruct (Z.eqb ty t) eqn:E; [apply Z.eqb_eq in E; subst t; apply Some_inj in H; subst x; left; reflexivity|right; apply IH; exact H]. }
  specialize (K _ I). cbn [fst] in K. apply existsb_exists in K. destruct K as (t & Ht & E). apply Z.eqb_eq in E. subst t. exact Ht.
Qed.
Lemma type_size ty c : class_of_type ty = Some c -> (0 <= ty < 2 ^ 32)%Z.
Proof.
  intros H. apply class_known in H. assert (K : forallb (fun t => (Z.leb 0 t && Z.ltb t (2 ^ 32))%bool) known_types = true) by (vm_compute; reflexivity).
  rewrite forallb_forall in K. specialize (K _ H). apply andb_true_iff in K. destruct K as (A & B). apply Z.leb_le in A. apply Z.ltb_lt in B. split; assumption.
Qed.

(* an instance is written alike under its class and without metadata *)
Lemma instance_alike ci show classes heap fuel n c attrs : nth_error heap n = Some (HCls c attrs) ->
  serialize ci show classes heap fuel (VObj n) any_meta = serialize ci show classes heap fuel (VObj n) (class_meta c).
Proof.
  intros H. unfold serialize. destruct fuel as [|fuel]; [reflexivity|].
  assert (T : tag_of_value heap (VObj n) = lit "Obj") by (cbn [tag_of_value]; rewrite H; reflexivity).
  cbn [ser]. change (str_eqb (m_tag any_meta) star) with true. change (str_eqb (m_tag (class_meta c)) star) with false. cbv iota. rewrite T.
  change (m_tag (class_meta c)) with (lit "Obj"). cbv zeta.
  change (existsb (str_eqb (lit "Obj")) known_tags) with true. cbn [negb].
  change (pack_text ci show (set_tag (lit "Obj") any_meta) (lit "Obj") (VObj n)) with (@None (res (list N))).
  change (pack_text ci show (set_tag (lit "Obj") (class_meta c)) (lit "Obj") (VObj n)) with (@None (res (list N))). cbv iota.
  unfold pack_struct. change (str_eqb (lit "Obj") (lit "Obj")) with true. cbv iota.
  destruct (ser_obj classes heap (ser ci show classes heap fuel) (VObj n) clear_sst) as [[x st]|e]; reflexivity.
Qed.
Lemma written_starts reg x : exists s, xml_print reg x = 60%N :: s.
Proof. unfold xml_print. destruct (XtModel.declared reg x) as [t a txt kids]. cbn [XtModel.show]. eexists. reflexivity. Qed.

Lemma str_pack_ok v : (0 <= v < 2 ^ 32)%Z -> exists b, struct_pack_le 4 v = Ok b.
Proof.
  intros H. unfold struct_pack_le. replace ((0 <=? v)%Z && (v <? 256 ^ Z.of_nat 4)%Z)%bool with true; [eexists; reflexivity|].
  symmetry. apply andb_true_iff. split; [apply Z.leb_le|apply Z.ltb_lt]; change (256 ^ Z.of_nat 4)%Z with (2 ^ 32)%Z; apply H.
Qed.

Section Wire.
  Context (ci : option cipher) (show : value -> list N) (xml_text : xml -> list N) (float_of : list N -> res (list N)) (classes : list N -> option cdesc).
  Context (canon : list N -> list (list N)) (reg : list (list N * list N)).
  Context (U : usable_registry reg) (Tc : tidy_classes classes) (Cl : coded canon list_names) (Cd : coded canon dict_names).
  Notation wire := (wire ci show xml_text float_of classes reg).

  (* the text of a message, and what is read of it *)
  Lemma text_read heap m v : tidy m -> conforms ci float_of classes canon heap said raw m v -> v <> VNone \/ m_optional m = false ->
    exists f0, forall fuel, (f0 <= fuel)%nat -> exists t b, serialize_text ci show classes reg heap fuel v m = Ok (Some t) /\ no_bom t /\ utf8_encode t = Ok b /\
      forall heap0, exists w e, deserialize_text ci xml_text float_of classes heap0 t m = Ok (w, heap0 ++ e) /\ copy classes heap (length heap0) (heap0 ++ e) v w.
  Proof.
    intros Tm C Nn. destruct (roundtrip ci show xml_text float_of classes canon heap said raw Cl Cd m v C Nn) as (f0 & K).
    exists f0. intros fuel L. destruct (K fuel L) as (x & E & D).
    destruct (serialize_safe ci show classes heap (fitting ci float_of classes canon heap) (fitting_clean ci show float_of classes canon heap Tc) fuel v m x Tm (conforms_loose ci show float_of classes canon heap m v C) E) as (W & Un).
    destruct (tostring_text reg x U W) as (b & Eb & Bb & Es). pose proof (parse_print_id reg U x W Un) as Ep.
    exists (xml_print reg x). unfold serialize_text, deserialize_text. rewrite E. cbn [bind]. rewrite Eb. cbn [bind]. rewrite Es. cbn [bind].
    exists b. split; [reflexivity|]. split; [|split].
    - destruct (written_starts reg x) as (s & ->). cbn [no_bom]. discriminate.
    - apply utf8_encode_decode; [exact Bb|exact Es].
    - intros heap0. rewrite Ep. apply D.
  Qed.

  (* what a message object that is read stands for: [DObj ty g] with the class of
     the type, or the data of an input or output message *)
  Lemma unpack_known ty d t body r p dd : length d = 4 -> length t = 4 -> is_guid r -> is_guid p -> forall cd : codec graph, forall text,
    utf8_encode text = Ok body -> no_bom text -> Z.of_N (le_val t) = ty -> unpack_data cd ty text = Ok dd ->
    message_unpack cd (d ++ t ++ guid_bytes_le r ++ guid_bytes_le p ++ body) = Ok (mkMsg (Z.of_N (le_val d)) (data_type dd) r p dd).
  Proof.
    intros Ld Lt (Lr & Br) (Lp & Bp) cd text E Nb Et Ed. unfold message_unpack.
    rewrite (unpack_header_text d t (guid_bytes_le r) (guid_bytes_le p) text body Ld Lt) by (unfold guid_bytes_le; rewrite ?swap_le_length; assumption).
    cbn [bind h_dest h_type h_rpid h_pid h_text]. rewrite Et, Ed. cbn [bind]. unfold guid_bytes_le. rewrite !swap_le_involutive.
    unfold message_new. rewrite !guid_parse_str by (split; assumption). reflexivity.
  Qed.
  Lemma packed (cd : codec graph) dest ty r p dd body : (0 <= dest < 2 ^ 32)%Z -> (0 <= ty < 2 ^ 32)%Z -> message_text cd ty dd = Ok body ->
    exists d t, length d = 4 /\ length t = 4 /\ Z.of_N (le_val d) = dest /\ Z.of_N (le_val t) = ty /\
      message_pack cd (mkMsg dest ty r p dd) = Ok (d ++ t ++ guid_bytes_le r ++ guid_bytes_le p ++ body).
  Proof.
    intros Hd Ht E. destruct (str_pack_ok dest Hd) as (d & Ed). destruct (str_pack_ok ty Ht) as (t & Et). exists d, t.
    pose proof (struct_pack_le_ok _ _ _ Ed) as (D1 & D2 & D3). pose proof (struct_pack_le_ok _ _ _ Et) as (T1 & T2 & T3).
    unfold message_pack. cbn [m_type m_data m_dest m_rpid m_pid]. rewrite E. cbn [bind]. rewrite Ed. cbn [bind]. rewrite Et. cbn [bind].
    repeat split; try assumption; try reflexivity; tauto.
  Qed.

  Lemma object_message dest ty r p c heap n : (0 <= dest < 2 ^ 32)%Z -> is_guid r -> is_guid p ->
    class_of_type ty = Some c -> ~ In ty [PUBLIC_KEY_REQUEST; PIPELINE_INPUT; PIPELINE_OUTPUT; END_OF_PIPELINE_INPUT] ->
    (ty = CONNECT_RUNSPACEPOOL -> (limit (lit "min_runspaces") (heap, VObj n), limit (lit "max_runspaces") (heap, VObj n)) <> (None, None)) ->
    conforms ci float_of classes canon heap said raw (class_meta c) (VObj n) ->
    exists f0, forall fuel, (f0 <= fuel)%nat -> exists b, (forall heap0, message_pack (wire fuel heap0) (mkMsg dest ty r p (DObj ty (heap, VObj n))) = Ok b) /\
      forall heap0 fuel', exists n' e, message_unpack (wire fuel' heap0) b = Ok (mkMsg dest ty r p (DObj ty (heap0 ++ e, VObj n'))) /\
        copy classes heap (length heap0) (heap0 ++ e) (VObj n) (VObj n').
  Proof.
    intros Hd Gr Gp Hc Ns Hl C.
    assert (Tm : tidy (class_meta c)) by (constructor; [discriminate|exact I|constructor]).
    assert (Hn : exists attrs, nth_error heap n = Some (HCls c attrs)).
    { inversion C; subst; try discriminate. eexists. eassumption. }
    destruct Hn as (attrs & Hn).
    destruct (text_read heap (class_meta c) (VObj n) Tm C (or_intror eq_refl)) as (f0 & K). exists f0. intros fuel L. destruct (K fuel L) as (t & b & E & Nb & Eb & D).
    assert (E' : serialize_text ci show classes reg heap fuel (VObj n) any_meta = Ok (Some t)) by (unfold serialize_text in *; rewrite (instance_alike ci show classes heap fuel n c attrs Hn); exact E).
    assert (Mt : forall heap0, message_text (wire fuel heap0) ty (DObj ty (heap, VObj n)) = Ok b).
    { intros heap0. unfold message_text. destruct (Z.eqb_spec ty PUBLIC_KEY_REQUEST) as [->|N1]; [exfalso; apply Ns; left; reflexivity|].
      destruct (Z.eqb_spec ty END_OF_PIPELINE_INPUT) as [->|N2]; [exfalso; apply Ns; right; right; right; left; reflexivity|].
      change (cd_limits (wire fuel heap0) (heap, VObj n)) with (limit (lit "min_runspaces") (heap, VObj n), limit (lit "max_runspaces") (heap, VObj n)). cbn [fst snd].
      assert (Q : ((ty =? CONNECT_RUNSPACEPOOL)%Z && MsgModel.is_none (limit (lit "min_runspaces") (heap, VObj n)) && MsgModel.is_none (limit (lit "max_runspaces") (heap, VObj n)))%bool = false).
      { destruct (Z.eqb_spec ty CONNECT_RUNSPACEPOOL) as [->|]; [|reflexivity]. specialize (Hl eq_refl).
        destruct (limit (lit "min_runspaces") (heap, VObj n)); [reflexivity|]. destruct (limit (lit "max_runspaces") (heap, VObj n)); [reflexivity|contradiction]. }
      rewrite Q. unfold ser_text. cbn [cd_ser WireModel.wire fst snd]. rewrite E'. exact Eb. }
    destruct (packed (wire fuel []) dest ty r p (DObj ty (heap, VObj n)) b Hd (type_size ty c Hc) (Mt [])) as (d & tt & Ld & Lt & Vd & Vt & Pk).
    exists (d ++ tt ++ guid_bytes_le r ++ guid_bytes_le p ++ b). split.
    { intros heap0. rewrite <- Pk. unfold message_pack. cbn [m_type m_data m_dest m_rpid m_pid]. rewrite !Mt. reflexivity. }
    intros heap0 fuel'. destruct (D heap0) as (w & e & Dw & Cp).
    assert (Hw : exists n', w = VObj n') by (inversion Cp; eexists; reflexivity). destruct Hw as (n' & ->).
    exists n', e. split; [|exact Cp]. rewrite <- Vd.
    refine (unpack_known ty d tt b r p (DObj ty (heap0 ++ e, VObj n')) Ld Lt Gr Gp _ t Eb Nb Vt _).
    unfold unpack_data. replace (existsb (Z.eqb ty) known_types) with true by (symmetry; apply existsb_exists; exists ty; split; [exact (class_known ty c Hc)|apply Z.eqb_refl]).
    cbn [negb]. destruct (Z.eqb_spec ty PIPELINE_OUTPUT) as [->|N3]; [exfalso; apply Ns; right; right; left; reflexivity|].
    destruct (Z.eqb_spec ty PIPELINE_INPUT) as [->|N4]; [exfalso; apply Ns; right; left; reflexivity|].
    destruct (Z.eqb_spec ty PUBLIC_KEY_REQUEST) as [->|N5]; [exfalso; apply Ns; left; reflexivity|].
    cbn [cd_deser_class cd_type WireModel.wire]. rewrite Hc, Dw. cbn [bind].
    assert (Ty : instance_of (heap0 ++ e, VObj n') = Some (c, match instance_of (heap0 ++ e, VObj n') with Some (_, a) => a | None => [] end)).
    { unfold instance_of. cbn [fst snd]. inversion Cp; subst. match goal with A : nth_error heap n = Some (HCls ?x _) |- _ => rewrite Hn in A; apply Some_inj in A; injection A as <- <- end.
      match goal with A : nth_error (heap0 ++ e) n' = Some _ |- _ => rewrite A end. reflexivity. }
    rewrite Ty, (class_type ty c Hc). reflexivity.
  Qed.
  (* input and output: any value *)
  Lemma data_message dest r p heap v (out : bool) : (0 <= dest < 2 ^ 32)%Z -> is_guid r -> is_guid p ->
    conforms ci float_of classes canon heap said raw any_meta v ->
    let wrap g := if out then DOutput g else DInput g in let ty := if out then PIPELINE_OUTPUT else PIPELINE_INPUT in
    exists f0, forall fuel, (f0 <= fuel)%nat -> exists b, (forall heap0, message_pack (wire fuel heap0) (mkMsg dest ty r p (wrap (heap, v))) = Ok b) /\
      forall heap0 fuel', exists w e, message_unpack (wire fuel' heap0) b = Ok (mkMsg dest ty r p (wrap (heap0 ++ e, w))) /\ copy classes heap (length heap0) (heap0 ++ e) v w.
  Proof.
    intros Hd Gr Gp C wrap ty.
    assert (Tm : tidy any_meta) by (constructor; [discriminate|exact I|constructor]).
    destruct (text_read heap any_meta v Tm C (or_intror eq_refl)) as (f0 & K). exists f0. intros fuel L. destruct (K fuel L) as (t & b & E & Nb & Eb & D).
    assert (Mt : forall heap0, message_text (wire fuel heap0) ty (wrap (heap, v)) = Ok b).
    { intros heap0. subst ty wrap. destruct out; unfold message_text; change (PIPELINE_OUTPUT =? PUBLIC_KEY_REQUEST)%Z with false; change (PIPELINE_OUTPUT =? END_OF_PIPELINE_INPUT)%Z with false;
        change (PIPELINE_INPUT =? PUBLIC_KEY_REQUEST)%Z with false; change (PIPELINE_INPUT =? END_OF_PIPELINE_INPUT)%Z with false; cbv iota;
        unfold ser_text; cbn [cd_ser WireModel.wire fst snd]; rewrite E; exact Eb. }
    assert (Tz : (0 <= ty < 2 ^ 32)%Z) by (subst ty; destruct out; [exact (type_size PIPELINE_OUTPUT _ eq_refl)|exact (type_size PIPELINE_INPUT _ eq_refl)]).
    destruct (packed (wire fuel []) dest ty r p (wrap (heap, v)) b Hd Tz (Mt [])) as (d & tt & Ld & Lt & Vd & Vt & Pk).
    exists (d ++ tt ++ guid_bytes_le r ++ guid_bytes_le p ++ b). split.
    { intros heap0. rewrite <- Pk. unfold message_pack. cbn [m_type m_data m_dest m_rpid m_pid]. rewrite !Mt. reflexivity. }
    intros heap0 fuel'. destruct (D heap0) as (w & e & Dw & Cp). exists w, e. split; [|exact Cp]. rewrite <- Vd.
    replace ty with (data_type (wrap (heap0 ++ e, w))) at 1 by (subst ty wrap; destruct out; reflexivity).
    refine (unpack_known ty d tt b r p (wrap (heap0 ++ e, w)) Ld Lt Gr Gp _ t Eb Nb Vt _).
    subst ty wrap. unfold unpack_data. destruct out.
    - change (existsb (Z.eqb PIPELINE_OUTPUT) known_types) with true. cbn [negb]. rewrite Z.eqb_refl. cbn [cd_deser WireModel.wire]. rewrite Dw. reflexivity.
    - change (existsb (Z.eqb PIPELINE_INPUT) known_types) with true. cbn [negb]. change (PIPELINE_INPUT =? PIPELINE_OUTPUT)%Z with false. cbv iota. rewrite Z.eqb_refl.
      cbn [cd_deser WireModel.wire]. rewrite Dw. reflexivity.
  Qed.
End Wire.

(* ... over the fragments of them too: whatever was sent before, however the
   fragments are grouped *)
Section Carried.
  Context (ci : option cipher) (show : value -> list N) (xml_text : xml -> list N) (float_of : list N -> res (list N)) (reg : list (list N * list N)).
  Context (U : usable_registry reg).
  Notation wire := (wire ci show xml_text float_of library reg).
  Lemma library_message dest ty r p c heap n : (0 <= dest < 2 ^ 32)%Z -> is_guid r -> is_guid p ->
    class_of_type ty = Some c -> ~ In ty [PUBLIC_KEY_REQUEST; PIPELINE_INPUT; PIPELINE_OUTPUT; END_OF_PIPELINE_INPUT] ->
    (ty = CONNECT_RUNSPACEPOOL -> (limit (lit "min_runspaces") (heap, VObj n), limit (lit "max_runspaces") (heap, VObj n)) <> (None, None)) ->
    conforms ci float_of library library_canon heap said raw (class_meta c) (VObj n) ->
    exists f0, forall fuel, (f0 <= fuel)%nat -> exists b, (forall heap0, message_pack (wire fuel heap0) (mkMsg dest ty r p (DObj ty (heap, VObj n))) = Ok b) /\
      forall heap0 fuel', exists n' e, message_unpack (wire fuel' heap0) b = Ok (mkMsg dest ty r p (DObj ty (heap0 ++ e, VObj n'))) /\
        copy library heap (length heap0) (heap0 ++ e) (VObj n) (VObj n').
  Proof.
    refine (object_message ci show xml_text float_of library library_canon reg U library_tidy _ _ dest ty r p c heap n); apply declared_coded; [left; reflexivity|right; left; reflexivity].
  Qed.
  Lemma library_data dest r p heap v (out : bool) : (0 <= dest < 2 ^ 32)%Z -> is_guid r -> is_guid p ->
    conforms ci float_of library library_canon heap said raw any_meta v ->
    let wrap g := if out then DOutput g else DInput g in let ty := if out then PIPELINE_OUTPUT else PIPELINE_INPUT in
    exists f0, forall fuel, (f0 <= fuel)%nat -> exists b, (forall heap0, message_pack (wire fuel heap0) (mkMsg dest ty r p (wrap (heap, v))) = Ok b) /\
      forall heap0 fuel', exists w e, message_unpack (wire fuel' heap0) b = Ok (mkMsg dest ty r p (wrap (heap0 ++ e, w))) /\ copy library heap (length heap0) (heap0 ++ e) v w.
  Proof.
    refine (data_message ci show xml_text float_of library library_canon reg U library_tidy _ _ dest r p heap v out); apply declared_coded; [left; reflexivity|right; left; reflexivity].
  Qed.
  Lemma unpack_some (cd : codec graph) b m : message_unpack cd b = Ok m -> b <> [].
  Proof. intros H E. subst b. vm_compute in H. discriminate H. Qed.
  Lemma arrives s b : b <> [] -> (zlen b < 2 ^ 63)%Z -> (1 <= sd_max s < 2 ^ 32)%Z -> (0 <= sd_counter s < 2 ^ 64)%Z ->
    exists blocks, fragment_msg s b None = Ok (mkSender (sd_max s) (sd_counter s + 1), blocks) /\
      forall rc calls, dict_get Z.eqb (sd_counter s) rc = None -> concat calls = blocks -> delivered (snd (receive_calls rc (map (@concat N) calls))) = Ok [b].
  Proof.
    intros Nb Lb Sm Sc. destruct (single_message_roundtrip s b Sm Sc Nb Lb) as (blocks & pieces & F & _ & _ & _ & K).
    exists blocks. split; [exact F|]. intros rc calls Hr Hc. destruct (K rc Hr (length blocks) calls) as (D & _); [rewrite firstn_all; exact Hc|].
    rewrite Nat.ltb_irrefl in D. exact D.
  Qed.
  Lemma object_arrives dest ty r p c heap n : (0 <= dest < 2 ^ 32)%Z -> is_guid r -> is_guid p ->
    class_of_type ty = Some c -> ~ In ty [PUBLIC_KEY_REQUEST; PIPELINE_INPUT; PIPELINE_OUTPUT; END_OF_PIPELINE_INPUT] ->
    (ty = CONNECT_RUNSPACEPOOL -> (limit (lit "min_runspaces") (heap, VObj n), limit (lit "max_runspaces") (heap, VObj n)) <> (None, None)) ->
    conforms ci float_of library library_canon heap said raw (class_meta c) (VObj n) ->
    exists f0, forall fuel, (f0 <= fuel)%nat -> exists b, (forall heap0, message_pack (wire fuel heap0) (mkMsg dest ty r p (DObj ty (heap, VObj n))) = Ok b) /\
      ((zlen b < 2 ^ 63)%Z -> forall s, (1 <= sd_max s < 2 ^ 32)%Z -> (0 <= sd_counter s < 2 ^ 64)%Z ->
        exists blocks, fragment_msg s b None = Ok (mkSender (sd_max s) (sd_counter s + 1), blocks) /\
          forall rc calls, dict_get Z.eqb (sd_counter s) rc = None -> concat calls = blocks ->
            exists got, delivered (snd (receive_calls rc (map (@concat N) calls))) = Ok [got] /\
              forall heap0 fuel', exists n' e, message_unpack (wire fuel' heap0) got = Ok (mkMsg dest ty r p (DObj ty (heap0 ++ e, VObj n'))) /\
                copy library heap (length heap0) (heap0 ++ e) (VObj n) (VObj n')).
  Proof.
    intros Hd Gr Gp Hc Ns Hl C. destruct (library_message dest ty r p c heap n Hd Gr Gp Hc Ns Hl C) as (f0 & K).
    exists f0. intros fuel L. destruct (K fuel L) as (b & Pk & Un). exists b. split; [exact Pk|]. intros Lb s Sm Sc.
    destruct (Un [] 0%nat) as (n0 & e0 & U0 & _). apply unpack_some in U0.
    destruct (arrives s b U0 Lb Sm Sc) as (blocks & F & D). exists blocks. split; [exact F|]. intros rc calls Hr Hx. exists b. split; [exact (D rc calls Hr Hx)|exact Un].
  Qed.
End Carried.

(* ---- the table of the protocol ---- *)
Lemma keyed {V : Type} (l : list (Z * V)) : NoDup (map fst l) -> forall k c, dict_get Z.eqb k l = Some c <-> In (k, c) l.
Proof.
  induction l as [|(k0, c0) l IH]; intros D k c; [split; [discriminate|intros []]|]. cbn [map fst] in D. apply NoDup_cons_iff in D. destruct D as (D1 & D2). cbn [dict_get In]. destruct (Z.eqb_spec k k0) as [->|Nk].
  - split; [intros E; apply Some_inj in E; subst; left; reflexivity|]. intros [E|E]; [apply pair_inj in E; destruct E as (_ & ->); reflexivity|]. destruct D1. exact (in_map fst _ _ E).
  - rewrite (IH D2 k c). split; [intros E; right; exact E|]. intros [E|E]; [apply pair_inj in E; destruct E as (E & _); congruence|exact E].
Qed.
Fixpoint differ (l : list Z) : bool := match l with [] => true | x :: l' => (negb (existsb (Z.eqb x) l') && differ l')%bool end.
Lemma differ_nodup l : differ l = true -> NoDup l.
Proof.
  induction l as [|x l IH]; intros H; [constructor|]. cbn [differ] in H. apply Bool.andb_true_iff in H. destruct H as (H1 & H2). constructor; [|exact (IH H2)]. intros I1. apply Bool.negb_true_iff in H1.
  assert (existsb (Z.eqb x) l = true) by (apply existsb_exists; exists x; split; [exact I1|apply Z.eqb_refl]). congruence.
Qed.
Lemma protocol_in ty c : class_of_type ty = Some c <-> In (ty, c) protocol.
Proof.
  unfold class_of_type. rewrite (keyed message_classes) by (apply differ_nodup; vm_compute; reflexivity).
  assert (A : forall l l', forallb (fun e => existsb (fun f => (Z.eqb (fst e) (fst f) && str_eqb (snd e) (snd f))%bool) l') l = true -> In (ty, c) l -> In (ty, c) l').
  { intros l l' H I1. rewrite forallb_forall in H. specialize (H _ I1). apply existsb_exists in H. destruct H as ((k', c') & I2 & E). apply Bool.andb_true_iff in E. destruct E as (E1 & E2). cbn [fst snd] in *. apply Z.eqb_eq in E1. apply str_eqb_spec in E2. subst. exact I2. }
  split; apply A; vm_compute; reflexivity.
Qed.
Lemma protocol_class ty : dict_get Z.eqb ty protocol = class_of_type ty.
Proof.
  destruct (class_of_type ty) as [c|] eqn:E1.
  - apply keyed; [apply differ_nodup; vm_compute; reflexivity|]. apply protocol_in. exact E1.
  - destruct (dict_get Z.eqb ty protocol) as [c|] eqn:E2; [|reflexivity]. apply keyed in E2; [|apply differ_nodup; vm_compute; reflexivity]. apply protocol_in in E2. congruence.
Qed.
