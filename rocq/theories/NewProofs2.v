(* How enumerations are written. *)
From Verif Require Import Base BaseProofs Lit NumModel TextModel MsgModel XmlModel SerModel SerClasses ClsSpec NewModel NewSpec.
Local Open Scope list_scope.

Lemma enum_sent ci show heap n c type text attrs v number t f : library c = Some (enum_desc type text) -> text attrs = Ok (VStr t) -> serialize_string t = t ->
  dict_get str_eqb (lit "value") attrs = Some v -> (forall k, v <> VObj k) -> (forall st, exists m, ser ci show library heap (S f) v (plain "I32") st = Ok (Some number, m, st)) ->
  nth_error heap n = Some (HCls c attrs) ->
  serialize ci show library heap (S (S f)) (VObj n) (class_meta c) = Ok (Some (Elem (lit "Obj") [(lit "RefId", lit "0")] None
    [Elem (lit "TN") [(lit "RefId", lit "0")] None (map (fun s => Elem (lit "T") [] (Some s) []) [lit type; lit "System.Enum"; lit "System.ValueType"; lit "System.Object"]);
     Elem (lit "ToString") [] (Some t) []; number])).
Proof.
  intros L T K V No R H. unfold serialize. remember (S f) as g. cbn [ser]. change (m_tag (class_meta c)) with (lit "Obj"). change (str_eqb (lit "Obj") star) with false. cbv iota.
  change (negb (existsb (str_eqb (lit "Obj")) known_tags)) with false. cbv iota. unfold class_meta at 1 2.
  change (pack_text ci show (set_tag (lit "Obj") (Meta KPlain (lit "Obj") None false (Some c))) (lit "Obj") (VObj n)) with (@None (res (list N))). cbv iota.
  unfold pack_struct. change (str_eqb (lit "Obj") (lit "Obj")) with true. cbv iota. unfold ser_obj. rewrite H, L.
  cbn [enum_desc cd_types cd_text cd_sets cd_extended cd_adapted map]. unfold create_tn_if, create_tn. cbn [take_id s_tn s_tnid s_id s_objs clear_sst dict_get bind]. rewrite T.
  cbn [bind to_string_elem unicode_of]. rewrite K. cbn [ser_attrs]. rewrite V. unfold create_obj.
  assert (Nv : forall o, match v with VObj k => find_ref k o | _ => None end = None) by (intros o; destruct v; try reflexivity; exfalso; eapply No; reflexivity).
  rewrite Nv. cbn [bind].
  match goal with |- context [ser ci show library heap g v (plain "I32") ?st] => destruct (R st) as (m & ->) end. reflexivity.
Qed.

Lemma none_sent ci show heap f st : exists m, ser ci show library heap (S f) VNone (plain "I32") st = Ok (Some (Elem (lit "Nil") [] None []), m, st).
Proof. eexists. reflexivity. Qed.
Lemma unset_made c kw attrs : given kw (lit "value") = VNone -> make c kw = Some attrs ->
  In c (map lit ["Color"; "PSThreadOptions"; "ApartmentState"; "RemoteStreamOptions"; "CommandType"; "CommandOrigin"; "ProgressRecordType"; "SessionStateEntryVisibility"; "HostMethodIdentifier"]%string) -> attrs = [(lit "value", VNone)].
Proof.
  intros V M I0. rewrite <- V. clear V. cbn [map] in I0.
  repeat (destruct I0 as [<- | I0]; [unfold make in M; match type of M with match ?x with _ => _ end = _ => let y := eval vm_compute in x in change x with y in M end; apply Some_inj in M; symmetry; exact M|]). destruct I0.
Qed.
Lemma unset_result kw attrs : given kw (lit "value") = VNone -> given kw (lit "protocol_version_2") <> VBool true -> make (lit "PipelineResultTypes") kw = Some attrs ->
  exists x, attrs = [(lit "value", VNone); (lit "protocol_version_2", x)] /\ x <> VBool true.
Proof.
  intros V P M. rewrite <- V. unfold make in M. match type of M with match ?x with _ => _ end = _ => let y := eval vm_compute in x in change x with y in M end. apply Some_inj in M.
  exists (set_from kw (GivenOr "protocol_version_2" (VBool false))). split; [symmetry; exact M|].
  unfold given in P. cbn [set_from]. change (get_kw kw "protocol_version_2") with (dict_get str_eqb (lit "protocol_version_2") kw). destruct (dict_get str_eqb (lit "protocol_version_2") kw) as [v|]; [exact P|discriminate].
Qed.
Lemma unset_sent ci show heap n c type name kw attrs f : In (c, type, name) zero_names -> given kw (lit "value") = VNone -> given kw (lit "protocol_version_2") <> VBool true ->
  make c kw = Some attrs -> nth_error heap n = Some (HCls c attrs) ->
  serialize ci show library heap (S (S f)) (VObj n) (class_meta c) = Ok (Some (sent_enum type name (Elem (lit "Nil") [] None []))).
Proof.
  intros I0 V P M H.
  assert (A : exists ty text, type = lit ty /\ library c = Some (enum_desc ty text) /\ text attrs = Ok (VStr name) /\ serialize_string name = name /\ dict_get str_eqb (lit "value") attrs = Some VNone).
  { pose proof (unset_made c kw attrs V M) as U. clear H. cbn [zero_names map fst snd] in I0.
    repeat (destruct I0 as [E|I0]; [apply pair_inj in E as [E <-]; apply pair_inj in E as [<- <-];
      first [specialize (U ltac:(cbn [map In]; tauto)); subst attrs; do 2 eexists; split; [reflexivity|]; split; [reflexivity|]; split; [reflexivity|]; split; reflexivity
            |clear U; destruct (unset_result kw attrs V P M) as (x & -> & Nx); do 2 eexists; split; [reflexivity|]; split; [reflexivity|]; split; [|split; reflexivity];
             unfold result_text; change (dict_get str_eqb (lit "protocol_version_2") [(lit "value", VNone); (lit "protocol_version_2", x)]) with (Some x);
             destruct x as [|[|]| | | | | | | | | | | |]; first [reflexivity | exfalso; apply Nx; reflexivity]]|]). destruct I0. }
  destruct A as (ty & text & -> & L & T & K & D).
  exact (enum_sent ci show heap n c ty text attrs VNone (Elem (lit "Nil") [] None []) name f L T K D ltac:(discriminate) (none_sent ci show heap f) H).
Qed.
Lemma unset_method ci show heap n kw attrs f : given kw (lit "value") = VNone -> make (lit "HostMethodIdentifier") kw = Some attrs ->
  nth_error heap n = Some (HCls (lit "HostMethodIdentifier") attrs) ->
  serialize ci show library heap (S (S f)) (VObj n) (class_meta (lit "HostMethodIdentifier")) = Err KeyError.
Proof.
  intros V M H. pose proof (unset_made _ kw attrs V M ltac:(cbn [map In]; tauto)) as ->.
  unfold serialize. remember (S f) as g. cbn [ser]. change (m_tag (class_meta (lit "HostMethodIdentifier"))) with (lit "Obj"). change (str_eqb (lit "Obj") star) with false. cbv iota.
  change (negb (existsb (str_eqb (lit "Obj")) known_tags)) with false. cbv iota. unfold class_meta at 1 2.
  change (pack_text ci show (set_tag (lit "Obj") (Meta KPlain (lit "Obj") None false (Some (lit "HostMethodIdentifier")))) (lit "Obj") (VObj n)) with (@None (res (list N))). cbv iota.
  unfold pack_struct. change (str_eqb (lit "Obj") (lit "Obj")) with true. cbv iota. unfold ser_obj. rewrite H. reflexivity.
Qed.
