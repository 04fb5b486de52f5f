(* Properties of instances of classes that are serialized and read back. *)
From Verif Require Import Base BaseProofs Lit NumModel TextModel TextSpec TextProofs MsgModel MsgSpec XmlModel SerModel SerClasses SerSpec SerSpec2 SerProofs5 ClsSpec ClsProofs ClsProofs2 ClsProofs3.
Local Open Scope list_scope.

(* ---- C59: a graph of instances comes back as a copy of itself ---- *)
Theorem C59_roundtrip_partial ci show xml_text float_of classes canon heap m v : coded canon list_names -> coded canon dict_names ->
  conforms ci float_of classes canon heap (fun _ => True) (fun _ => True) m v -> v <> VNone \/ m_optional m = false ->
  exists f0, forall fuel, (f0 <= fuel)%nat -> exists x, serialize ci show classes heap fuel v m = Ok (Some x) /\
    forall heap0, exists w e, deserialize ci xml_text float_of classes heap0 (reparse x) m = Ok (w, heap0 ++ e) /\ copy classes heap (length heap0) (heap0 ++ e) v w.
Proof. exact (fun Cl Cd => roundtrip ci show xml_text float_of classes canon heap (fun _ => True) (fun _ => True) Cl Cd m v). Qed.

(* for the library's own classes nothing is assumed of the type names *)
Theorem C59_library_partial ci show xml_text float_of heap m v : conforms ci float_of library library_canon heap (fun _ => True) (fun _ => True) m v -> v <> VNone \/ m_optional m = false ->
  exists f0, forall fuel, (f0 <= fuel)%nat -> exists x, serialize ci show library heap fuel v m = Ok (Some x) /\
    forall heap0, exists w e, deserialize ci xml_text float_of library heap0 (reparse x) m = Ok (w, heap0 ++ e) /\ copy library heap (length heap0) (heap0 ++ e) v w.
Proof. exact (library_roundtrip ci show xml_text float_of heap (fun _ => True) (fun _ => True) m v). Qed.

(* and all but three of them are described so that their attributes can be told apart *)
Theorem C59_described c d : library c = Some d -> c <> lit "ErrorRecordMessage" -> c <> lit "ErrorRecord" -> c <> lit "RunspacePoolStateMessage" -> plainly_described library_canon d.
Proof. exact (library_plain c d). Qed.
Theorem C59_names c d a m ts : library c = Some d -> In (a, m) (attributes d) -> In ts (declared m) -> coded library_canon ts.
Proof. exact (library_coded c d a m ts). Qed.

(* A command with a merge setting that is an enumeration and two parameters, one
   of which holds a dictionary with coordinates. *)
Definition result_type (z : Z) : hobj := HCls (lit "PipelineResultTypes") [(lit "value", VInt z)].
Definition command_heap : list hobj :=
  [HCls (lit "Command")
     [(lit "cmd", VStr (lit "Move-Cursor")); (lit "is_script", VBool false); (lit "use_local_scope", VNone);
      (lit "merge_my_result", VObj 1); (lit "merge_to_result", VObj 1); (lit "merge_previous", VObj 2);
      (lit "args", VList [VObj 3; VObj 4]);
      (lit "merge_error", VNone); (lit "merge_warning", VNone); (lit "merge_verbose", VNone); (lit "merge_debug", VNone);
      (lit "merge_information", VObj 2); (lit "_to_string", VNone)];
   result_type 0; result_type 3;
   HCls (lit "CommandParameter") [(lit "name", VStr (lit "To")); (lit "value", VDict [(VStr (lit "a_b"), VObj 5); (VInt 1, VNone)]); (lit "_to_string", VNone)];
   HCls (lit "CommandParameter") [(lit "name", VNone); (lit "value", VTagged (lit "U64") (VInt 7)); (lit "_to_string", VNone)];
   HCls (lit "Coordinates") [(lit "x", VInt 3); (lit "y", VInt (-1)); (lit "_to_string", VStr (lit "3,-1"))]].
Definition fits := conforms None (fun s => Ok s) library library_canon command_heap (fun _ => True) (fun _ => True).
Local Ltac bear := lazymatch goal with
  | |- bears _ _ _ _ _ (VStr _) => apply be_str; [vm_compute; tauto|apply ascii_scalars; vm_compute; reflexivity|apply ascii_kept; vm_compute; reflexivity|exact I]
  | |- bears _ _ _ _ _ (VBool _) => apply be_bool
  | |- bears _ _ _ _ _ (VInt _) => apply be_int; vm_compute; tauto
  end.
Local Ltac text := first [left; vm_compute; reflexivity
  | right; eexists; split; [vm_compute; reflexivity|]; split; [apply ascii_scalars; vm_compute; reflexivity|split; [apply ascii_kept; vm_compute; reflexivity|exact I]]].
Local Ltac listed := lazymatch goal with |- Forall ?P ?l => let l' := eval vm_compute in l in change (Forall P l') end.
Local Ltac attribute := apply Forall_cons; [cbn [fst snd]; eexists; split; [vm_compute; reflexivity|]|].
Local Ltac instance k := eapply library_fits with (c := lit k) (d := described (lit k)); [first [left; reflexivity|right; reflexivity]|vm_compute; reflexivity|apply described_ok; vm_compute; reflexivity|vm_compute; reflexivity|text|listed].
Lemma fits_enum name opt : fits (Meta KPlain (lit "Obj") name opt (Some (lit "PipelineResultTypes"))) (VObj 1) /\ fits (Meta KPlain (lit "Obj") name opt (Some (lit "PipelineResultTypes"))) (VObj 2).
Proof.
  split; (instance "PipelineResultTypes"; attribute; [apply cf_scalar; bear|apply Forall_nil]).
Qed.
Local Ltac none := apply cf_none; vm_compute; tauto.
Lemma fits_coordinates name opt : fits (Meta KPlain star name opt None) (VObj 5).
Proof.
  eapply library_known_fits with (c := lit "Coordinates") (d := described (lit "Coordinates")); [vm_compute; reflexivity|apply described_ok; vm_compute; reflexivity|vm_compute; reflexivity|text|vm_compute; discriminate|vm_compute; reflexivity|listed].
  attribute; [apply cf_scalar; bear|]. attribute; [apply cf_scalar; bear|apply Forall_nil].
Qed.
Lemma fits_parameter tag name opt : tag = lit "Obj" \/ tag = star -> fits (Meta KPlain tag name opt (Some (lit "CommandParameter"))) (VObj 3) /\ fits (Meta KPlain tag name opt (Some (lit "CommandParameter"))) (VObj 4).
Proof.
  intros Ht. split.
  - eapply library_fits with (d := described (lit "CommandParameter")); [exact Ht|vm_compute; reflexivity|apply described_ok; vm_compute; reflexivity|vm_compute; reflexivity|text|listed].
    attribute; [apply cf_scalar; bear|]. attribute; [|apply Forall_nil]. apply cf_dict.
    + apply Forall_cons; [right; cbn [fst natural]; bear|]. apply Forall_cons; [right; cbn [fst natural]; bear|apply Forall_nil].
    + cbn [distinct_keys]. repeat split; try apply Forall_nil; try apply Forall_cons; try apply Forall_nil; vm_compute; reflexivity.
    + intros e [<- |[<- |[]]]; cbn [snd]; [apply fits_coordinates|none].
  - eapply library_fits with (d := described (lit "CommandParameter")); [exact Ht|vm_compute; reflexivity|apply described_ok; vm_compute; reflexivity|vm_compute; reflexivity|text|listed].
    attribute; [none|]. attribute; [|apply Forall_nil]. apply cf_tagged. bear.
Qed.
Example C59_case : fits (class_meta (lit "Command")) (VObj 0) /\
  exists x w h, serialize None (fun _ => []) library command_heap 10 (VObj 0) (class_meta (lit "Command")) = Ok (Some x) /\
    deserialize None (fun _ => []) (fun s => Ok s) library [] (reparse x) (class_meta (lit "Command")) = Ok (w, h) /\ length h = 8%nat.
Proof.
  split.
  - unfold class_meta. instance "Command".
    attribute; [apply cf_scalar; bear|]. attribute; [apply cf_scalar; bear|]. attribute; [none|].
    do 2 (attribute; [apply (proj1 (fits_enum _ _))|]). attribute; [apply (proj2 (fits_enum _ _))|].
    attribute; [|do 4 (attribute; [none|]); attribute; [apply (proj2 (fits_enum _ _))|apply Forall_nil]].
    apply cf_list; [apply declared_coded; vm_compute; tauto|reflexivity|reflexivity| |].
    + intros v [<- |[<- |[]]]; left; discriminate.
    + intros v [<- |[<- |[]]]; apply fits_parameter; right; reflexivity.
  - eexists. eexists. eexists. split; [vm_compute; reflexivity|]. split; [vm_compute; reflexivity|]. vm_compute. reflexivity.
Qed.
Print Assumptions C59_roundtrip_partial.
Print Assumptions C59_library_partial.
Print Assumptions C59_described.
Print Assumptions C59_names.

(* ---- what does not come back ---- *)
Definition filled (l : list (list N * meta)) (given : list (list N * value)) : list (list N * value) :=
  map (fun e => (fst e, match dict_get str_eqb (fst e) given with Some v => v | None => VNone end)) l.
Definition shown_attr (a : String.string) (h : list hobj) (n : nat) : option value :=
  match nth_error h n with Some (HCls _ attrs) => dict_get str_eqb (lit a) attrs | _ => None end.
(* Two attributes of an error record are sent under one name: the second comes
   back with the value of the first. *)
Theorem C59_shared_name_refuted : exists heap x h m, m = class_meta (lit "ErrorRecordMessage") /\
  serialize None (fun _ => []) library heap 5 (VObj 0) m = Ok (Some x) /\
  deserialize None (fun _ => []) (fun s => Ok s) library [] (reparse x) m = Ok (VObj 0, h) /\
  shown_attr "extended_info_present" heap 0 = Some (VBool false) /\ shown_attr "extended_info_present" h 0 = Some (VBool true).
Proof.
  exists [HCls (lit "ErrorRecordMessage") (filled (cd_extended error_record)
    [(lit "invocation", VBool true); (lit "extended_info_present", VBool false); (lit "fq_error", VStr (lit "e")); (lit "category", VInt 0)])].
  eexists. eexists. eexists. split; [reflexivity|]. split; [vm_compute; reflexivity|]. split; [vm_compute; reflexivity|]. split; vm_compute; reflexivity.
Qed.
Print Assumptions C59_shared_name_refuted.
(* The bound parameters of a record are written with keys that the reader does not
   look for: all come back under the empty string. *)
Theorem C59_parameter_names_refuted : exists heap x h m, m = class_meta (lit "DebugRecord") /\
  serialize None (fun _ => []) library heap 5 (VObj 0) m = Ok (Some x) /\
  deserialize None (fun _ => []) (fun s => Ok s) library [] (reparse x) m = Ok (VObj 0, h) /\
  shown_attr "invocation_bound_parameters" heap 0 = Some (VDict [(VStr (lit "Path"), VStr (lit "C:")); (VStr (lit "Force"), VBool true)]) /\
  shown_attr "invocation_bound_parameters" h 0 = Some (VDict [(VStr [], VBool true)]).
Proof.
  exists [HCls (lit "DebugRecord") (filled (cd_extended (informational []))
    [(lit "invocation", VBool true); (lit "message", VStr (lit "m"));
     (lit "invocation_bound_parameters", VDict [(VStr (lit "Path"), VStr (lit "C:")); (VStr (lit "Force"), VBool true)])])].
  eexists. eexists. eexists. split; [reflexivity|]. split; [vm_compute; reflexivity|]. split; [vm_compute; reflexivity|]. split; vm_compute; reflexivity.
Qed.
Print Assumptions C59_parameter_names_refuted.
(* An instance in a list of values of any kind is read as a generic object. *)
Theorem C59_member_refuted : exists heap x w h, 
  serialize None (fun _ => []) library heap 5 (VList [VObj 0]) any_meta = Ok (Some x) /\
  deserialize None (fun _ => []) (fun s => Ok s) library [] (reparse x) any_meta = Ok (w, h) /\
  heap = [HCls (lit "Coordinates") [(lit "x", VInt 1); (lit "y", VInt 2)]] /\
  w = VList [VObj 0] /\ exists g, nth_error h 0 = Some (HGen g).
Proof.
  exists [HCls (lit "Coordinates") [(lit "x", VInt 1); (lit "y", VInt 2)]].
  eexists. eexists. eexists. split; [vm_compute; reflexivity|]. split; [vm_compute; reflexivity|]. split; [reflexivity|]. split; [reflexivity|]. eexists. reflexivity.
Qed.
Print Assumptions C59_member_refuted.
