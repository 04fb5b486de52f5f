(* Properties of values that are serialized to a text and read from it. *)
From Verif Require Import Base BaseProofs Lit NumModel TextModel TextSpec TextProofs Utf8Model MsgModel MsgSpec XmlModel SerModel SerClasses SerSpec SerSpec2 SerProofs5 XtModel XtSpec XtProofs XtProofs3 ClsSpec ClsProofs ClsProofs2 ClsProofs3 WfModel WfSpec WfProofs WfProofs2 WfProofs3.
Local Open Scope list_scope.

(* ---- C61: a value survives as a text, and no text in it becomes markup ---- *)
(* Whatever the serializer accepts: the text it is written to is read as the tree
   that the serializer made. *)
Theorem C61_document ci show classes heap R reg fuel v m t : usable_registry reg -> clean_heap show classes heap R -> tidy m -> loose show R m v ->
  serialize_text ci show classes reg heap fuel v m = Ok (Some t) ->
  exists x, serialize ci show classes heap fuel v m = Ok (Some x) /\ xml_parse t = Some (reparse x).
Proof. exact (document ci show classes heap R reg fuel v m t). Qed.
Theorem C61_written ci show classes heap R reg fuel v m x : usable_registry reg -> clean_heap show classes heap R -> tidy m -> loose show R m v ->
  serialize ci show classes heap fuel v m = Ok (Some x) -> exists t, serialize_text ci show classes reg heap fuel v m = Ok (Some t).
Proof. exact (written_all ci show classes heap R reg fuel v m x). Qed.

(* What fits its metadata comes back from the text as a copy. *)
Theorem C61_copy_partial ci show xml_text float_of classes canon heap reg m v : usable_registry reg -> tidy_classes classes -> tidy m -> coded canon list_names -> coded canon dict_names ->
  conforms ci float_of classes canon heap said raw m v -> v <> VNone \/ m_optional m = false ->
  exists f0, forall fuel, (f0 <= fuel)%nat -> exists t, serialize_text ci show classes reg heap fuel v m = Ok (Some t) /\
    forall heap0, exists w e, deserialize_text ci xml_text float_of classes heap0 t m = Ok (w, heap0 ++ e) /\ copy classes heap (length heap0) (heap0 ++ e) v w.
Proof. exact (text_roundtrip ci show xml_text float_of classes canon heap reg m v). Qed.
Theorem C61_library_partial ci show xml_text float_of heap reg m v : usable_registry reg -> tidy m ->
  conforms ci float_of library library_canon heap said raw m v -> v <> VNone \/ m_optional m = false ->
  exists f0, forall fuel, (f0 <= fuel)%nat -> exists t, serialize_text ci show library reg heap fuel v m = Ok (Some t) /\
    forall heap0, exists w e, deserialize_text ci xml_text float_of library heap0 t m = Ok (w, heap0 ++ e) /\ copy library heap (length heap0) (heap0 ++ e) v w.
Proof. exact (library_text_roundtrip ci show xml_text float_of heap reg m v). Qed.
Theorem C61_names : tidy_classes library.
Proof. exact library_tidy. Qed.

(* A parameter whose name and value would end their elements, with line ends,
   controls, an escape and a character of the second plane. *)
Definition nasty : list N := lit "</S></MS>&amp;<Obj RefId=" ++ [34; 13; 10; 0; 27; 9; 128512]%N ++ lit "_x000D_ ]]>".
Definition nasty_heap : list hobj :=
  [HCls (lit "CommandParameter") [(lit "name", VStr nasty); (lit "value", VDict [(VStr nasty, VList [VStr nasty; VInt (-5); VNone]); (VInt 1, VTagged (lit "SBK") (VStr nasty))]); (lit "_to_string", VStr nasty)]].
Local Ltac spoken := lazymatch goal with |- Forall ?P ?l => let l' := eval vm_compute in l in change (Forall P l') end;
  repeat first [apply Forall_nil | apply Forall_cons; [split; [first [left; reflexivity|right; split; reflexivity]|split; discriminate]|]].
Lemma nasty_said : said nasty. Proof. unfold said. spoken. Qed.
Lemma said_scalars s : said s -> scalars s. Proof. intros H. eapply Forall_impl; [|exact H]. intros c (K & _). exact K. Qed.
Lemma nasty_kept : ~ has_straddle nasty.
Proof. intros K. apply TextProofs2.straddle_5F00 in K. vm_compute in K. repeat (destruct K as [K|K]; [discriminate K|]). exact K. Qed.
Lemma nasty_bears tag : In tag (map lit ["S"; "URI"; "XD"; "SBK"]%string) -> bears None (fun s => Ok s) said raw tag (VStr nasty).
Proof. intros H. apply be_str; [exact H|exact (said_scalars _ nasty_said)|exact nasty_kept|exact nasty_said]. Qed.
Example C61_case : conforms None (fun s => Ok s) library library_canon nasty_heap said raw (class_meta (lit "CommandParameter")) (VObj 0) /\ tidy (class_meta (lit "CommandParameter")) /\
  exists t h, serialize_text None (fun _ => []) library library_registry nasty_heap 6 (VObj 0) (class_meta (lit "CommandParameter")) = Ok (Some t) /\
    deserialize_text None (fun _ => []) (fun s => Ok s) library [] t (class_meta (lit "CommandParameter")) = Ok (VObj 0, h) /\
    dict_get str_eqb (lit "name") (match h with [HCls _ a] => a | _ => [] end) = Some (VStr nasty) /\
    dict_get str_eqb (lit "value") (match h with [HCls _ a] => a | _ => [] end) = Some (VDict [(VStr nasty, VList [VStr nasty; VInt (-5); VNone]); (VInt 1, VStr nasty)]).
Proof.
  split; [|split].
  - eapply library_fits with (d := described (lit "CommandParameter")); [left; reflexivity|reflexivity|apply described_ok; vm_compute; reflexivity|vm_compute; reflexivity| |].
    + right. exists nasty. split; [vm_compute; reflexivity|]. split; [exact (said_scalars _ nasty_said)|split; [exact nasty_kept|exact nasty_said]].
    + lazymatch goal with |- Forall ?P ?l => let l' := eval vm_compute in l in change (Forall P l') end.
      apply Forall_cons; [cbn [fst snd]; exists (VStr nasty); split; [vm_compute; reflexivity|apply cf_scalar, nasty_bears; left; reflexivity]|].
      apply Forall_cons; [cbn [fst snd]; eexists; split; [reflexivity|]|apply Forall_nil]. apply cf_dict.
      * apply Forall_cons; [right; apply nasty_bears; left; reflexivity|]. apply Forall_cons; [right; apply be_int; vm_compute; tauto|apply Forall_nil].
      * cbn [distinct_keys]. repeat split; try apply Forall_nil; try apply Forall_cons; try apply Forall_nil; vm_compute; reflexivity.
      * intros e [<- |[<- |[]]]; cbn [snd].
        -- apply cf_members. apply Forall_cons; [right; apply nasty_bears; left; reflexivity|]. apply Forall_cons; [right; apply be_int; vm_compute; tauto|].
           apply Forall_cons; [left; reflexivity|apply Forall_nil].
        -- apply cf_tagged, nasty_bears. vm_compute. tauto.
  - apply tidyb_ok. vm_compute. reflexivity.
  - eexists. eexists. split; [vm_compute; reflexivity|]. split; [vm_compute; reflexivity|]. split; vm_compute; reflexivity.
Qed.
(* A generic object, whose property names are written as they are, and a queue in it. *)
Definition sly : list N := lit "a" ++ [34]%N ++ lit " N=" ++ [34; 60; 38; 13; 10; 9]%N.
Definition sly_heap : list hobj :=
  [HGen {| g_types := [lit "Deserialized.<T>&"; lit "System.Object"]; g_text := VStr nasty; g_sets := [];
           g_adapted := [(sly, VStr nasty)]; g_extended := [(sly ++ [33%N], VQueue [VInt 1; VStr (lit "</I32>")]); (sly, VObj 0)] |}].
Example C61_document_case : clean_heap (fun _ => []) library sly_heap (fun _ => True) /\ loose (fun _ => []) (fun _ => True) any_meta (VObj 0) /\
  exists t x, serialize_text None (fun _ => []) library library_registry sly_heap 6 (VObj 0) any_meta = Ok (Some t) /\
    serialize None (fun _ => []) library sly_heap 6 (VObj 0) any_meta = Ok (Some x) /\ xml_parse t = Some (reparse x) /\
    (depth x = 5)%nat /\ (length t > 300)%nat.
Proof.
  assert (Sl : Forall xml_char sly /\ Forall xml_char (sly ++ [33%N])) by (split; apply lit_chars_ascii; vm_compute; reflexivity).
  assert (Hs : raw []) by (apply rawb_ok; reflexivity).
  split; [|split; [|do 2 eexists; split; [vm_compute; reflexivity|]; split; [vm_compute; reflexivity|]; split; [vm_compute; reflexivity|]; split; [vm_compute; reflexivity|apply Nat.ltb_lt; vm_compute; reflexivity]]].
  - intros n o _ Hn. destruct n as [|n]; [|destruct n; discriminate Hn]. apply Some_inj in Hn. subst o. cbn [clean g_types g_text g_sets g_extended g_adapted app].
    split; [apply rawsb_ok; vm_compute; reflexivity|]. split; [exact nasty_said|]. split; [intros v []|].
    intros k v [E|[E|[E|[]]]]; apply pair_inj in E; destruct E as (<- & <-).
    + split; [apply Sl|]. apply lo_strict. apply st_queue; [exact Hs|]. intros v [<- |[<- |[]]]; constructor. apply rawb_ok. vm_compute. reflexivity.
    + split; [apply Sl|]. apply lo_obj; [left; reflexivity|exact I].
    + split; [apply Sl|]. apply lo_str; [exact nasty_said|left; reflexivity].
  - apply lo_obj; [left; reflexivity|exact I].
Qed.

(* ---- what does not survive ---- *)
(* A noncharacter that the escapes leave alone: the reader takes the markup for the
   value. *)
Theorem C61_noncharacter_refuted : exists t, serialize_text None (fun _ => []) library python_registry [] 2 (VStr [97; 65535]%N) any_meta = Ok (Some t) /\
  deserialize_text None (fun _ => []) (fun s => Ok s) library [] t any_meta = Ok (VStr t, []) /\ t = lit "<S>a" ++ [65535%N] ++ lit "</S>".
Proof. eexists. split; [vm_compute; reflexivity|]. split; vm_compute; reflexivity. Qed.
(* So does a control character in a text that is not escaped, as durations are not. *)
Theorem C61_unescaped_refuted : exists t, serialize_text None (fun _ => []) library python_registry [] 2 (VTagged (lit "TS") (VStr [80; 1]%N)) any_meta = Ok (Some t) /\
  deserialize_text None (fun _ => []) (fun s => Ok s) library [] t any_meta = Ok (VStr t, []) /\ t = lit "<TS>P" ++ [1%N] ++ lit "</TS>".
Proof. eexists. split; [vm_compute; reflexivity|]. split; vm_compute; reflexivity. Qed.

Print Assumptions C61_document.
Print Assumptions C61_written.
Print Assumptions C61_copy_partial.
Print Assumptions C61_library_partial.
Print Assumptions C61_names.
Print Assumptions C61_noncharacter_refuted.
Print Assumptions C61_unescaped_refuted.
