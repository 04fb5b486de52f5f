(* Properties of element trees written as XML and read again. *)
From Verif Require Import Base BaseProofs Lit NumModel TextModel TextSpec Utf8Model XmlModel SerModel SerClasses XtModel XtSpec XtProofs XtProofs3.
Local Open Scope list_scope.

(* ---- C60: what is put in as text or attribute comes out as that, and nothing
   of it is taken for markup ---- *)
Theorem C60_carried_partial reg x : usable_registry reg -> writable x -> unreturned x ->
  exists b s, tostring reg x = Ok b /\ bytes_ok b /\ utf8_decode b = Ok s /\ xml_parse s = Some (reparse x).
Proof. exact (carried_same reg x). Qed.

(* with carriage returns the texts change, the rest does not *)
Theorem C60_line_ends reg x : usable_registry reg -> writable x ->
  exists b s y, tostring reg x = Ok b /\ bytes_ok b /\ utf8_decode b = Ok s /\ xml_parse s = Some y /\ arrives x y.
Proof. exact (carried reg x). Qed.

(* trees that are written the same are the same *)
Theorem C60_told_apart reg reg' x y : usable_registry reg -> usable_registry reg' -> writable x -> unreturned x -> writable y -> unreturned y ->
  tostring reg x = tostring reg' y -> reparse x = reparse y.
Proof. exact (told_apart reg reg' x y). Qed.

(* the prefixes that Python starts with and those that the library adds *)
Theorem C60_python_prefixes : usable_registry python_registry.
Proof. exact python_usable. Qed.
Theorem C60_library_prefixes : usable_registry library_registry.
Proof. exact library_usable. Qed.

(* A request with options whose name and value try to leave their attribute and
   their element, in a namespace with a prefix and one without. *)
Definition s_ns : list N := lit "http://www.w3.org/2003/05/soap-envelope".
Definition w_ns : list N := lit "http://schemas.dmtf.org/wbem/wsman/1/wsman.xsd".
Definition quotes : list N := [34; 39; 10; 9; 13; 93; 93; 62; 128512]%N.
Definition hostile : xml :=
  Elem (qname s_ns (lit "Envelope")) [] None
    [Elem (qname s_ns (lit "Header")) [(qname (lit "urn:a&b") (lit "k"), quotes); (lit "k", lit "</k>")] (Some []) [];
     Elem (qname s_ns (lit "Body")) [] None
       [Elem (qname w_ns (lit "Option")) [(lit "Name", lit "</Option><x y='&lt;" ++ quotes)] (Some (lit "]]></Option><!-- &amp; &#60;")) []]].
Local Ltac chars := apply lit_chars_ascii; vm_compute; reflexivity.
Local Ltac plain := left; apply ncname_nc; vm_compute; reflexivity.
Local Ltac qualified := right; do 2 eexists; split; [reflexivity|split; [split; [discriminate|split; [chars|split; [vm_compute; intuition discriminate|discriminate]]]|apply ncname_nc; vm_compute; reflexivity]].
Local Ltac attributes := first [apply Forall_nil | apply Forall_cons; [split; [first [plain|qualified]|split; [discriminate|chars]]|attributes]].
Local Ltac text := intros s E; first [discriminate E | apply Some_inj in E; rewrite <- E; chars].
Example C60_case : writable hostile /\ unreturned hostile /\
  xml_print library_registry hostile =
    lit "<s:Envelope xmlns:ns1=" ++ quote ++ lit "urn:a&amp;b" ++ quote ++ lit " xmlns:s=" ++ quote ++ s_ns ++ quote ++ lit " xmlns:wsman=" ++ quote ++ w_ns ++ quote ++
    lit "><s:Header ns1:k=" ++ quote ++ lit "&quot;'&#10;&#09;&#13;]]&gt;" ++ [128512%N] ++ quote ++ lit " k=" ++ quote ++ lit "&lt;/k&gt;" ++ quote ++
    lit " /><s:Body><wsman:Option Name=" ++ quote ++ lit "&lt;/Option&gt;&lt;x y='&amp;lt;&quot;'&#10;&#09;&#13;]]&gt;" ++ [128512%N] ++ quote ++
    lit ">]]&gt;&lt;/Option&gt;&lt;!-- &amp;amp; &amp;#60;</wsman:Option></s:Body></s:Envelope>" /\
  xml_parse (xml_print library_registry hostile) = Some (reparse hostile).
Proof.
  split; [|split; [|split; [vm_compute; reflexivity|vm_compute; reflexivity]]].
  - cbn [writable hostile]. repeat (first [exact I | split; [first [qualified|plain]|] | split; [apply nodupb_ok; vm_compute; reflexivity|] | split; [attributes|] | split; [text|] | split]).
  - cbn [unreturned hostile]. repeat (first [exact I | split; [intros s E; first [discriminate E|apply Some_inj in E; rewrite <- E; vm_compute; intuition discriminate]|] | split]).
Qed.

(* a carriage return in a text does not arrive *)
Definition returned : xml := Elem (lit "TS") [] (Some [80; 49; 68; 13]%N) [].
Theorem C60_carriage_return_refuted : writable returned /\ xml_parse (xml_print python_registry returned) = Some (Elem (lit "TS") [] (Some [80; 49; 68; 10]%N) []) /\ reparse returned = returned.
Proof.
  split; [|split; vm_compute; reflexivity]. cbn [writable returned]. split; [plain|]. split; [apply nodupb_ok; reflexivity|]. split; [apply Forall_nil|]. split; [text|exact I].
Qed.

(* The escapes of strings leave two characters alone that XML does not have: the
   text of the serialized string cannot be read. *)
Theorem C60_noncharacter_refuted : exists x, serialize None (fun _ => []) library [] 2 (VStr [65534%N]) any_meta = Ok (Some x) /\ xml_parse (xml_print python_registry x) = None.
Proof. eexists. split; [vm_compute; reflexivity|vm_compute; reflexivity]. Qed.
(* neither can half of a surrogate pair, which is written as a reference to it *)
Theorem C60_surrogate_refuted : exists x b s, serialize None (fun _ => []) library [] 2 (VStr [55296%N]) any_meta = Ok (Some x) /\
  tostring python_registry x = Ok b /\ utf8_decode b = Ok s /\ s = lit "<S>&#55296;</S>" /\ xml_parse s = None.
Proof. do 3 eexists. split; [vm_compute; reflexivity|]. split; [vm_compute; reflexivity|]. split; [vm_compute; reflexivity|]. split; vm_compute; reflexivity. Qed.
(* names of properties are not escaped at all *)
Definition bell : hobj := HGen {| g_types := []; g_text := VNone; g_sets := []; g_adapted := []; g_extended := [([7%N], VInt 1)] |}.
Theorem C60_property_name_refuted : exists x, serialize None (fun _ => []) library [bell] 3 (VObj 0) any_meta = Ok (Some x) /\ xml_parse (xml_print python_registry x) = None.
Proof. eexists. split; [vm_compute; reflexivity|vm_compute; reflexivity]. Qed.

Print Assumptions C60_carried_partial.
Print Assumptions C60_line_ends.
Print Assumptions C60_told_apart.
Print Assumptions C60_python_prefixes.
Print Assumptions C60_library_prefixes.
Print Assumptions C60_carriage_return_refuted.
Print Assumptions C60_noncharacter_refuted.
Print Assumptions C60_surrogate_refuted.
Print Assumptions C60_property_name_refuted.
