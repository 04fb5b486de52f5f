(* C74: enumerations that were given no number. *)
From Verif Require Import Base BaseProofs Lit NumModel TextModel MsgModel XmlModel SerModel SerClasses ClsSpec NewModel NewSpec NewProofs2.
Local Open Scope list_scope.

(* One that was given nothing is sent under the name of zero, with no number. *)
Theorem C74_unset ci show heap n c type name kw attrs f : In (c, type, name) zero_names -> given kw (lit "value") = VNone -> given kw (lit "protocol_version_2") <> VBool true ->
  make c kw = Some attrs -> nth_error heap n = Some (HCls c attrs) ->
  serialize ci show library heap (S (S f)) (VObj n) (class_meta c) = Ok (Some (sent_enum type name (Elem (lit "Nil") [] None []))).
Proof. exact (unset_sent ci show heap n c type name kw attrs f). Qed.
Print Assumptions C74_unset.
(* A host method has no name for it, and is not sent. *)
Theorem C74_unset_method ci show heap n kw attrs f : given kw (lit "value") = VNone -> make (lit "HostMethodIdentifier") kw = Some attrs ->
  nth_error heap n = Some (HCls (lit "HostMethodIdentifier") attrs) ->
  serialize ci show library heap (S (S f)) (VObj n) (class_meta (lit "HostMethodIdentifier")) = Err KeyError.
Proof. exact (unset_method ci show heap n kw attrs f). Qed.
Print Assumptions C74_unset_method.
Example C74_unset_case : exists attrs, make (lit "Color") [] = Some attrs /\ given [] (lit "value") = VNone /\
  serialize None (fun _ => []) library [HCls (lit "Color") attrs] 2 (VObj 0) (class_meta (lit "Color")) =
    Ok (Some (sent_enum (lit "System.ConsoleColor") (lit "Black") (Elem (lit "Nil") [] None []))).
Proof. eexists. split; [reflexivity|]. split; [reflexivity|]. vm_compute. reflexivity. Qed.
(* So what is made with nothing given can be sent, but not as what it is: by its name it
   is black, and it has no number. *)
Theorem C74_unset_refuted : exists attrs x, make (lit "Color") [] = Some attrs /\ serialize None (fun _ => []) library [HCls (lit "Color") attrs] 9 (VObj 0) (class_meta (lit "Color")) = Ok (Some x) /\
  In (bare "ToString" (lit "Black")) (x_children x) /\ forall t, ~ In (bare "I32" t) (x_children x).
Proof.
  do 2 eexists. split; [reflexivity|]. split; [vm_compute; reflexivity|]. split; [right; left; reflexivity|].
  intros t [H|[H|[H|[]]]]; discriminate H.
Qed.
Print Assumptions C74_unset_refuted.
(* A truth value, which Python takes for a number, is found in the names but written
   as a truth value: no reader takes the number. *)
Theorem C74_truth_refuted : exists attrs x, make (lit "Color") [(lit "value", VBool true)] = Some attrs /\
  serialize None (fun _ => []) library [HCls (lit "Color") attrs] 9 (VObj 0) (class_meta (lit "Color")) = Ok (Some x) /\
  x = sent_enum (lit "System.ConsoleColor") (lit "DarkBlue") (bare "I32" (lit "True")) /\
  (forall xml_text float_of, deserialize None xml_text float_of library [] (reparse x) (class_meta (lit "Color")) = Err ValueError).
Proof. do 2 eexists. split; [reflexivity|]. split; [vm_compute; reflexivity|]. split; [reflexivity|]. intros. vm_compute. reflexivity. Qed.
Print Assumptions C74_truth_refuted.
