(* C67, further: names of generic lists and dictionaries. *)
From Verif Require Import Base BaseProofs Lit NumModel TextModel TextSpec Utf8Model MsgModel MsgSpec XmlModel SerModel SerSpec SerSpec2 SerClasses SendClasses RdSpec RdProofs4 RdProofs5.
Local Open Scope list_scope.

(* A generic list of something known is read as a list of it, in each of the three
   spellings; of something else the next type name decides.  A generic dictionary
   is read as a dictionary whatever its keys and values are. *)
Theorem C67_generics us : Forall (fun t => (~ In 91%N t /\ starts_with (lit "Deserialized.System.") t = false) /\ ~ In t (map fst structures)) us ->
  (forall p t r ts, In p (map lit ["System.Collections.Generic.List`1[["; "System.Collections.ObjectModel.Collection`1[["; "System.Collections.ObjectModel.ReadOnlyCollection`1[["]%string) -> ~ In 44%N t ->
     (forall m, dict_get str_eqb t structures = Some m ->
        by_types (us ++ (p ++ t ++ [44%N] ++ r ++ lit "]]") :: ts) = match as_reading m with Some r => Some (ListOf (strict r)) | None => None end) /\
     (~ In t (map fst structures) -> by_types (us ++ (p ++ t ++ [44%N] ++ r ++ lit "]]") :: ts) = by_types ts)) /\
  (forall a b ts, by_types (us ++ (lit "System.Collections.Generic.Dictionary`2[[" ++ a ++ lit "],[" ++ b ++ lit "]]") :: ts) = Some Dict).
Proof.
  intros H. split; [|intros a b ts; exact (dictionary_types us a b ts H)].
  intros p t r ts P N1. split; [intros m E; exact (generic_list_types us p t r ts m H P N1 E)|exact (unknown_list_types us p t r ts H P N1)].
Qed.
Print Assumptions C67_generics.

Definition int_list : item := Members (lit "0") (Named (lit "0") [lit "System.Collections.Generic.List`1[[System.Int32, mscorlib, Version=4.0.0.0]]"; lit "System.Object"]) (lit "LST") [Scalar (lit "I32") (Some (lit "4")); Scalar (lit "I32") (Some (lit "5"))] [].
Example C67_generics_case :
  by_types [lit "System.Collections.ObjectModel.Collection`1[[System.String, mscorlib]]"] = Some (ListOf Free) /\
  by_types [lit "System.Collections.Generic.Dictionary`2[[System.String, mscorlib],[System.Int32, mscorlib]]"] = Some Dict /\
  deserialize None (fun _ => []) (fun f => Ok f) sending [] (write None int_list) any_meta = Ok (VList [VInt 4; VInt 5], []).
Proof. vm_compute. repeat split. Qed.
(* A generic list of objects whose type has no structure of its own is no list but
   an object that has the text of the list's element among its sets. *)
Theorem C67_object_list_refuted : exists l, forall xml_text,
  let elements := [Scalar (lit "I32") (Some (lit "4")); Scalar (lit "I32") (Some (lit "5"))] in
  deserialize None xml_text (fun f => Ok f) sending [] (write None (Members (lit "0") (Named (lit "0") l) (lit "LST") elements [])) any_meta =
    Ok (VObj 0, [HGen (mkG l VNone [VStr (xml_text (Elem (lit "LST") [] None (map (write None) elements)))] [] [])]).
Proof. exists [lit "System.Collections.Generic.List`1[[System.Diagnostics.Process, System]]"; lit "System.Object"]. intros xml_text. vm_compute. reflexivity. Qed.
Print Assumptions C67_object_list_refuted.
