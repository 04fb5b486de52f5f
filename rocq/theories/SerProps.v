(* Properties of the serializer. *)
From Verif Require Import Base Lit NumModel NumSpec TextModel MsgModel XmlModel SerModel SerClasses SerSpec SerProofs SerProofs2 SerProofs3.

(* ---- C49: integers under the integer tags, given by the metadata, by a tagged
   value or found for the value; characters under C ---- *)
Theorem C49_integers ci show xml_text float_of classes heap heap' fuel tag name opt z v m' m :
  In tag (map lit ["By"; "SB"; "U16"; "I16"; "U32"; "I32"; "U64"; "I64"]%string) ->
  (v = VInt z /\ m = Meta KPlain tag name opt None \/ v = VTagged tag (VInt z) /\ m = Meta KPlain star name opt None \/
   v = VInt z /\ m = Meta KPlain star name opt None /\ tag = lit "I32") ->
  exists x, serialize ci show classes heap (S fuel) v m = Ok (Some x) /\
    deserialize ci xml_text float_of classes heap' (reparse x) m' = Ok (VInt z, heap').
Proof. exact (int_roundtrip ci show xml_text float_of classes heap heap' fuel tag name opt z v m' m). Qed.
Example C49_integers_case :
  serialize None (fun _ => []) library [] 1 (VTagged (lit "I64") (VInt (-9223372036854775809))) any_meta =
  Ok (Some (Elem (lit "I64") [] (Some (lit "-9223372036854775809")) [])).
Proof. reflexivity. Qed.
Print Assumptions C49_integers.

(* what is read as an integer is the numeral of it; anything else is refused *)
Theorem C49_integers_read ci xml_text float_of classes heap tag a t m z h :
  In tag (map lit ["By"; "SB"; "U16"; "I16"; "U32"; "I32"; "U64"; "I64"]%string) ->
  (deserialize ci xml_text float_of classes heap (Elem tag a t []) m = Ok (VInt z, h) <-> h = heap /\ exists s, t = Some s /\ numeral s z).
Proof. exact (int_read ci xml_text float_of classes heap tag a t m z h). Qed.
Example C49_integers_read_case : numeral (lit " -1_0 ") (-10) /\
  deserialize None (fun _ => []) (fun s => Ok s) library [] (Elem (lit "I32") [] (Some (lit "1_x")) []) any_meta = Err ValueError.
Proof.
  split; [|reflexivity]. change (lit " -1_0 ") with (32%N :: ([45%N; 49%N; 95%N; 48%N] ++ [32%N])). apply nu_before; [cbn [In blanks]; tauto|]. apply nu_after; [cbn [In blanks]; tauto|].
  change [45%N; 49%N; 95%N; 48%N] with (45%N :: [49%N] ++ [95%N; 48%N]). apply (nu_minus _ 10). apply (gr_under [49%N] 1 48); [apply (gr_one 49)|]; cbn [In decimal_digit]; unfold decimal_digit; cbn [In]; tauto.
Qed.
Print Assumptions C49_integers_read.

Theorem C49_characters ci show xml_text float_of classes heap heap' fuel name opt c v m' m :
  (c < 1114112)%N ->
  (v = VStr [c] /\ m = Meta KPlain (lit "C") name opt None \/ v = VTagged (lit "C") (VStr [c]) /\ m = Meta KPlain star name opt None) ->
  exists x, serialize ci show classes heap (S fuel) v m = Ok (Some x) /\
    deserialize ci xml_text float_of classes heap' (reparse x) m' = Ok (VStr [c], heap').
Proof. exact (char_roundtrip ci show xml_text float_of classes heap heap' fuel name opt c v m' m). Qed.
Example C49_characters_case :
  serialize None (fun _ => []) library [] 1 (VTagged (lit "C") (VStr [128512]%N)) any_meta =
  Ok (Some (Elem (lit "C") [] (Some (lit "128512")) [])).
Proof. reflexivity. Qed.
(* several characters, or none, are not one *)
Theorem C49_one_character ci show classes heap fuel name opt s v m : length s <> 1%nat ->
  (v = VStr s /\ m = Meta KPlain (lit "C") name opt None \/ v = VTagged (lit "C") (VStr s) /\ m = Meta KPlain star name opt None) ->
  serialize ci show classes heap (S fuel) v m = Err TypeError.
Proof. exact (one_char ci show classes heap fuel name opt s v m). Qed.
Example C49_one_character_case : length (lit "ab") <> 1%nat /\ serialize None (fun _ => []) library [] 1 (VTagged (lit "C") (VStr (lit "ab"))) any_meta = Err TypeError.
Proof. split; [discriminate|reflexivity]. Qed.
Print Assumptions C49_characters.
Print Assumptions C49_one_character.

(* ---- C14: for every value and every graph of instances, with whatever cipher,
   classes and metadata ---- *)
Theorem C14_ids ci show classes heap fuel v m x :
  Forall elementless_obj heap -> elementless v ->
  serialize ci show classes heap fuel v m = Ok (Some x) ->
  exists n k,
    obj_ids (marks (reparse x)) = map (fun i => dec (N.of_nat i)) (seq 0 n) /\ NoDup (obj_ids (marks (reparse x))) /\
    tn_ids (marks (reparse x)) = map (fun i => dec (N.of_nat i)) (seq 0 k) /\ NoDup (tn_ids (marks (reparse x))) /\
    preceded (fun before y => match y with
                              | MRef i => In (MObj i) before
                              | MTypesRef i => exists ts, In (MTypes i ts) before
                              | _ => True
                              end) (marks (reparse x)).
Proof. exact (serialize_ids ci show classes heap fuel v m x). Qed.
(* two properties that hold one object, beside a list: one Ref, one TNRef *)
Definition shared_heap : list hobj :=
  [HGen (mkG [lit "Outer"] VNone [] [(lit "a", VObj 1); (lit "b", VObj 1)] [(lit "c", VList [VInt 1]); (lit "d", VList [])]);
   HGen (mkG [lit "Inner"; lit "Base"] (VStr (lit "text")) [VInt 7] [] [])].
Example C14_ids_case :
  exists x, serialize None (fun _ => []) library shared_heap 5 (VObj 0) any_meta = Ok (Some x) /\
    marks (reparse x) =
      [MObj (lit "0"); MTypes (lit "0") [lit "Outer"];
       MObj (lit "1"); MTypes (lit "1") [lit "System.Object[]"; lit "System.Array"; lit "System.Object"];
       MObj (lit "2"); MTypesRef (lit "1");
       MObj (lit "3"); MTypes (lit "2") [lit "Inner"; lit "Base"]; MRef (lit "3")].
Proof. eexists. split; vm_compute; reflexivity. Qed.
Print Assumptions C14_ids.

(* ---- C50 ---- *)
(* reading an Obj as an instance of a class: what every success means *)
Theorem C50_success ci xml_text float_of classes heap x c d v h' :
  x_tag x = lit "Obj" -> classes c = Some d ->
  deserialize ci xml_text float_of classes heap x (class_meta c) = Ok (v, h') ->
  v = VObj (length heap) /\
  exists attrs e, h' = (heap ++ HCls c attrs :: e)%list /\ complete d x /\
    (NoDup (attribute_names d) -> forall g props a m, In (g, props) (groups d) -> In (a, m) props ->
       (~ present g m x -> dict_get str_eqb a attrs = Some VNone) /\
       (forall p, scalar_elem p -> member g x p -> (exists t, In t (property_tags m) /\ fits t (m_name m) p) ->
          (forall q t, member g x q -> In t (property_tags m) -> fits t (m_name m) q -> q = p) ->
          exists w, deserialize ci xml_text float_of classes [] p any_meta = Ok (w, []) /\ dict_get str_eqb a attrs = Some w)).
Proof. exact (read_class ci xml_text float_of classes heap x c d v h'). Qed.

(* the classes of the library name no attribute twice *)
Theorem C50_library c d : library c = Some d -> NoDup (attribute_names d).
Proof. exact (library_names c d). Qed.

(* when the elements of its properties can be read, an instance is read if and
   only if all mandatory ones are there *)
Theorem C50_rule ci xml_text float_of classes heap x c d :
  classes c = Some d -> well_headed x ->
  (forall attrs, exists t, cd_text d attrs = Ok t) ->
  (forall t, In t (x_children x) -> x_tag t = lit "ToString" -> exists s, deserialize_string (x_text t) = Ok s) ->
  (forall g props a m e t, In (g, props) (groups d) -> In (a, m) props -> member g x e -> In t (property_tags m) ->
     fits t (m_name m) e ->
     forall fuel st, (depth e <= fuel)%nat -> exists r, des ci xml_text float_of classes fuel e m st = Ok r) ->
  (exists r, deserialize ci xml_text float_of classes heap x (class_meta c) = Ok r) \/
  (deserialize ci xml_text float_of classes heap x (class_meta c) = Err SerializationError /\ ~ complete d x).
Proof. exact (read_rule ci xml_text float_of classes heap x c d). Qed.

(* the class may be given by the type names *)
Theorem C50_by_type ci xml_text float_of classes heap x c :
  well_headed x ->
  map (fun e => text_or_empty (x_text e)) (find_all [lit "TN"; lit "T"] x) <> [] ->
  choose (map (fun e => text_or_empty (x_text e)) (find_all [lit "TN"; lit "T"] x)) = Ok (Some (class_meta c)) ->
  deserialize ci xml_text float_of classes heap x any_meta = deserialize ci xml_text float_of classes heap x (class_meta c).
Proof. exact (read_by_type ci xml_text float_of classes heap x c). Qed.

(* the output of a pipeline *)
Theorem C50_output_generic ci xml_text float_of classes heap x :
  well_headed x ->
  Forall (fun p =>
    x_tag p = lit "TN" /\ attr_get (lit "RefId") p <> None \/
    (x_tag p = lit "Props" \/ x_tag p = lit "MS") /\
      Forall (fun e => (scalar_elem e /\ exists v, deserialize ci xml_text float_of classes [] e any_meta = Ok (v, [])) /\ attr_get (lit "N") e <> None)
             (x_children p) \/
    scalar_elem p /\ exists v, deserialize ci xml_text float_of classes [] p any_meta = Ok (v, [])) (x_children x) ->
  deserialize ci xml_text float_of classes heap x any_meta = Err SerializationError ->
  exists g, output_value ci xml_text float_of classes heap x = Ok (VObj (length heap), (heap ++ [HGen g])%list) /\
    forall t n e, t = lit "Props" \/ t = lit "MS" -> member (Some t) x e -> attr_get (lit "N") e = Some n ->
      (forall e', member (Some t) x e' -> attr_get (lit "N") e' = Some n -> e' = e) ->
      exists v, deserialize ci xml_text float_of classes [] e any_meta = Ok (v, []) /\
        dict_get str_eqb n (if str_eqb t (lit "Props") then g_adapted g else g_extended g) = Some v.
Proof. exact (output_generic ci xml_text float_of classes heap x). Qed.

(* Coordinates with both properties, without one, and as output *)
Definition coordinates (props : list xml) : xml :=
  Elem (lit "Obj") [(lit "RefId", lit "0")] None
    [Elem (lit "TN") [(lit "RefId", lit "0")] None
       [Elem (lit "T") [] (Some (lit "System.Management.Automation.Host.Coordinates")) []; Elem (lit "T") [] (Some (lit "System.Object")) []];
     Elem (lit "ToString") [] (Some (lit "0,5")) [];
     Elem (lit "Props") [] None props].
Definition i32 (n s : String.string) : xml := Elem (lit "I32") [(lit "N", lit n)] (Some (lit s)) [].
Definition reading := deserialize None (fun _ => lit "xml") (fun s => Ok s) library.
Definition outputting := output_value None (fun _ => lit "xml") (fun s => Ok s) library.
Example C50_case_complete :
  reading [] (coordinates [i32 "X" "0"; i32 "Y" "5"]) any_meta =
  Ok (VObj 0, [HCls (lit "Coordinates") [(lit "x", VInt 0); (lit "y", VInt 5); (lit "_to_string", VStr (lit "0,5"))]]).
Proof. vm_compute. reflexivity. Qed.
Example C50_case_missing :
  reading [] (coordinates [i32 "X" "0"]) any_meta = Err SerializationError /\
  outputting [] (coordinates [i32 "X" "0"]) =
    Ok (VObj 0, [HGen (mkG [lit "System.Management.Automation.Host.Coordinates"; lit "System.Object"] (VStr (lit "0,5")) []
                          [(lit "X", VInt 0)] [])]).
Proof. vm_compute. split; reflexivity. Qed.
Example C50_case_header : well_headed (coordinates [i32 "X" "0"]).
Proof.
  split; [reflexivity|split; [discriminate|split]].
  - intros t [<-|[<-|[<-|[]]]]; discriminate.
  - intros t [<-|[<-|[<-|[]]]] H; discriminate.
Qed.
Print Assumptions C50_success.
Print Assumptions C50_rule.
Print Assumptions C50_by_type.
Print Assumptions C50_output_generic.
Print Assumptions C50_library.

(* ---- findings ---- *)
(* An enumeration without its value: to build the message of the SerializationError
   its text is computed, which raises KeyError when 0 is no value of the
   enumeration; this is not caught, and the output is lost. *)
Theorem C50_enumeration_refuted : exists x, well_headed x /\
  ~ complete (enum_desc "System.Management.Automation.Remoting.RemoteHostMethodId" (enum_text method_map)) x /\
  reading [] x any_meta = Err KeyError /\ outputting [] x = Err KeyError.
Proof.
  exists (Elem (lit "Obj") [(lit "RefId", lit "0")] None
    [Elem (lit "TN") [(lit "RefId", lit "0")] None
       [Elem (lit "T") [] (Some (lit "System.Management.Automation.Remoting.RemoteHostMethodId")) []];
     Elem (lit "ToString") [] (Some (lit "ReadLine")) []]).
  split; [split; [reflexivity|split; [discriminate|split]]|split].
  - intros t [<-|[<-|[]]]; discriminate.
  - intros t [<-|[<-|[]]] H; discriminate.
  - intros H. destruct (H None _ (lit "value") (plain "I32") (or_introl eq_refl) (or_introl eq_refl) eq_refl) as [(e & t & He & Ht & Hf & _)|(e & He & Hf & _)].
    + destruct Ht as [<-|[]]. destruct He as [<-|[<-|[]]]; destruct Hf; discriminate.
    + destruct He as [<-|[<-|[]]]; destruct Hf; discriminate.
  - vm_compute. split; reflexivity.
Qed.
Print Assumptions C50_enumeration_refuted.

(* An object of a known class that lacks a property inside another object: the
   generic reading fails on it in the same way, and the output is lost. *)
Theorem C50_nested_refuted : exists x, well_headed x /\
  reading [] x any_meta = Err SerializationError /\ outputting [] x = Err SerializationError.
Proof.
  exists (Elem (lit "Obj") [(lit "RefId", lit "0")] None
    [Elem (lit "Props") [] None
       [Elem (lit "Obj") [(lit "N", lit "CursorPosition"); (lit "RefId", lit "1")] None
          [Elem (lit "TN") [(lit "RefId", lit "0")] None
             [Elem (lit "T") [] (Some (lit "System.Management.Automation.Host.Coordinates")) []];
           Elem (lit "Props") [] None [i32 "X" "0"]]]]).
  split; [split; [reflexivity|split; [discriminate|split]]|].
  - intros t [<-|[]]; discriminate.
  - intros t [<-|[]] H; discriminate.
  - vm_compute. split; reflexivity.
Qed.
Print Assumptions C50_nested_refuted.
