(* Model of src/pypsrp/serializer.py:55-878 on element trees, and of the
   metadata classes, src/pypsrp/complex_objects.py:10-153.

   Floats are the text str() gives for them.  ET.tostring, float() and str() of
   values that are not listed are oracles.  Not modelled: log messages; the
   attribute _xml; that a queue or stack is empty after it was serialized;
   exceptions of constructors.  A tag found for the metadata of an attribute is
   kept by the instance in Python and forgotten here: the next serialization
   of that same instance infers it again. *)
From Verif Require Import Base Lit NumModel TextModel Utf8Model MsgModel XmlModel.

(* ---- values ---- *)
Inductive value :=
| VNone | VBool (b : bool) | VInt (z : Z) | VFloat (text : list N) | VStr (s : list N)
| VBytes (b : bytes) | VGuid (g : guid)
| VList (l : list value)
| VTuple (l : list (value * value))          (* a tuple of pairs, taken for a dictionary *)
| VDict (d : list (value * value))
| VQueue (l : list value)
| VObj (n : nat)                             (* an instance of a ComplexObject class, by identity *)
| VTagged (tag : list N) (v : value)         (* serializer.py:871-878 *)
| VXml (x : xml).                            (* an ET.Element *)

(* The metadata classes: complex_objects.py:10-95.  [object] is the name of a
   class. *)
Inductive meta := Meta (k : mkind) (tag : list N) (name : option (list N)) (optional : bool) (object : option (list N))
with mkind :=
| KPlain
| KList (entry : meta) (types : list (list N))
| KStack (entry : meta) (types : list (list N))
| KQueue (entry : meta) (types : list (list N))
| KDict (key entry : meta) (types : list (list N)).

Definition m_kind (m : meta) : mkind := let '(Meta k _ _ _ _) := m in k.
Definition m_tag (m : meta) : list N := let '(Meta _ t _ _ _) := m in t.
Definition m_name (m : meta) : option (list N) := let '(Meta _ _ n _ _) := m in n.
Definition m_optional (m : meta) : bool := let '(Meta _ _ _ o _) := m in o.
Definition m_object (m : meta) : option (list N) := let '(Meta _ _ _ _ c) := m in c.
Definition set_tag (t : list N) (m : meta) : meta := let '(Meta k _ n o c) := m in Meta k t n o c.
Definition set_kind (k : mkind) (m : meta) : meta := let '(Meta _ t n o c) := m in Meta k t n o c.

Definition object_meta (tag : list N) (name : option (list N)) : meta := Meta KPlain tag name false None.
Definition star : list N := lit "*".
Definition any_meta : meta := object_meta star None.
Definition list_meta (name : option (list N)) (optional : bool) (entry : meta) : meta :=
  Meta (KList entry [lit "System.Object[]"; lit "System.Array"; lit "System.Object"]) (lit "LST") name optional None.
Definition stack_meta (name : option (list N)) (optional : bool) : meta :=
  Meta (KStack any_meta [lit "System.Collections.Stack"; lit "System.Object"]) (lit "STK") name optional None.
Definition queue_meta (name : option (list N)) (optional : bool) : meta :=
  Meta (KQueue any_meta [lit "System.Collections.Queue"; lit "System.Object"]) (lit "QUE") name optional None.
Definition dict_meta (name : option (list N)) (optional : bool) : meta :=
  Meta (KDict (object_meta star (Some (lit "Key"))) (object_meta star (Some (lit "Value")))
              [lit "System.Collections.Hashtable"; lit "System.Object"])
       (lit "DCT") name optional None.

(* The instances: generic objects (complex_objects.py:111-122) and instances of
   the other classes, with their attributes. *)
Record gobj := mkG {
  g_types : list (list N); g_text : value; g_sets : list value;
  g_adapted : list (list N * value); g_extended : list (list N * value) }.
Inductive hobj := HGen (g : gobj) | HCls (c : list N) (attrs : list (list N * value)).
Definition empty_gobj : gobj := mkG [] VNone [] [] [].

(* What a class says about its instances: complex_objects.py:97-108, 125-153.
   [cd_text] is the attribute _to_string, which enumerations compute. *)
Record cdesc := mkCD {
  cd_types : list (list N);
  cd_text : list (list N * value) -> res value;
  cd_sets : list (list N * meta);
  cd_adapted : list (list N * meta);
  cd_extended : list (list N * meta);
  cd_init : list (list N * value) }.

(* serializer.py:110-147, the keys of the table *)
Definition known_tags : list (list N) :=
  map lit ["S"; "ToString"; "C"; "B"; "DT"; "TS"; "By"; "SB"; "U16"; "I16"; "U32"; "I32"; "U64"; "I64";
           "Sg"; "Db"; "D"; "BA"; "G"; "URI"; "Version"; "XD"; "SBK"; "SS";
           "Obj"; "ObjDynamic"; "LST"; "IE"; "QUE"; "STK"; "DCT"]%string.
Definition tag_in (t : list N) (l : list String.string) : bool := existsb (fun s => str_eqb t (lit s)) l.

(* serializer.py:371-407 *)
Definition tag_of_value (heap : list hobj) (v : value) : list N :=
  match v with
  | VInt _ => lit "I32"
  | VBool _ => lit "B"
  | VFloat _ => lit "Sg"
  | VStr _ => lit "S"
  | VBytes _ => lit "BA"
  | VGuid _ => lit "G"
  | VList _ => lit "LST"
  | VDict _ => lit "DCT"
  | VQueue _ => lit "QUE"
  | VObj n => match nth_error heap n with Some (HGen _) => lit "ObjDynamic" | _ => lit "Obj" end
  | _ => lit "S"
  end.

Definition refid : list N := lit "RefId".
Definition opt_list {A} (o : option A) : list A := match o with Some a => [a] | None => [] end.
(* element.attrib["N"] = name *)
Definition set_attr (k v : list N) (x : xml) : xml :=
  let '(Elem t a s c) := x in Elem t (dict_set str_eqb k v a) s c.
Definition named (m : meta) (x : xml) : xml :=
  match m_name m with Some n => set_attr (lit "N") n x | None => x end.

(* the order of sort() on str *)
Fixpoint str_leb (a b : list N) : bool :=
  match a, b with
  | [], _ => true
  | _ :: _, [] => false
  | x :: a', y :: b' => if N.eqb x y then str_leb a' b' else N.ltb x y
  end.
Fixpoint insert_key {A} (e : list N * A) (l : list (list N * A)) : list (list N * A) :=
  match l with
  | [] => [e]
  | f :: l' => if str_leb (fst e) (fst f) then e :: l else f :: insert_key e l'
  end.
Definition sort_keys {A} (l : list (list N * A)) : list (list N * A) := fold_right insert_key [] l.

(* ---- the state of the serializer, as serialize uses it ---- *)
Record sst := mkSst { s_id : N; s_objs : list (N * nat); s_tnid : N; s_tn : list (list N * N) }.
Definition clear_sst : sst := mkSst 0 [] 0 [].

(* ---- and as deserialize uses it, with the instances made ---- *)
Record dst := mkDst { d_obj : list (list N * value); d_tn : list (list N * list (list N)); d_heap : list hobj }.
Definition clear_dst (heap : list hobj) : dst := mkDst [] [] heap.
Definition set_d_obj v s := mkDst v (d_tn s) (d_heap s).
Definition set_d_tn v s := mkDst (d_obj s) v (d_heap s).
Definition set_d_heap v s := mkDst (d_obj s) (d_tn s) v.

(* dictionary keys: equality of Python on what can be a key.  Simplified: a float
   never equals an integer here. *)
Definition key_eqb (a b : value) : bool :=
  match a, b with
  | VNone, VNone => true
  | VBool x, VBool y => Bool.eqb x y
  | VBool x, VInt z | VInt z, VBool x => Z.eqb z (if x then 1 else 0)%Z
  | VInt x, VInt y => Z.eqb x y
  | VFloat x, VFloat y => str_eqb x y
  | VStr x, VStr y => str_eqb x y
  | VBytes x, VBytes y => str_eqb x y
  | VGuid x, VGuid y => str_eqb x y
  | VObj x, VObj y => Nat.eqb x y
  | _, _ => false
  end.
Definition hashable (v : value) : bool := match v with VList _ | VDict _ => false | _ => true end.

(* ---- the table of known types: serializer.py:230-303.  Class names are those
   of the Python classes. ---- *)
Definition class_meta (c : list N) : meta := Meta KPlain (lit "Obj") None false (Some c).
Definition generic_name : list N := lit "GenericComplexObject".
Definition generic_meta : meta := Meta KPlain (lit "ObjDynamic") None false (Some generic_name).
Definition structures : list (list N * meta) :=
  let cls n c := (lit n, class_meta (lit c)) in
  let prim n t := (lit n, object_meta (lit t) None) in
  [cls "Selected.Microsoft.PowerShell.Commands.GenericMeasureInfo" "CommandMetadataCount";
   (lit "System.Array", list_meta None false any_meta);
   (lit "System.Collections.ArrayList", list_meta None false any_meta);
   (lit "System.Collections.Hashtable", dict_meta None false);
   (lit "System.Collections.Generic.List", list_meta None false any_meta);
   (lit "System.Collections.Queue", queue_meta None false);
   (lit "System.Collections.Stack", stack_meta None false);
   cls "System.ConsoleColor" "Color";
   cls "System.Management.Automation.CommandOrigin" "CommandOrigin";
   cls "System.Management.Automation.DebugRecord" "DebugRecord";
   cls "System.Management.Automation.ErrorRecord" "ErrorRecordMessage";
   cls "System.Management.Automation.Host.Coordinates" "Coordinates";
   cls "System.Management.Automation.Host.KeyInfo" "KeyInfoDotNet";
   cls "System.Management.Automation.Host.Size" "Size";
   cls "System.Management.Automation.InformationalRecord" "InformationalRecord";
   cls "System.Management.Automation.InformationRecord" "InformationRecord";
   cls "System.Management.Automation.ParameterMetadata" "ParameterMetadata";
   cls "System.Management.Automation.ProgressRecordType" "ProgressRecordType";
   (lit "System.Management.Automation.PSBoundParametersDictionary", dict_meta None false);
   cls "System.Management.Automation.PSCredential" "PSCredential";
   (lit "System.Management.Automation.PSObject", generic_meta);
   (lit "System.Management.Automation.PSPrimitiveDictionary", dict_meta None false);
   prim "System.Management.Automation.PSTypeName" "S";
   cls "System.Management.Automation.Remoting.RemoteHostMethodId" "HostMethodIdentifier";
   cls "System.Management.Automation.Runspaces.ApartmentState" "ApartmentState";
   cls "System.Management.Automation.Runspaces.PipelineResultTypes" "PipelineResultTypes";
   cls "System.Management.Automation.Runspaces.PSThreadOptions" "PSThreadOptions";
   cls "System.Management.Automation.Runspaces.RemoteStreamOptions" "RemoteStreamOptions";
   cls "System.Management.Automation.SessionStateEntryVisibility" "SessionStateEntryVisibility";
   cls "System.Management.Automation.VerboseRecord" "VerboseRecord";
   cls "System.Management.Automation.WarningRecord" "WarningRecord";
   cls "System.Globalization.CultureInfo" "CultureInfo";
   (lit "System.Object", generic_meta);
   prim "System.String" "S"; prim "System.Char" "C"; prim "System.Boolean" "B"; prim "System.DateTime" "DT";
   prim "System.Byte" "By"; prim "System.SByte" "SB"; prim "System.UInt16" "U16"; prim "System.Int16" "I16";
   prim "System.UInt32" "U32"; prim "System.Int32" "I32"; prim "System.UInt64" "U64"; prim "System.Int64" "I64";
   prim "System.Single" "Sg"; prim "System.Double" "Db"; prim "System.Decimal" "D"; prim "System.Guid" "G";
   prim "System.Uri" "URI"; prim "System.Version" "Version"; prim "System.Xml.XmlDocument" "XD";
   prim "System.Management.Automation.ScriptBlock" "SBK"; prim "System.Security.SecureString" "SS"]%string.

(* text.split(",")[0] *)
Definition before_comma (s : list N) : list N := match split_on 44 s with p :: _ => p | [] => [] end.
(* len(text.split("],[")) > 1 *)
Fixpoint has_sub (p s : list N) : bool :=
  (starts_with p s || match s with [] => false | _ :: s' => has_sub p s' end)%bool.

(* The loop of serializer.py:309-345 *)
Fixpoint choose (types : list (list N)) : res (option meta) :=
  match types with
  | [] => Ok None
  | t :: types' =>
      let t := if starts_with (lit "Deserialized.System.") t then skipn 13 t else t in
      let found (t : list N) (is_list : bool) :=
        match dict_get str_eqb t structures with
        | Some m => Ok (Some (if is_list then list_meta None false m else m))
        | None => choose types'
        end in
      if ends_with (lit "[]") t then found (py_slice t 0 (-2)) true
      else if starts_with (lit "System.Collections.Generic.List`1[[") t
        then found (before_comma (py_slice t 35 (-1))) true
      else if starts_with (lit "System.Collections.ObjectModel.Collection`1[[") t
        then found (before_comma (py_slice t 45 (-1))) true
      else if starts_with (lit "System.Collections.ObjectModel.ReadOnlyCollection`1[[") t
        then found (before_comma (py_slice t 53 (-1))) true
      else if starts_with (lit "System.Collections.Generic.Dictionary`2[[") t
        then if has_sub (lit "],[") (py_slice t 41 (-2)) then Ok (Some (dict_meta None false)) else Err IndexError
      else found t false
  end.

Section Serializer.
  (* the cipher; str() of a value that is not one of those below; ET.tostring of
     an element; float(text) as the text of str(); the classes by name *)
  Context (ci : option cipher) (show : value -> list N) (xml_text : xml -> list N)
          (float_of : list N -> res (list N)) (classes : list N -> option cdesc).

  (* ================= serialize ================= *)

  (* to_unicode(value): _utils.py:26-43 *)
  Definition unicode_of (v : value) : res (list N) :=
    match v with
    | VNone => Ok (lit "None")
    | VStr s => Ok s
    | VBytes b => utf8_decode b
    | _ => Err AttributeError
    end.
  (* str(value) *)
  Definition str_of (v : value) : list N :=
    match v with
    | VNone => lit "None"
    | VBool true => lit "True"
    | VBool false => lit "False"
    | VInt z => py_str z
    | VFloat t => t
    | VStr s => s
    | VGuid g => guid_str g
    | _ => show v
    end.
  (* text.lower(), of texts that become ASCII by it *)
  Definition ascii_lower (s : list N) : list N := map (fun c => if (N.leb 65 c && N.leb c 90)%bool then (c + 32)%N else c) s.

  (* The functions of serializer.py:110-140 that give text: None when the tag is
     one of the structures.  "ToString" has a function of one argument that is
     called with two; that of "DT" gives None, which is no element: the name
     cannot be set on it and it cannot be appended.  (Simplified: without name
     and parent None is the result.) *)
  Definition pack_text (m : meta) (tag : list N) (v : value) : option (res (list N)) :=
    if tag_in tag ["S"; "URI"; "XD"; "SBK"]%string then Some (do s <- unicode_of v; Ok (serialize_string s))
    else if str_eqb tag (lit "ToString") then Some (Err TypeError)
    else if str_eqb tag (lit "C") then
      Some (match v with VStr [c] => Ok (dec c) | _ => Err TypeError end)
    else if str_eqb tag (lit "B") then Some (Ok (ascii_lower (str_of v)))
    else if str_eqb tag (lit "DT") then
      Some (Err (match m_name m with Some _ => AttributeError | None => TypeError end))
    else if str_eqb tag (lit "BA") then
      Some (match v with VBytes b => Ok (b64encode b) | _ => Err TypeError end)
    else if str_eqb tag (lit "SS") then
      Some (match v with
            | VStr s => serialize_secure_string ci s
            | VBytes b => match ci with
                          | None => Err SerializationError
                          | Some c => Ok (b64encode (ci_enc c (pkcs7_pad (ci_block c) b)))
                          end
            | _ => match ci with None => Err SerializationError | Some _ => Err AttributeError end
            end)
    else if tag_in tag ["TS"; "By"; "SB"; "U16"; "I16"; "U32"; "I32"; "U64"; "I64"; "Sg"; "Db"; "D"; "G"; "Version"]%string
      then Some (Ok (str_of v))
    else None.

  (* serializer.py:805-814 and ET.Element("Obj", RefId=...) *)
  Definition take_id (st : sst) : N * sst := (s_id st, mkSst (s_id st + 1) (s_objs st) (s_tnid st) (s_tn st)).
  Definition register (id : N) (n : nat) (st : sst) : sst :=
    mkSst (s_id st) (dict_set N.eqb id n (s_objs st)) (s_tnid st) (s_tn st).
  Definition obj_elem (id : N) (children : list xml) : xml := Elem (lit "Obj") [(refid, dec id)] None children.

  (* serializer.py:833-849 *)
  Definition create_tn (types : list (list N)) (st : sst) : res (xml * sst) :=
    match types with
    | [] => Err IndexError
    | main :: _ =>
        match dict_get str_eqb main (s_tn st) with
        | None =>
            Ok (Elem (lit "TN") [(refid, dec (s_tnid st))] None (map (fun t => Elem (lit "T") [] (Some t) []) types),
                mkSst (s_id st) (s_objs st) (s_tnid st + 1) (dict_set str_eqb main (s_tnid st) (s_tn st)))
        | Some id => Ok (Elem (lit "TNRef") [(refid, dec id)] None [], st)
        end
    end.
  Definition create_tn_if (types : list (list N)) (st : sst) : res (list xml * sst) :=
    match types with
    | [] => Ok ([], st)
    | _ => do '(x, st1) <- create_tn types st; Ok ([x], st1)
    end.
  (* ET.SubElement(obj, "ToString").text, when there is one *)
  Definition to_string_elem (v : value) : res (list xml) :=
    match v with
    | VNone => Ok []
    | _ => do s <- unicode_of v; Ok [Elem (lit "ToString") [] (Some (serialize_string s)) []]
    end.

  (* for ref, value in self.obj.items(): if value == obj *)
  Fixpoint find_ref (n : nat) (objs : list (N * nat)) : option N :=
    match objs with
    | [] => None
    | (id, k) :: objs' => if Nat.eqb n k then Some id else find_ref n objs'
    end.

  Section Ser.
    Context (heap : list hobj).
    (* serialize(value, metadata, parent, clear=False): the element that was
       appended, if any, the metadata afterwards and the state *)
    Context (rec : value -> meta -> sst -> res (option xml * meta * sst)).

    (* serializer.py:851-868 *)
    Definition create_obj (v : value) (key : option (list N)) (m : option meta) (st : sst) : res (list xml * sst) :=
      match match v with VObj n => find_ref n (s_objs st) | _ => None end with
      | Some id =>
          let x := Elem (lit "Ref") [(refid, dec id)] None [] in
          Ok ([match key with Some k => set_attr (lit "N") k x | None => x end], st)
      | None =>
          do '(x, _, st1) <- rec v (match m with Some m => m | None => object_meta star key end) st;
          Ok (opt_list x, st1)
      end.
    (* for attr, property_meta in properties *)
    Fixpoint ser_attrs (attrs : list (list N * value)) (props : list (list N * meta)) (st : sst) : res (list xml * sst) :=
      match props with
      | [] => Ok ([], st)
      | (a, m) :: props' =>
          match dict_get str_eqb a attrs with
          | None => Err AttributeError
          | Some v =>
              do '(xs, st1) <- create_obj v None (Some m) st;
              do '(ys, st2) <- ser_attrs attrs props' st1;
              Ok (xs ++ ys, st2)
          end
      end.
    Definition ser_group (parent : list N) (attrs : list (list N * value)) (props : list (list N * meta)) (st : sst) : res (list xml * sst) :=
      match props with
      | [] => Ok ([], st)
      | _ => do '(xs, st1) <- ser_attrs attrs props st; Ok ([Elem parent [] None xs], st1)
      end.
    (* serializer.py:409-438; a generic object has no types, text and
       properties of that kind *)
    Definition ser_obj (v : value) (st : sst) : res (xml * sst) :=
      let '(id, st0) := take_id st in
      match v with
      | VObj n =>
          match nth_error heap n with
          | Some (HCls c attrs) =>
              match classes c with
              | None => Err AttributeError
              | Some d =>
                  do '(tn, st1) <- create_tn_if (cd_types d) st0;
                  do t <- cd_text d attrs;
                  do ts <- to_string_elem t;
                  do '(sets, st2) <- ser_attrs attrs (cd_sets d) st1;
                  do '(ms, st3) <- ser_group (lit "MS") attrs (cd_extended d) st2;
                  do '(ps, st4) <- ser_group (lit "Props") attrs (cd_adapted d) st3;
                  Ok (obj_elem id (tn ++ ts ++ sets ++ ms ++ ps), st4)
              end
          | Some (HGen _) => Ok (obj_elem id [], st0)
          | None => Err AttributeError
          end
      | _ => Err AttributeError
      end.

    Fixpoint ser_values (vs : list value) (st : sst) : res (list xml * sst) :=
      match vs with
      | [] => Ok ([], st)
      | v :: vs' =>
          do '(xs, st1) <- create_obj v None None st;
          do '(ys, st2) <- ser_values vs' st1;
          Ok (xs ++ ys, st2)
      end.
    Fixpoint ser_named (ps : list (list N * value)) (st : sst) : res (list xml * sst) :=
      match ps with
      | [] => Ok ([], st)
      | (k, v) :: ps' =>
          do '(xs, st1) <- create_obj v (Some k) None st;
          do '(ys, st2) <- ser_named ps' st1;
          Ok (xs ++ ys, st2)
      end.
    Definition ser_props (parent : list N) (ps : list (list N * value)) (st : sst) : res (list xml * sst) :=
      match ps with
      | [] => Ok ([], st)
      | _ => do '(xs, st1) <- ser_named (sort_keys ps) st; Ok ([Elem parent [] None xs], st1)
      end.
    (* serializer.py:440-471 *)
    Definition ser_dynamic (v : value) (st : sst) : res (xml * sst) :=
      let '(id, st0) := take_id st in
      match v with
      | VObj n =>
          match nth_error heap n with
          | Some (HGen g) =>
              do '(tn, st1) <- create_tn_if (g_types g) (register id n st0);
              do ts <- to_string_elem (g_text g);
              do '(sets, st2) <- ser_values (g_sets g) st1;
              do '(ms, st3) <- ser_props (lit "MS") (g_extended g) st2;
              do '(ps, st4) <- ser_props (lit "Props") (g_adapted g) st3;
              Ok (obj_elem id (tn ++ ts ++ sets ++ ms ++ ps), st4)
          | _ => Err AttributeError
          end
      | _ => Err AttributeError
      end.

    (* The entries of a list.  [copied]: whether each gets a shallow copy of the
       metadata, which still shares the metadata inside it. *)
    Fixpoint ser_entries (copied : bool) (m : meta) (vs : list value) (st : sst) : res (list xml * meta * sst) :=
      match vs with
      | [] => Ok ([], m, st)
      | v :: vs' =>
          do '(x, m1, st1) <- rec v m st;
          do '(xs, m2, st2) <- ser_entries copied (if copied then set_kind (m_kind m1) m else m1) vs' st1;
          Ok (opt_list x ++ xs, m2, st2)
      end.
    (* iter(values) *)
    Definition iterate (v : value) : res (list value) :=
      match v with
      | VList l => Ok l
      | VDict d => Ok (map fst d)
      | VStr s => Ok (map (fun c => VStr [c]) s)
      | VBytes b => Ok (map (fun c => VInt (Z.of_N c)) b)
      | VTuple l => Err OtherError          (* its members are pairs, which are no values here *)
      | _ => Err TypeError
      end.
    Definition with_entry (e : meta) (m : meta) : meta :=
      match m_kind m with
      | KList _ ts => set_kind (KList e ts) m
      | KStack _ ts => set_kind (KStack e ts) m
      | KQueue _ ts => set_kind (KQueue e ts) m
      | _ => m
      end.
    (* list_value_meta and list_types of a ListMeta *)
    Definition list_info (m : meta) : option (meta * list (list N)) :=
      match m_kind m with
      | KList e ts | KStack e ts | KQueue e ts => Some (e, ts)
      | _ => None
      end.
    (* an Obj with its types and one child that holds the entries *)
    Definition ser_list (tag : list N) (copied : bool) (info : meta * list (list N)) (vs : list value) (st : sst)
      : res (xml * meta * sst) :=
      let '(id, st0) := take_id st in
      do '(tn, st1) <- create_tn (snd info) st0;
      do '(xs, e, st2) <- ser_entries copied (fst info) vs st1;
      Ok (obj_elem id [tn; Elem tag [] None xs], e, st2).
    (* serializer.py:511-535 *)
    Definition ser_lst (tag : list N) (m : meta) (v : value) (st : sst) : res (xml * meta * sst) :=
      do vs <- iterate v;
      match list_info m with
      | Some i => do '(x, e, st1) <- ser_list tag true i vs st; Ok (x, with_entry e m, st1)
      | None => do '(x, _, st1) <- ser_list tag true (any_meta, [lit "System.Object[]"; lit "System.Array"; lit "System.Object"]) vs st;
                Ok (x, m, st1)
      end.
    (* serializer.py:473-491 *)
    Definition ser_que (m : meta) (v : value) (st : sst) : res (xml * meta * sst) :=
      match v with
      | VQueue vs =>
          match m_kind m with
          | KQueue e ts => do '(x, e', st1) <- ser_list (lit "QUE") false (e, ts) vs st; Ok (x, with_entry e' m, st1)
          | _ => do '(x, _, st1) <- ser_list (lit "QUE") false (any_meta, [lit "System.Collections.Queue"; lit "System.Object"]) vs st;
                 Ok (x, m, st1)
          end
      | _ => Err AttributeError
      end.
    (* serializer.py:493-509: the last value is taken first.  Simplified: an
       IndexError raised while an entry is serialized ends the loop in Python
       and is raised here. *)
    Definition ser_stk (m : meta) (v : value) (st : sst) : res (xml * meta * sst) :=
      match list_info m with
      | None => Err AttributeError
      | Some i =>
          match v with
          | VList vs => do '(x, e, st1) <- ser_list (lit "STK") false i (rev vs) st; Ok (x, with_entry e m, st1)
          | VDict _ => Err TypeError
          | _ => Err AttributeError
          end
      end.
    Fixpoint ser_pairs (km vm : meta) (d : list (value * value)) (st : sst) : res (list xml * meta * meta * sst) :=
      match d with
      | [] => Ok ([], km, vm, st)
      | (k, v) :: d' =>
          do '(x, km1, st1) <- rec k km st;
          do '(y, vm1, st2) <- rec v vm st1;
          do '(xs, km2, vm2, st3) <- ser_pairs (set_kind (m_kind km1) km) (set_kind (m_kind vm1) vm) d' st2;
          Ok (Elem (lit "En") [] None (opt_list x ++ opt_list y) :: xs, km2, vm2, st3)
      end.
    (* serializer.py:537-566 *)
    Definition ser_dct (m : meta) (v : value) (st : sst) : res (xml * meta * sst) :=
      let '(km, vm, ts) := match m_kind m with
        | KDict km vm ts => (km, vm, ts)
        | _ => (object_meta star (Some (lit "Key")), object_meta star (Some (lit "Value")),
                [lit "System.Collections.Hashtable"; lit "System.Object"])
        end in
      let '(id, st0) := take_id st in
      do d <- match v with VDict d | VTuple d => Ok d | _ => Err AttributeError end;
      do '(tn, st1) <- create_tn ts st0;
      do '(xs, km', vm', st2) <- ser_pairs km vm d st1;
      Ok (obj_elem id [tn; Elem (lit "DCT") [] None xs],
          match m_kind m with KDict _ _ ts => set_kind (KDict km' vm' ts) m | _ => m end, st2).

    (* pack_function(metadata, value) for the structures *)
    Definition pack_struct (tag : list N) (m : meta) (v : value) (st : sst) : res (xml * meta * sst) :=
      if str_eqb tag (lit "Obj") then do '(x, st1) <- ser_obj v st; Ok (x, m, st1)
      else if str_eqb tag (lit "ObjDynamic") then do '(x, st1) <- ser_dynamic v st; Ok (x, m, st1)
      else if str_eqb tag (lit "LST") then ser_lst (lit "LST") m v st
      else if str_eqb tag (lit "IE") then ser_lst (lit "IE") m v st
      else if str_eqb tag (lit "QUE") then ser_que m v st
      else if str_eqb tag (lit "STK") then ser_stk m v st
      else if str_eqb tag (lit "DCT") then ser_dct m v st
      else Err KeyError.
  End Ser.

  (* serialize: serializer.py:72-166, after the clearing.  A value that contains
     itself through a list never ends: [OutOfFuel]. *)
  Fixpoint ser (heap : list hobj) (fuel : nat) (v : value) (m : meta) (st : sst) : res (option xml * meta * sst) :=
    match fuel with
    | O => Err OutOfFuel
    | S fuel' =>
        match v with
        | VXml x => Ok (Some (named m x), m, st)
        | _ =>
            let '(tag, v1) :=
              if str_eqb (m_tag m) star
              then match v with VTagged t w => (t, w) | _ => (tag_of_value heap v, v) end
              else (m_tag m, v) in
            let m1 := set_tag tag m in
            if negb (existsb (str_eqb tag) known_tags) then Err KeyError
            else match v1 with
            | VNone => if m_optional m then Ok (None, m1, st) else Ok (Some (named m (Elem (lit "Nil") [] None [])), m1, st)
            | _ =>
                match pack_text m1 tag v1 with
                | Some r => do s <- r; Ok (Some (named m (Elem tag [] (Some s) [])), m1, st)
                | None => do '(x, m2, st1) <- pack_struct heap (ser heap fuel') tag m1 v1 st; Ok (Some (named m x), m2, st1)
                end
            end
        end
    end.
  Definition serialize (heap : list hobj) (fuel : nat) (v : value) (m : meta) : res (option xml) :=
    do '(x, _, _) <- ser heap fuel v m clear_sst; Ok x.

  (* ================= deserialize ================= *)

  Definition text_or_empty (t : option (list N)) : list N := match t with Some s => s | None => [] end.
  Definition attrib (k : list N) (x : xml) : res (list N) :=
    match attr_get k x with Some v => Ok v | None => Err KeyError end.
  Definition tn_get (id : list N) (st : dst) : res (list (list N)) :=
    match dict_get str_eqb id (d_tn st) with Some t => Ok t | None => Err KeyError end.
  Definition tn_put (id : list N) (types : list (list N)) (st : dst) : dst :=
    set_d_tn (dict_set str_eqb id types (d_tn st)) st.
  Definition obj_put (id : list N) (v : value) (st : dst) : dst := set_d_obj (dict_set str_eqb id v (d_obj st)) st.
  Definition child (tag : list N) (x : xml) : option xml := find_first [tag] x.

  (* serializer.py:816-831 *)
  Definition get_types (x : xml) (st : dst) : res (list (list N) * dst) :=
    let ts := map (fun e => text_or_empty (x_text e)) (find_all [lit "TN"; lit "T"] x) in
    do st1 <- match ts, child (lit "TN") x with
              | _ :: _, Some tn => do id <- attrib refid tn; Ok (tn_put id ts st)
              | _, _ => Ok st
              end;
    match child (lit "TNRef") x with
    | Some r => do id <- attrib refid r; do ts' <- tn_get id st1; Ok (ts', st1)
    | None => Ok (ts, st1)
    end.

  (* int(text), chr(int(text)) *)
  Definition int_of (t : option (list N)) : res Z := match t with Some s => py_int s | None => Err TypeError end.
  Definition char_of (t : option (list N)) : res value :=
    do z <- int_of t;
    if (Z.leb 0 z && Z.ltb z 1114112)%bool then Ok (VStr [Z.to_N z]) else Err ValueError.
  Definition text_value (t : option (list N)) : value := match t with Some s => VStr s | None => VNone end.

  (* serializer.py:197-228: the elements that are no structures *)
  Definition primitive (x : xml) (st : dst) : option (res value) :=
    let t := x_tag x in
    if tag_in t ["S"; "ToString"; "URI"; "XD"; "SBK"]%string then Some (do s <- deserialize_string (x_text x); Ok (VStr s))
    else if str_eqb t (lit "C") then Some (char_of (x_text x))
    else if str_eqb t (lit "B") then
      Some (match x_text x with Some s => Ok (VBool (str_eqb (ascii_lower s) (lit "true"))) | None => Err AttributeError end)
    else if tag_in t ["DT"; "TS"; "D"; "Version"]%string then Some (Ok (text_value (x_text x)))
    else if tag_in t ["By"; "SB"; "U16"; "I16"; "U32"; "I32"; "U64"; "I64"]%string then Some (do z <- int_of (x_text x); Ok (VInt z))
    else if tag_in t ["Sg"; "Db"]%string then
      Some (match x_text x with Some s => do f <- float_of s; Ok (VFloat f) | None => Err TypeError end)
    else if str_eqb t (lit "BA") then
      Some (match x_text x with Some s => do b <- b64decode s; Ok (VBytes b) | None => Err TypeError end)
    else if str_eqb t (lit "G") then
      Some (match x_text x with Some s => do g <- guid_parse s; Ok (VGuid g) | None => Err TypeError end)
    else if str_eqb t (lit "Nil") then Some (Ok VNone)
    else if str_eqb t (lit "SS") then
      Some (do r <- deserialize_secure_string ci (x_text x);
            Ok (match r with RawElement _ => VXml x | Plain s => VStr s end))
    else if str_eqb t (lit "Ref") then
      Some (do id <- attrib refid x; match dict_get str_eqb id (d_obj st) with Some v => Ok v | None => Err KeyError end)
    else None.

  Definition new_obj (h : hobj) (st : dst) : nat * dst := (length (d_heap st), set_d_heap (d_heap st ++ [h]) st).
  Fixpoint upd_nth {A} (n : nat) (f : A -> A) (l : list A) : list A :=
    match l, n with
    | [], _ => []
    | a :: l', O => f a :: l'
    | a :: l', S n' => a :: upd_nth n' f l'
    end.
  Definition upd_obj (n : nat) (f : hobj -> hobj) (st : dst) : dst := set_d_heap (upd_nth n f (d_heap st)) st.
  (* setattr; property setters of the classes are not run *)
  Definition set_field (a : list N) (v : value) (h : hobj) : hobj :=
    match h with HCls c attrs => HCls c (dict_set str_eqb a v attrs) | HGen _ => h end.
  Definition on_gen (f : gobj -> gobj) (h : hobj) : hobj := match h with HGen g => HGen (f g) | HCls _ _ => h end.
  Definition attrs_of (n : nat) (st : dst) : list (list N * value) :=
    match nth_error (d_heap st) n with Some (HCls _ a) => a | _ => [] end.

  (* element.find("%s%s[@N='%s']"): the first child of [parents] with the tag and
     the name; names have no quotes *)
  Definition matches (tag : list N) (name : option (list N)) (x : xml) : bool :=
    ((str_eqb tag star || str_eqb (x_tag x) tag) &&
     match name with
     | None => true
     | Some n => match attr_get (lit "N") x with Some v => str_eqb v n | None => false end
     end)%bool.
  Definition find_in (group : list (list N)) (tag : list N) (name : option (list N)) (x : xml) : option xml :=
    find (matches tag name) (flat_map x_children (find_all group x)).

  Section Des.
    Context (rec : xml -> meta -> dst -> res (value * meta * dst)).

    (* serializer.py:627-659.  The name of the object in the message is computed
       from _to_string, which may raise. *)
    Definition wanted_tags (m : meta) : list (list N) :=
      if tag_in (m_tag m) ["DCT"; "LST"; "IE"; "QUE"; "STK"; "ObjDynamic"]%string then [lit "Obj"; lit "Ref"] else [m_tag m].
    Definition find_property (group : list (list N)) (m : meta) (x : xml) : option xml :=
      fold_left (fun r t => match r with Some _ => r | None => find_in group t (m_name m) x end) (wanted_tags m) None.
    Definition des_property (d : cdesc) (group : list (list N)) (x : xml) (n : nat) (a : list N) (m : meta) (st : dst) : res dst :=
      match find_property group m x with
      | Some e => do '(v, _, st1) <- rec e m st; Ok (upd_obj n (set_field a v) st1)
      | None =>
          if m_optional m then Ok (upd_obj n (set_field a VNone) st)
          else match find_in group (lit "Nil") (m_name m) x with
               | Some _ => Ok (upd_obj n (set_field a VNone) st)
               | None => match cd_text d (attrs_of n st) with
                         | Err e => Err e
                         | Ok t => Err SerializationError
                         end
               end
      end.
    Fixpoint des_properties (d : cdesc) (group : list (list N)) (x : xml) (n : nat) (props : list (list N * meta)) (st : dst) : res dst :=
      match props with
      | [] => Ok st
      | (a, m) :: props' => do st1 <- des_property d group x n a m st; des_properties d group x n props' st1
      end.
    (* serializer.py:613-665 *)
    Definition des_obj (x : xml) (m : meta) (st : dst) : res (value * dst) :=
      match match m_object m with Some c => match classes c with Some d => Some (c, d) | None => None end | None => None end with
      | None => Err TypeError
      | Some (c, d) =>
          let '(n, st1) := new_obj (HCls c (cd_init d)) st in
          do id <- attrib refid x;
          let st2 := obj_put id (VObj n) st1 in
          do st3 <- match child (lit "ToString") x with
                    | Some t => do s <- deserialize_string (x_text t); Ok (upd_obj n (set_field (lit "_to_string") (VStr s)) st2)
                    | None => Ok st2
                    end;
          do st4 <- des_properties d [] x n (cd_sets d) st3;
          do st5 <- des_properties d [lit "Props"] x n (cd_adapted d) st4;
          do st6 <- des_properties d [lit "MS"] x n (cd_extended d) st5;
          Ok (VObj n, st6)
      end.

    Fixpoint des_named (xs : list xml) (put : list N -> value -> dst -> dst) (st : dst) : res dst :=
      match xs with
      | [] => Ok st
      | x :: xs' =>
          do k <- attrib (lit "N") x;
          do '(v, _, st1) <- rec x any_meta st;
          des_named xs' put (put k v st1)
      end.
    (* the type names of an object are one list with what the table holds; they
       are not changed afterwards *)
    Fixpoint des_children (n : nat) (xs : list xml) (st : dst) : res dst :=
      match xs with
      | [] => Ok st
      | x :: xs' =>
          do st1 <-
            (if str_eqb (x_tag x) (lit "TN") then
               let ts := map (fun e => text_or_empty (x_text e)) (x_children x) in
               let old := match nth_error (d_heap st) n with Some (HGen g) => g_types g | _ => [] end in
               do id <- attrib refid x;
               Ok (tn_put id (old ++ ts)
                     (upd_obj n (on_gen (fun g => mkG (old ++ ts) (g_text g) (g_sets g) (g_adapted g) (g_extended g))) st))
             else if str_eqb (x_tag x) (lit "TNRef") then
               do id <- attrib refid x;
               do ts <- tn_get id st;
               Ok (upd_obj n (on_gen (fun g => mkG ts (g_text g) (g_sets g) (g_adapted g) (g_extended g))) st)
             else if str_eqb (x_tag x) (lit "Props") then
               des_named (x_children x)
                 (fun k v => upd_obj n (on_gen (fun g =>
                    mkG (g_types g) (g_text g) (g_sets g) (dict_set str_eqb k v (g_adapted g)) (g_extended g)))) st
             else if str_eqb (x_tag x) (lit "MS") then
               des_named (x_children x)
                 (fun k v => upd_obj n (on_gen (fun g =>
                    mkG (g_types g) (g_text g) (g_sets g) (g_adapted g) (dict_set str_eqb k v (g_extended g))))) st
             else if str_eqb (x_tag x) (lit "ToString") then
               do '(v, _, st1) <- rec x any_meta st;
               Ok (upd_obj n (on_gen (fun g => mkG (g_types g) v (g_sets g) (g_adapted g) (g_extended g))) st1)
             else
               do '(v, _, st1) <- rec x any_meta st;
               Ok (upd_obj n (on_gen (fun g => mkG (g_types g) (g_text g) (g_sets g ++ [v]) (g_adapted g) (g_extended g))) st1));
          des_children n xs' st1
      end.
    (* serializer.py:667-699 *)
    Definition des_dynamic (x : xml) (m : meta) (st : dst) : res (value * dst) :=
      match m_object m with
      | None => Err TypeError
      | Some c =>
          if str_eqb c generic_name then
            let '(n, st1) := new_obj (HGen empty_gobj) st in
            do id <- attrib refid x;
            do st2 <- des_children n (x_children x) (obj_put id (VObj n) st1);
            Ok (VObj n, st2)
          else Err AttributeError
      end.

    (* serializer.py:730-744.  The metadata of the entries is one object for all
       of them. *)
    Fixpoint des_entries (m : option meta) (xs : list xml) (st : dst) : res (list value * option meta * dst) :=
      match xs with
      | [] => Ok ([], m, st)
      | x :: xs' =>
          do '(v, m1, st1) <- rec x (match m with Some m => m | None => any_meta end) st;
          do '(vs, m2, st2) <- des_entries (match m with Some _ => Some m1 | None => None end) xs' st1;
          Ok (v :: vs, m2, st2)
      end.
    Definition entries_of (tag : list N) (x : xml) : list xml :=
      match child tag x with Some e => x_children e | None => [] end.
    (* serializer.py:701-711 *)
    Definition des_lst (x : xml) (m : meta) (st : dst) : res (value * meta * dst) :=
      do '(vs, e, st1) <- des_entries (match list_info m with Some i => Some (fst i) | None => None end) (entries_of (lit "LST") x) st;
      Ok (VList vs, match e with Some e => with_entry e m | None => m end, st1).
    (* serializer.py:713-728 *)
    Definition des_que (x : xml) (st : dst) : res (value * dst) :=
      do '(vs, _, st1) <- des_entries None (entries_of (lit "QUE") x) st; Ok (VQueue vs, st1).
    Definition des_stk (x : xml) (st : dst) : res (value * dst) :=
      do '(vs, _, st1) <- des_entries None (entries_of (lit "STK") x) st; Ok (VList vs, st1).
    (* serializer.py:746-760; deserialize("") gives "" *)
    Definition des_part (name : list N) (en : xml) (st : dst) : res (value * dst) :=
      match find_in [] star (Some name) en with
      | Some x => do '(v, _, st1) <- rec x any_meta st; Ok (v, st1)
      | None => Ok (VStr [], st)
      end.
    Fixpoint des_pairs (ens : list xml) (d : list (value * value)) (st : dst) : res (list (value * value) * dst) :=
      match ens with
      | [] => Ok (d, st)
      | en :: ens' =>
          do '(k, st1) <- des_part (lit "Key") en st;
          do '(v, st2) <- des_part (lit "Value") en st1;
          if hashable k then des_pairs ens' (dict_set key_eqb k v d) st2 else Err TypeError
      end.
    Definition des_dct (x : xml) (st : dst) : res (value * dst) :=
      do '(d, st1) <- des_pairs (find_all [lit "DCT"; lit "En"] x) [] st; Ok (VDict d, st1).

    (* serializer.py:347-364, by the tag of the metadata *)
    Definition des_struct (x : xml) (m : meta) (st : dst) : res (value * meta * dst) :=
      let keep (r : res (value * dst)) := do '(v, st1) <- r; Ok (v, m, st1) in
      if str_eqb (m_tag m) (lit "Obj") then keep (des_obj x m st)
      else if str_eqb (m_tag m) (lit "ObjDynamic") then keep (des_dynamic x m st)
      else if str_eqb (m_tag m) (lit "LST") then des_lst x m st
      else if str_eqb (m_tag m) (lit "QUE") then keep (des_que x st)
      else if str_eqb (m_tag m) (lit "STK") then keep (des_stk x st)
      else if str_eqb (m_tag m) (lit "DCT") then keep (des_dct x st)
      else Ok (VStr (xml_text x), m, st).
  End Des.

  Definition is_plain (m : meta) : bool := match m_kind m with KPlain => true | _ => false end.
  Definition is_none {A} (o : option A) : bool := match o with None => true | Some _ => false end.

  (* deserialize: serializer.py:168-369, after the clearing and parsing *)
  Fixpoint des (fuel : nat) (x : xml) (m : meta) (st : dst) : res (value * meta * dst) :=
    match fuel with
    | O => Err OutOfFuel
    | S fuel' =>
        let m1 := if str_eqb (m_tag m) star then set_tag (x_tag x) m else m in
        do '(types, st1) <- get_types x st;
        match primitive x st1 with
        | Some r => do v <- r; Ok (v, m1, st1)
        | None =>
            do '(v, m2, st2) <-
              (if (is_plain m1 && is_none (m_object m1))%bool then
                 do c <- choose (match types with
                                 | [] => if str_eqb (m_tag m1) (lit "Obj") then [lit "System.Object"] else []
                                 | _ => types
                                 end);
                 match c with
                 | None => Ok (VStr (xml_text x), m1, st1)
                 | Some cm => do '(v, _, st2) <- des_struct (des fuel') x cm st1; Ok (v, m1, st2)
                 end
               else des_struct (des fuel') x m1 st1);
            do st3 <- (if str_eqb (x_tag x) (lit "Obj") then do id <- attrib refid x; Ok (obj_put id v st2) else Ok st2);
            Ok (v, m2, st3)
        end
    end.
  Fixpoint depth (x : xml) : nat := let '(Elem _ _ _ c) := x in S (fold_right (fun y n => Nat.max (depth y) n) O c).
  (* the result and the instances *)
  Definition deserialize (heap : list hobj) (x : xml) (m : meta) : res (value * list hobj) :=
    do '(v, _, st) <- des (depth x) x m (clear_dst heap); Ok (v, d_heap st).

  (* messages.py:201-219: the content of pipeline output *)
  Definition output_value (heap : list hobj) (x : xml) : res (value * list hobj) :=
    match deserialize heap x any_meta with
    | Err SerializationError => deserialize heap x generic_meta
    | r => r
    end.
End Serializer.

(* What ET.fromstring(ET.tostring(x)) gives, for names and texts of characters
   that XML has: empty text is None. *)
Fixpoint reparse (x : xml) : xml :=
  let '(Elem t a s c) := x in
  Elem t a (match s with Some [] => None | _ => s end) (map reparse c).
