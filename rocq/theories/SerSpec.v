(* Specification of the serialized form of values, apart from the serializer. *)
From Verif Require Import Base Lit MsgModel XmlModel TextSpec SerModel.

(* ---- C13: the values of the claim ---- *)
Inductive scalar_value : value -> Prop :=
| sv_none : scalar_value VNone
| sv_bool : forall b, scalar_value (VBool b)
| sv_int : forall z, scalar_value (VInt z)
| sv_str : forall s, scalars s -> scalar_value (VStr s)
| sv_bytes : forall b, bytes_ok b -> scalar_value (VBytes b).
(* keys that no dictionary of Python has twice *)
Fixpoint distinct_keys (d : list (value * value)) : Prop :=
  match d with
  | [] => True
  | e :: d' => Forall (fun f => key_eqb (fst f) (fst e) = false) d' /\ distinct_keys d'
  end.
Inductive claimed : value -> Prop :=
| c_scalar : forall v, scalar_value v -> claimed v
| c_list : forall l, Forall claimed l -> claimed (VList l)
| c_dict : forall d, Forall (fun e => scalar_value (fst e)) d -> Forall (fun e => claimed (snd e)) d ->
    distinct_keys d -> claimed (VDict d).
(* texts that come back by C09; byte strings that are not empty *)
Definition kept (v : value) : Prop :=
  match v with
  | VNone | VBool _ | VInt _ => True
  | VStr s => ~ has_straddle s
  | VBytes b => b <> []
  | _ => False
  end.
(* besides, no list has a list or a dictionary as a member *)
Inductive flat : value -> Prop :=
| f_scalar : forall v, kept v -> flat v
| f_list : forall l, Forall kept l -> flat (VList l)
| f_dict : forall d, Forall (fun e => kept (fst e)) d -> Forall (fun e => flat (snd e)) d -> flat (VDict d).

(* ---- C14: reading a document in order ---- *)
Fixpoint nodes (x : xml) : list xml := let '(Elem _ _ _ c) := x in x :: flat_map nodes c.
Inductive mark := MObj (id : list N) | MRef (id : list N) | MTypes (id : list N) (types : list (list N)) | MTypesRef (id : list N).
Definition mark_of (x : xml) : list mark :=
  match attr_get (lit "RefId") x with
  | None => []
  | Some id =>
      if str_eqb (x_tag x) (lit "Obj") then [MObj id]
      else if str_eqb (x_tag x) (lit "Ref") then [MRef id]
      else if str_eqb (x_tag x) (lit "TN") then
        [MTypes id (map (fun e => match x_text e with Some t => t | None => [] end) (x_children x))]
      else if str_eqb (x_tag x) (lit "TNRef") then [MTypesRef id]
      else []
  end.
Definition marks (x : xml) : list mark := flat_map mark_of (nodes x).
Definition obj_ids (l : list mark) : list (list N) := flat_map (fun m => match m with MObj i => [i] | _ => [] end) l.
Definition tn_ids (l : list mark) : list (list N) := flat_map (fun m => match m with MTypes i _ => [i] | _ => [] end) l.
(* the elements that make an id known: any but a Ref for objects, TN for type names *)
Definition introduces (id : list N) (x : xml) : Prop :=
  exists y, In y (nodes x) /\ x_tag y <> lit "Ref" /\ attr_get (lit "RefId") y = Some id.
Definition introduces_types (id : list N) (x : xml) : Prop :=
  exists y, In y (nodes x) /\ x_tag y = lit "TN" /\ attr_get (lit "RefId") y = Some id.
(* what stands before a place in a list *)
Definition preceded (P : list mark -> mark -> Prop) (l : list mark) : Prop :=
  forall a m b, l = a ++ m :: b -> P a m.

(* values without elements made by the caller *)
Fixpoint elementless (v : value) : Prop :=
  let all := fix all (l : list value) := match l with [] => True | x :: l' => elementless x /\ all l' end in
  let pairs := fix pairs (l : list (value * value)) :=
    match l with [] => True | (x, y) :: l' => elementless x /\ elementless y /\ pairs l' end in
  match v with
  | VXml _ => False
  | VList l | VQueue l => all l
  | VDict d | VTuple d => pairs d
  | VTagged _ w => elementless w
  | _ => True
  end.
Definition elementless_obj (h : hobj) : Prop :=
  match h with
  | HGen g => Forall elementless (g_sets g) /\ Forall (fun e => elementless (snd e)) (g_adapted g) /\
              Forall (fun e => elementless (snd e)) (g_extended g)
  | HCls _ a => Forall (fun e => elementless (snd e)) a
  end.

(* ---- C50: the properties of an object in its element ---- *)
(* the groups of properties of a class: children of the element itself, of Props
   and of MS *)
Definition groups (d : cdesc) : list (option (list N) * list (list N * meta)) :=
  [(None, cd_sets d); (Some (lit "Props"), cd_adapted d); (Some (lit "MS"), cd_extended d)].
Definition attribute_names (d : cdesc) : list (list N) := map fst (cd_sets d ++ cd_adapted d ++ cd_extended d).
Definition member (group : option (list N)) (x e : xml) : Prop :=
  match group with
  | None => In e (x_children x)
  | Some g => exists p, In p (x_children x) /\ x_tag p = g /\ In e (x_children p)
  end.
Definition fits (tag : list N) (name : option (list N)) (e : xml) : Prop :=
  (tag = lit "*" \/ x_tag e = tag) /\
  match name with None => True | Some n => attr_get (lit "N") e = Some n end.
(* structures are Obj elements or references to one *)
Definition property_tags (m : meta) : list (list N) :=
  if existsb (str_eqb (m_tag m)) (map lit ["DCT"; "LST"; "IE"; "QUE"; "STK"; "ObjDynamic"]%string)
  then [lit "Obj"; lit "Ref"] else [m_tag m].
Definition present (group : option (list N)) (m : meta) (x : xml) : Prop :=
  exists e t, member group x e /\ In t (property_tags m) /\ fits t (m_name m) e.
Definition nilled (group : option (list N)) (m : meta) (x : xml) : Prop :=
  exists e, member group x e /\ fits (lit "Nil") (m_name m) e.
(* every mandatory property is there *)
Definition complete (d : cdesc) (x : xml) : Prop :=
  forall group props a m, In (group, props) (groups d) -> In (a, m) props -> m_optional m = false ->
    present group m x \/ nilled group m x.
(* elements that hold one text *)
Definition scalar_tags : list (list N) :=
  map lit ["S"; "ToString"; "URI"; "XD"; "SBK"; "C"; "B"; "DT"; "TS"; "D"; "Version";
           "By"; "SB"; "U16"; "I16"; "U32"; "I32"; "U64"; "I64"; "Sg"; "Db"; "BA"; "G"; "Nil"; "SS"]%string.
Definition scalar_elem (e : xml) : Prop := x_children e = [] /\ In (x_tag e) scalar_tags.
(* the identifiers are there and type names are given in full *)
Definition well_headed (x : xml) : Prop :=
  x_tag x = lit "Obj" /\ attr_get (lit "RefId") x <> None /\
  (forall t, In t (x_children x) -> x_tag t <> lit "TNRef") /\
  (forall t, In t (x_children x) -> x_tag t = lit "TN" -> attr_get (lit "RefId") t <> None).
