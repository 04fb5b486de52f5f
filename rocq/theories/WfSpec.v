(* Values whose serialized form can be written as XML and read again.  Apart from
   the serializer. *)
From Verif Require Import Base Lit NumModel TextModel TextSpec Utf8Model MsgModel MsgSpec XmlModel SerModel XtSpec ClsSpec.
Local Open Scope list_scope.

(* ---- texts ---- *)
(* that is escaped: the escapes know the control characters, but not the two
   noncharacters at the end of the first plane *)
Definition said (s : list N) : Prop := Forall (fun c => scalar c /\ c <> 65534 /\ c <> 65535)%N s.
(* that is written as it is *)
Definition raw (s : list N) : Prop := Forall xml_char s /\ ~ In 13%N s.

(* ---- metadata with names and types of such texts ---- *)
Inductive tidy : meta -> Prop :=
| ty_meta : forall k tag name opt obj, (forall n, name = Some n -> Forall xml_char n) ->
    match k with KList _ _ => In tag (map lit ["LST"; "IE"]%string) | _ => True end ->
    tidy_kind k -> tidy (Meta k tag name opt obj)
with tidy_kind : mkind -> Prop :=
| ty_plain : tidy_kind KPlain
| ty_list : forall e ts, tidy e -> Forall raw ts -> tidy_kind (KList e ts)
| ty_stack : forall e ts, tidy e -> Forall raw ts -> tidy_kind (KStack e ts)
| ty_queue : forall e ts, tidy e -> Forall raw ts -> tidy_kind (KQueue e ts)
| ty_dict : forall k e ts, tidy k -> tidy e -> Forall raw ts -> tidy_kind (KDict k e ts).

Section Spec.
  Context (show : value -> list N) (classes : list N -> option cdesc) (heap : list hobj).
  (* the instances that are looked at *)
  Context (R : nat -> Prop).

  (* ---- values that are fine wherever they stand ---- *)
  Inductive strict : value -> Prop :=
  | st_none : strict VNone
  | st_bool : forall b, strict (VBool b)
  | st_int : forall z, strict (VInt z)
  | st_guid : forall g, is_guid g -> strict (VGuid g)
  | st_float : forall t, raw t -> strict (VFloat t)
  | st_str : forall s, raw s -> strict (VStr s)
  | st_bytes : forall b, (forall s, utf8_decode b = Ok s -> said s) -> raw (show (VBytes b)) -> strict (VBytes b)
  | st_list : forall l, raw (show (VList l)) -> (forall v, In v l -> strict v) -> strict (VList l)
  | st_queue : forall l, raw (show (VQueue l)) -> (forall v, In v l -> strict v) -> strict (VQueue l)
  | st_tuple : forall d, raw (show (VTuple d)) -> (forall k v, In (k, v) d -> strict k) -> (forall k v, In (k, v) d -> strict v) -> strict (VTuple d)
  | st_dict : forall d, raw (show (VDict d)) -> (forall k v, In (k, v) d -> strict k) -> (forall k v, In (k, v) d -> strict v) -> strict (VDict d)
  | st_obj : forall n, raw (show (VObj n)) -> R n -> strict (VObj n)
  | st_tagged : forall t v, raw (show (VTagged t v)) -> strict v -> strict (VTagged t v)
  | st_xml : forall x, raw (show (VXml x)) -> writable x -> unreturned x -> strict (VXml x).

  (* ---- and values that are fine where the metadata is this ---- *)
  (* the metadata of the members of a list *)
  Definition member_meta (m e : meta) : Prop :=
    match m_kind m with KList e' _ => e = e' | KPlain | KDict _ _ _ => e = any_meta | _ => False end.
  (* of the keys and values of a dictionary *)
  Definition pair_meta (m km vm : meta) : Prop :=
    match m_kind m with
    | KDict km' vm' _ => km = km' /\ vm = vm'
    | _ => km = object_meta star (Some (lit "Key")) /\ vm = object_meta star (Some (lit "Value"))
    end.
  Inductive loose : meta -> value -> Prop :=
  | lo_strict : forall m v, strict v -> loose m v
  | lo_str : forall m s, said s -> In (m_tag m) (map lit ["*"; "S"; "URI"; "XD"; "SBK"]%string) -> loose m (VStr s)
  | lo_hidden : forall m s, In (m_tag m) (map lit ["C"; "SS"]%string) -> loose m (VStr s)
  | lo_bytes : forall m b, In (m_tag m) (map lit ["*"; "BA"; "SS"]%string) -> loose m (VBytes b)
  | lo_tagged : forall m t v, m_tag m = star -> loose (set_tag t m) v -> loose m (VTagged t v)
  | lo_list : forall m e l, In (m_tag m) (map lit ["*"; "LST"; "IE"]%string) -> member_meta m e -> (forall v, In v l -> loose e v) -> loose m (VList l)
  | lo_dict : forall m km vm d, In (m_tag m) (map lit ["*"; "DCT"]%string) -> pair_meta m km vm -> (forall k v, In (k, v) d -> loose km k) -> (forall k v, In (k, v) d -> loose vm v) -> loose m (VDict d)
  | lo_obj : forall m n, In (m_tag m) (map lit ["*"; "Obj"; "ObjDynamic"]%string) -> R n -> loose m (VObj n).

  (* ---- instances ---- *)
  (* the text of an instance, if it has one *)
  Definition fair (t : value) : Prop :=
    match t with VStr s => said s | VBytes b => forall s, utf8_decode b = Ok s -> said s | _ => True end.
  Definition clean (o : hobj) : Prop :=
    match o with
    | HCls c attrs => forall d, classes c = Some d ->
        Forall raw (cd_types d) /\ (forall t, cd_text d attrs = Ok t -> fair t) /\
        forall a m v, In (a, m) (attributes d) -> dict_get str_eqb a attrs = Some v -> tidy m /\ loose m v
    | HGen g =>
        Forall raw (g_types g) /\ fair (g_text g) /\ (forall v, In v (g_sets g) -> loose any_meta v) /\
        forall k v, In (k, v) (g_extended g ++ g_adapted g) -> Forall xml_char k /\ loose any_meta v
    end.
  Definition clean_heap : Prop := forall n o, R n -> nth_error heap n = Some o -> clean o.
End Spec.

(* classes whose attributes have such names *)
Definition tidy_classes (classes : list N -> option cdesc) : Prop :=
  forall c d, classes c = Some d -> Forall raw (cd_types d) /\ forall a m, In (a, m) (attributes d) -> tidy m.
