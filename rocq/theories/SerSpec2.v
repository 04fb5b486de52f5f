(* Specification of the document that stands for a graph of objects. *)
From Coq Require Import Permutation.
From Verif Require Import Base Lit NumModel TextModel MsgModel XmlModel SerModel SerSpec.

(* the type names of lists and dictionaries *)
Definition list_names : list (list N) := map lit ["System.Object[]"; "System.Array"; "System.Object"]%string.
Definition dict_names : list (list N) := map lit ["System.Collections.Hashtable"; "System.Object"]%string.

(* the graphs: scalars, lists, dictionaries and generic objects *)
Inductive graph (heap : list hobj) : value -> Prop :=
| gr_none : graph heap VNone
| gr_bool : forall b, graph heap (VBool b)
| gr_int : forall z, graph heap (VInt z)
| gr_float : forall t, graph heap (VFloat t)
| gr_str : forall s, graph heap (VStr s)
| gr_bytes : forall b, graph heap (VBytes b)
| gr_guid : forall g, graph heap (VGuid g)
| gr_list : forall l, Forall (graph heap) l -> graph heap (VList l)
| gr_dict : forall d, Forall (fun e => graph heap (fst e)) d -> Forall (fun e => graph heap (snd e)) d -> graph heap (VDict d)
| gr_obj : forall n g, nth_error heap n = Some (HGen g) -> graph heap (VObj n).
Definition graph_obj (heap : list hobj) (h : hobj) : Prop :=
  match h with
  | HGen g => (g_text g = VNone \/ exists s, g_text g = VStr s) /\ Forall (graph heap) (g_sets g) /\
              Forall (fun e => graph heap (snd e)) (g_adapted g) /\ Forall (fun e => graph heap (snd e)) (g_extended g)
  | HCls _ _ => False
  end.
(* type lists in use; the first name of each tells the others *)
Definition in_use (heap : list hobj) (ts : list (list N)) : Prop :=
  ts = list_names \/ ts = dict_names \/ exists g, In (HGen g) heap /\ g_types g = ts.
Definition coherent (heap : list hobj) : Prop :=
  forall a b, in_use heap a -> in_use heap b -> hd_error a = hd_error b -> a = b.

Section Depicts.
  (* [T id ts]: id names the type list ts; [W id n]: id names the object n *)
  Context (heap : list hobj) (T : list N -> list (list N) -> Prop) (W : list N -> nat -> Prop).
  Definition attribs (key : option (list N)) (own : list (list N * list N)) : list (list N * list N) :=
    own ++ match key with Some k => [(lit "N", k)] | None => [] end.
  Definition id_attr (id : list N) : list (list N * list N) := [(lit "RefId", id)].
  (* the element with the type names, in full or by reference *)
  Inductive typed : list (list N) -> list xml -> Prop :=
  | ty_none : typed [] []
  | ty_full : forall ts id, T id ts ->
      typed ts [Elem (lit "TN") (id_attr id) None (map (fun t => Elem (lit "T") [] (Some t) []) ts)]
  | ty_ref : forall ts id, T id ts -> typed ts [Elem (lit "TNRef") (id_attr id) None []].
  Inductive texted : value -> list xml -> Prop :=
  | tx_none : texted VNone []
  | tx_str : forall s, texted (VStr s) [Elem (lit "ToString") [] (Some (serialize_string s)) []].

  (* [depicts key v x]: the element x, under the name key, stands for v *)
  Inductive depicts : option (list N) -> value -> xml -> Prop :=
  | dp_none : forall k, depicts k VNone (Elem (lit "Nil") (attribs k []) None [])
  | dp_bool : forall k b, depicts k (VBool b) (Elem (lit "B") (attribs k []) (Some (if b then lit "true" else lit "false")) [])
  | dp_int : forall k z, depicts k (VInt z) (Elem (lit "I32") (attribs k []) (Some (py_str z)) [])
  | dp_float : forall k t, depicts k (VFloat t) (Elem (lit "Sg") (attribs k []) (Some t) [])
  | dp_str : forall k s, depicts k (VStr s) (Elem (lit "S") (attribs k []) (Some (serialize_string s)) [])
  | dp_bytes : forall k b, depicts k (VBytes b) (Elem (lit "BA") (attribs k []) (Some (b64encode b)) [])
  | dp_guid : forall k g, depicts k (VGuid g) (Elem (lit "G") (attribs k []) (Some (guid_str g)) [])
  | dp_list : forall k l id tn xs, typed list_names [tn] -> Forall2 (depicts None) l xs ->
      depicts k (VList l) (Elem (lit "Obj") (attribs k (id_attr id)) None [tn; Elem (lit "LST") [] None xs])
  | dp_dict : forall k d id tn ens, typed dict_names [tn] ->
      Forall2 (fun e en => exists x y, depicts (Some (lit "Key")) (fst e) x /\ depicts (Some (lit "Value")) (snd e) y /\
                 en = Elem (lit "En") [] None [x; y]) d ens ->
      depicts k (VDict d) (Elem (lit "Obj") (attribs k (id_attr id)) None [tn; Elem (lit "DCT") [] None ens])
  | dp_obj : forall k n g id tn text sets ms ps, nth_error heap n = Some (HGen g) -> W id n ->
      typed (g_types g) tn -> texted (g_text g) text -> Forall2 (depicts None) (g_sets g) sets ->
      section (lit "MS") (g_extended g) ms -> section (lit "Props") (g_adapted g) ps ->
      depicts k (VObj n) (Elem (lit "Obj") (attribs k (id_attr id)) None (tn ++ text ++ sets ++ ms ++ ps))
  | dp_ref : forall k n id, W id n -> depicts k (VObj n) (Elem (lit "Ref") (attribs k (id_attr id)) None [])
  (* the properties, in some order *)
  with section : list N -> list (list N * value) -> list xml -> Prop :=
  | se_none : forall tag, section tag [] []
  | se_some : forall tag ps sorted es, ps <> [] -> Permutation ps sorted ->
      Forall2 (fun e x => depicts (Some (fst e)) (snd e) x) sorted es ->
      section tag ps [Elem tag [] None es].
End Depicts.
