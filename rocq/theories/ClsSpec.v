(* Instances of classes as values of attributes: which values fit the metadata of
   an attribute, and when one graph of instances is a copy of another.  Apart from
   the serializer. *)
From Verif Require Import Base Lit NumModel TextModel TextSpec MsgModel MsgSpec XmlModel SerModel SerClasses SerSpec SerSpec2.

Local Open Scope list_scope.

Section Spec.
  Context (ci : option cipher) (float_of : list N -> res (list N)) (classes : list N -> option cdesc).
  (* the type names that go with a first one *)
  Context (canon : list N -> list (list N)).
  Context (heap : list hobj).
  (* which texts are allowed in strings, and which where the text is written as it is *)
  Context (said raw : list N -> Prop).

  (* ---- values an element of that tag can hold ---- *)
  Inductive bears : list N -> value -> Prop :=
  | be_str : forall tag s, In tag (map lit ["S"; "URI"; "XD"; "SBK"]%string) -> scalars s -> ~ has_straddle s -> said s -> bears tag (VStr s)
  | be_char : forall c, (c < 1114112)%N -> bears (lit "C") (VStr [c])
  | be_bool : forall b, bears (lit "B") (VBool b)
  | be_int : forall tag z, In tag (map lit ["By"; "SB"; "U16"; "I16"; "U32"; "I32"; "U64"; "I64"]%string) -> bears tag (VInt z)
  | be_float : forall tag t, In tag (map lit ["Sg"; "Db"]%string) -> t <> [] -> float_of t = Ok t -> raw t -> bears tag (VFloat t)
  | be_bytes : forall b, bytes_ok b -> b <> [] -> bears (lit "BA") (VBytes b)
  | be_guid : forall g, is_guid g -> bears (lit "G") (VGuid g)
  | be_raw : forall tag s, In tag (map lit ["TS"; "D"; "Version"]%string) -> s <> [] -> raw s -> bears tag (VStr s)
  | be_secret : forall c s, ci = Some c -> inverts_on_blocks c -> scalars s -> bears (lit "SS") (VStr s).
  (* the tag used for a value when none is given *)
  Definition natural (v : value) : list N :=
    match v with
    | VBool _ => lit "B" | VInt _ => lit "I32" | VFloat _ => lit "Sg" | VStr _ => lit "S" | VBytes _ => lit "BA" | VGuid _ => lit "G"
    | _ => []
    end.
  (* members of lists and keys, where the class of an instance is not known *)
  Definition lone (v : value) : Prop := v = VNone \/ bears (natural v) v.

  (* ---- classes whose instances can be told apart from their text ---- *)
  Definition coded (ts : list (list N)) : Prop := exists main rest, ts = main :: rest /\ canon main = ts.
  Definition attributes (d : cdesc) : list (list N * meta) := cd_sets d ++ cd_adapted d ++ cd_extended d.
  Definition plainly_described (d : cdesc) : Prop :=
    (cd_types d = [] \/ coded (cd_types d)) /\
    NoDup (map fst (attributes d)) /\ ~ In (lit "_to_string") (map fst (attributes d)) /\
    (cd_adapted d = [] \/ cd_extended d = []) /\
    NoDup (map (fun e => m_name (snd e)) (cd_adapted d ++ cd_extended d)) /\
    Forall (fun e => m_name (snd e) <> None) (cd_adapted d ++ cd_extended d) /\
    (cd_sets d = [] \/ exists a tag, cd_sets d = [(a, Meta KPlain tag None false None)] /\ In tag scalar_tags /\ tag <> lit "Nil" /\ tag <> lit "ToString").
  Definition fair_text (t : res value) : Prop := t = Ok VNone \/ exists s, t = Ok (VStr s) /\ scalars s /\ ~ has_straddle s /\ said s.

  (* ---- values that fit ---- *)
  Inductive conforms : meta -> value -> Prop :=
  | cf_none : forall m, m_tag m = star \/ In (m_tag m) known_tags -> conforms m VNone
  | cf_scalar : forall tag name opt v, bears tag v -> conforms (Meta KPlain tag name opt None) v
  | cf_star : forall name opt v, bears (natural v) v -> conforms (Meta KPlain star name opt None) v
  | cf_tagged : forall name opt tag v, bears tag v -> conforms (Meta KPlain star name opt None) (VTagged tag v)
  | cf_members : forall name opt l, Forall lone l -> conforms (Meta KPlain star name opt None) (VList l)
  | cf_dict : forall name opt d, Forall (fun e => lone (fst e)) d -> distinct_keys d ->
      (forall e, In e d -> conforms (Meta KPlain star (Some (lit "Value")) false None) (snd e)) ->
      conforms (Meta KPlain star name opt None) (VDict d)
  | cf_dictmeta : forall ts name opt d, coded ts -> Forall (fun e => lone (fst e)) d -> distinct_keys d ->
      (forall e, In e d -> conforms (Meta KPlain star (Some (lit "Value")) false None) (snd e)) ->
      conforms (Meta (KDict (Meta KPlain star (Some (lit "Key")) false None) (Meta KPlain star (Some (lit "Value")) false None) ts) (lit "DCT") name opt None) (VDict d)
  | cf_known : forall name opt n c attrs d,
      nth_error heap n = Some (HCls c attrs) -> classes c = Some d -> plainly_described d -> fair_text (cd_text d attrs) ->
      cd_types d <> [] -> choose (cd_types d) = Ok (Some (class_meta c)) ->
      (forall a m, In (a, m) (attributes d) -> dict_get str_eqb a attrs <> None) ->
      (forall a m v, In (a, m) (attributes d) -> dict_get str_eqb a attrs = Some v -> conforms m v) ->
      conforms (Meta KPlain star name opt None) (VObj n)
  | cf_class : forall tag name opt n c attrs d, tag = lit "Obj" \/ tag = star ->
      nth_error heap n = Some (HCls c attrs) -> classes c = Some d -> plainly_described d -> fair_text (cd_text d attrs) ->
      (forall a m, In (a, m) (attributes d) -> dict_get str_eqb a attrs <> None) ->
      (forall a m v, In (a, m) (attributes d) -> dict_get str_eqb a attrs = Some v -> conforms m v) ->
      conforms (Meta KPlain tag name opt (Some c)) (VObj n)
  | cf_list : forall e ts name opt l, coded ts -> m_kind e = KPlain -> m_optional e = false ->
      (forall v, In v l -> v <> VNone \/ m_object e = None) ->
      (forall v, In v l -> conforms e v) ->
      conforms (Meta (KList e ts) (lit "LST") name opt None) (VList l).

  (* ---- copies: equal values, and new instances of the same classes whose
     attributes are copies.  A tagged value arrives without its tag. ---- *)
  Inductive copy (base : nat) (heap' : list hobj) : value -> value -> Prop :=
  | co_none : copy base heap' VNone VNone
  | co_bool : forall b, copy base heap' (VBool b) (VBool b)
  | co_int : forall z, copy base heap' (VInt z) (VInt z)
  | co_float : forall t, copy base heap' (VFloat t) (VFloat t)
  | co_str : forall s, copy base heap' (VStr s) (VStr s)
  | co_bytes : forall b, copy base heap' (VBytes b) (VBytes b)
  | co_guid : forall g, copy base heap' (VGuid g) (VGuid g)
  | co_tagged : forall t v w, copy base heap' v w -> copy base heap' (VTagged t v) w
  | co_list : forall l l', length l = length l' ->
      (forall i v w, nth_error l i = Some v -> nth_error l' i = Some w -> copy base heap' v w) -> copy base heap' (VList l) (VList l')
  | co_dict : forall d d', map fst d = map fst d' ->
      (forall i v w, nth_error (map snd d) i = Some v -> nth_error (map snd d') i = Some w -> copy base heap' v w) -> copy base heap' (VDict d) (VDict d')
  | co_obj : forall n n' c attrs attrs' d, (base <= n')%nat ->
      nth_error heap n = Some (HCls c attrs) -> nth_error heap' n' = Some (HCls c attrs') -> classes c = Some d ->
      (forall a m, In (a, m) (attributes d) -> dict_get str_eqb a attrs' <> None) ->
      (forall a m v w, In (a, m) (attributes d) -> dict_get str_eqb a attrs = Some v -> dict_get str_eqb a attrs' = Some w -> copy base heap' v w) ->
      (forall s, cd_text d attrs = Ok (VStr s) -> dict_get str_eqb (lit "_to_string") attrs' = Some (VStr s)) ->
      (cd_text d attrs = Ok VNone -> dict_get str_eqb (lit "_to_string") attrs' = dict_get str_eqb (lit "_to_string") (cd_init d)) ->
      copy base heap' (VObj n) (VObj n').
End Spec.

(* ---- the lists of type names that the library declares, by their first name ---- *)
Definition declared (m : meta) : list (list (list N)) :=
  match m_kind m with KList _ ts => [ts] | KDict _ _ ts => [ts] | _ => [] end.
Definition declared_names : list (list (list N)) :=
  [list_names; dict_names] ++
  flat_map (fun e => (match cd_types (snd e) with [] => [] | ts => [ts] end) ++ flat_map (fun a => declared (snd a)) (attributes (snd e))) library_classes.
Definition library_canon (main : list N) : list (list N) :=
  match find (fun ts => match ts with t :: _ => str_eqb t main | [] => false end) declared_names with Some ts => ts | None => [] end.
