(* Objects as a server has them, how it writes them, and what a client holds that
   was given them: [MS-PSRP] 2.2.5.  Apart from the serializer. *)
From Verif Require Import Base Lit NumModel TextModel TextSpec MsgModel MsgSpec XmlModel SerModel SerSpec SerSpec2.
Local Open Scope list_scope.

(* ---- what a server has ---- *)
(* the type names of an object: none, in full under an id, or those of that id *)
Inductive naming := Untyped | Named (tid : list N) (ts : list (list N)) | Same (tid : list N) (ts : list (list N)).
Definition types_of (n : naming) : list (list N) := match n with Untyped => [] | Named _ ts | Same _ ts => ts end.
Inductive item :=
| Scalar (tag : list N) (text : option (list N))
| Again (id : list N)                                         (* an object given before *)
| Object (id : list N) (n : naming) (text : option (option (list N))) (sets : list item)
         (adapted extended : list (list N * item))
| Members (id : list N) (n : naming) (kind : list N) (l : list item) (rest : list xml)
| Pairs (id : list N) (n : naming) (l : list (item * item)) (rest : list xml).

(* ---- how it is written ---- *)
Definition text_of (s : list N) : option (list N) := match s with [] => None | _ => Some s end.
Definition naming_xml (n : naming) : list xml :=
  match n with
  | Untyped => []
  | Named tid ts => [Elem (lit "TN") (id_attr tid) None (map (fun t => Elem (lit "T") [] (text_of t) []) ts)]
  | Same tid _ => [Elem (lit "TNRef") (id_attr tid) None []]
  end.
Definition said_xml (t : option (option (list N))) : list xml := match t with Some t => [Elem (lit "ToString") [] t []] | None => [] end.
Definition grouped (tag : String.string) (xs : list xml) : list xml := match xs with [] => [] | _ => [Elem (lit tag) [] None xs] end.
Fixpoint write (name : option (list N)) (t : item) : xml :=
  match t with
  | Scalar tag text => Elem tag (attribs name []) text []
  | Again id => Elem (lit "Ref") (attribs name (id_attr id)) None []
  | Object id n text sets ad ex =>
      Elem (lit "Obj") (attribs name (id_attr id)) None
        (naming_xml n ++ said_xml text ++ map (write None) sets ++
         grouped "Props" (map (fun e => write (Some (fst e)) (snd e)) ad) ++ grouped "MS" (map (fun e => write (Some (fst e)) (snd e)) ex))
  | Members id n kind l rest =>
      Elem (lit "Obj") (attribs name (id_attr id)) None (naming_xml n ++ Elem kind [] None (map (write None) l) :: rest)
  | Pairs id n l rest =>
      Elem (lit "Obj") (attribs name (id_attr id)) None
        (naming_xml n ++ Elem (lit "DCT") [] None
           (map (fun e => Elem (lit "En") [] None [write (Some (lit "Key")) (fst e); write (Some (lit "Value")) (snd e)]) l) :: rest)
  end.
Definition tag_of (t : item) : list N :=
  match t with Scalar tag _ => tag | Again _ => lit "Ref" | _ => lit "Obj" end.

(* ---- what it is taken for ---- *)
(* Open: by its type names, a generic object without any; Free: by its type names *)
Inductive reading := Open | Free | Generic | Instance (c : list N) | ListOf (r : reading) | Dict | Que | Stk.
Definition strict (r : reading) : reading := match r with Open => Free | _ => r end.
(* what metadata ask for *)
Fixpoint as_reading (m : meta) : option reading :=
  let '(Meta k tag _ _ c) := m in
  match k with
  | KPlain =>
      match c with
      | None => Some (if (str_eqb tag star || str_eqb tag (lit "Obj"))%bool then Open else Free)
      | Some c =>
          if str_eqb tag (lit "ObjDynamic") then if str_eqb c generic_name then Some Generic else None
          else if str_eqb tag (lit "Obj") then Some (Instance c) else None
      end
  | KList e _ => if str_eqb tag (lit "LST") then match as_reading e with Some r => Some (ListOf (strict r)) | None => None end else None
  | KDict _ _ _ => if str_eqb tag (lit "DCT") then Some Dict else None
  | KQueue _ _ => if str_eqb tag (lit "QUE") then Some Que else None
  | KStack _ _ => if str_eqb tag (lit "STK") then Some Stk else None
  end.
(* what type names say; a name of a primitive type says nothing of an object *)
Definition by_types (ts : list (list N)) : option reading :=
  match choose ts with
  | Ok (Some m) => match as_reading m with Some Open | Some Free => None | r => r end
  | _ => None
  end.
Definition taken (r : reading) (n : naming) : option reading :=
  match r with
  | Open => by_types (match types_of n with [] => [lit "System.Object"] | ts => ts end)
  | Free => match types_of n with [] => None | ts => by_types ts end
  | _ => Some r
  end.

Section Read.
  Context (ci : option cipher) (float_of : list N -> res (list N)) (classes : list N -> option cdesc).

  (* ---- the texts of scalars ---- *)
  Inductive spelled : list N -> option (list N) -> value -> Prop :=
  | sp_str : forall tag s, In tag (map lit ["S"; "URI"; "XD"; "SBK"]%string) -> scalars s -> ~ has_straddle s ->
      spelled tag (text_of (serialize_string s)) (VStr s)
  | sp_char : forall c, (c < 1114112)%N -> spelled (lit "C") (Some (dec c)) (VStr [c])
  | sp_true : spelled (lit "B") (Some (lit "true")) (VBool true)
  | sp_false : spelled (lit "B") (Some (lit "false")) (VBool false)
  | sp_int : forall tag z, In tag (map lit ["By"; "SB"; "U16"; "I16"; "U32"; "I32"; "U64"; "I64"]%string) -> spelled tag (Some (py_str z)) (VInt z)
  | sp_float : forall tag t f, In tag (map lit ["Sg"; "Db"]%string) -> float_of t = Ok f -> spelled tag (Some t) (VFloat f)
  | sp_bytes : forall b t, bytes_ok b -> sprinkled (b64encode b) t -> spelled (lit "BA") (Some t) (VBytes b)
  | sp_guid : forall g, is_guid g -> spelled (lit "G") (Some (guid_str g)) (VGuid g)
  | sp_raw : forall tag s, In tag (map lit ["DT"; "TS"; "D"; "Version"]%string) -> spelled tag (Some s) (VStr s)
  | sp_nil : spelled (lit "Nil") None VNone
  | sp_secret : forall c s t, ci = Some c -> inverts_on_blocks c -> scalars s -> serialize_secure_string ci s = Ok t -> spelled (lit "SS") (Some t) (VStr s).

  (* ---- which property an attribute is filled with ---- *)
  Definition suits (m : meta) (e : option (list N) * item) : Prop :=
    (m_tag m = star \/ In (tag_of (snd e)) (property_tags m)) /\ (m_name m = None \/ m_name m = fst e).
  Definition only (m : meta) (props : list (option (list N) * item)) (t : item) : Prop :=
    exists name, In (name, t) props /\ suits m (name, t) /\ forall e, In e props -> suits m e -> e = (name, t).
  Definition none_suits (m : meta) (props : list (option (list N) * item)) : Prop := forall e, In e props -> ~ suits m e.
  Definition with_name (l : list (list N * item)) : list (option (list N) * item) := map (fun e => (Some (fst e), snd e)) l.
  Definition without (l : list item) : list (option (list N) * item) := map (fun t => (None, t)) l.

  (* ---- documents whose references go back: [fst] the type names known, [snd]
     the ids of the objects known ---- *)
  Definition seen : Type := (list (list N * list (list N)) * list (list N))%type.
  Definition known (id : list N) (s : seen) : seen := (fst s, id :: snd s).
  Inductive names : seen -> naming -> seen -> Prop :=
  | na_none : forall s, names s Untyped s
  | na_full : forall s tid ts, ts <> [] -> (forall ts', In (tid, ts') (fst s) -> ts' = ts) -> names s (Named tid ts) ((tid, ts) :: fst s, snd s)
  | na_same : forall s tid ts, ts <> [] -> In (tid, ts) (fst s) -> names s (Same tid ts) s.
  Inductive thread {A} (R : seen -> A -> seen -> Prop) : seen -> list A -> seen -> Prop :=
  | th_nil : forall s, thread R s [] s
  | th_cons : forall s a l s1 s2, R s a s1 -> thread R s1 l s2 -> thread R s (a :: l) s2.
  (* an attribute of an instance *)
  Inductive filled (R : reading -> seen -> item -> seen -> Prop) (props : list (option (list N) * item)) : seen -> list N * meta -> seen -> Prop :=
  | fi_some : forall s a m t r s', only m props t -> as_reading m = Some r -> R r s t s' -> filled R props s (a, m) s'
  | fi_none : forall s a m, none_suits m props ->
      m_optional m = true \/ (exists name, In (name, Scalar (lit "Nil") None) props /\ (m_name m = None \/ m_name m = name)) ->
      filled R props s (a, m) s.
  Definition class_ok (d : cdesc) : Prop :=
    NoDup (map fst (cd_sets d ++ cd_adapted d ++ cd_extended d)) /\ ~ In (lit "_to_string") (map fst (cd_sets d ++ cd_adapted d ++ cd_extended d)) /\
    Forall (fun e => In (m_tag (snd e)) scalar_tags /\ ~ In (m_tag (snd e)) (map lit ["ToString"; "Nil"]%string) /\ m_name (snd e) = None) (cd_sets d).
  Definition plain_item (t : item) : Prop := match t with Scalar tag _ => In tag scalar_tags /\ tag <> lit "ToString" | _ => True end.
  Definition ignored (rest : list xml) : Prop := Forall (fun x => In (x_tag x) (map lit ["ToString"; "Props"; "MS"]%string)) rest.
  Definition text_spelled (text : option (option (list N))) : Prop := match text with Some t => exists s, spelled (lit "S") t (VStr s) | None => True end.

  Inductive readable : reading -> seen -> item -> seen -> Prop :=
  | rd_scalar : forall r s tag text v, spelled tag text v -> readable r s (Scalar tag text) s
  | rd_again : forall r s id, In id (snd s) -> readable r s (Again id) s
  | rd_generic : forall r s id n text sets ad ex s1 s2 s3 s4,
      taken r n = Some Generic -> ~ In id (snd s) -> names s n s1 -> text_spelled text ->
      thread (readable Open) (known id s1) sets s2 ->
      NoDup (map fst ad) -> thread (fun s e => readable Open s (snd e)) s2 ad s3 ->
      NoDup (map fst ex) -> thread (fun s e => readable Open s (snd e)) s3 ex s4 ->
      readable r s (Object id n text sets ad ex) s4
  | rd_instance : forall r s id n text sets ad ex c d s1 s2 s3 s4,
      taken r n = Some (Instance c) -> classes c = Some d -> class_ok d -> ~ In id (snd s) -> names s n s1 -> text_spelled text -> Forall plain_item sets ->
      thread (filled readable (without sets)) (known id s1) (cd_sets d) s2 ->
      thread (filled readable (with_name ad)) s2 (cd_adapted d) s3 ->
      thread (filled readable (with_name ex)) s3 (cd_extended d) s4 ->
      readable r s (Object id n text sets ad ex) s4
  | rd_list : forall r s id n l rest r' s1 s2,
      taken r n = Some (ListOf r') -> names s n s1 -> thread (readable r') s1 l s2 -> ~ In id (snd s2) -> ignored rest ->
      readable r s (Members id n (lit "LST") l rest) (known id s2)
  | rd_queue : forall r s id n l rest s1 s2,
      taken r n = Some Que -> names s n s1 -> thread (readable Open) s1 l s2 -> ~ In id (snd s2) -> ignored rest ->
      readable r s (Members id n (lit "QUE") l rest) (known id s2)
  | rd_stack : forall r s id n l rest s1 s2,
      taken r n = Some Stk -> names s n s1 -> thread (readable Open) s1 l s2 -> ~ In id (snd s2) -> ignored rest ->
      readable r s (Members id n (lit "STK") l rest) (known id s2)
  | rd_dict : forall r s id n l rest ks s1 s2,
      taken r n = Some Dict -> names s n s1 ->
      Forall2 (fun e k => exists tag text, fst e = Scalar tag text /\ spelled tag text k) l ks -> distinct_keys (map (fun k => (k, VNone)) ks) ->
      thread (fun s e => readable Open s (snd e)) s1 l s2 -> ~ In id (snd s2) -> ignored rest ->
      readable r s (Pairs id n l rest) (known id s2).

  (* ---- what is held: new instances only ([base]: those before) ---- *)
  Section Held.
    Context (base : nat) (heap : list hobj) (env : list (list N * value)).
    Definition text_held (text : option (option (list N))) (v : value) : Prop := match text with Some t => spelled (lit "S") t v | None => v = VNone end.
    Definition same_length {A B} (l : list A) (l' : list B) : Prop := length l = length l'.
    Inductive holds : reading -> item -> value -> Prop :=
    | ho_scalar : forall r tag text v, spelled tag text v -> holds r (Scalar tag text) v
    | ho_again : forall r id v, dict_get str_eqb id env = Some v -> holds r (Again id) v
    | ho_generic : forall r id n text sets ad ex k g, taken r n = Some Generic -> (base <= k)%nat ->
        nth_error heap k = Some (HGen g) -> dict_get str_eqb id env = Some (VObj k) ->
        g_types g = types_of n -> text_held text (g_text g) ->
        same_length sets (g_sets g) -> (forall i t v, nth_error sets i = Some t -> nth_error (g_sets g) i = Some v -> holds Open t v) ->
        map fst ad = map fst (g_adapted g) -> (forall i t v, nth_error (map snd ad) i = Some t -> nth_error (map snd (g_adapted g)) i = Some v -> holds Open t v) ->
        map fst ex = map fst (g_extended g) -> (forall i t v, nth_error (map snd ex) i = Some t -> nth_error (map snd (g_extended g)) i = Some v -> holds Open t v) ->
        holds r (Object id n text sets ad ex) (VObj k)
    | ho_instance : forall r id n text sets ad ex k c d attrs, taken r n = Some (Instance c) -> classes c = Some d -> (base <= k)%nat ->
        nth_error heap k = Some (HCls c attrs) -> dict_get str_eqb id env = Some (VObj k) ->
        match text with
        | Some t => exists v, dict_get str_eqb (lit "_to_string") attrs = Some v /\ spelled (lit "S") t v
        | None => dict_get str_eqb (lit "_to_string") attrs = dict_get str_eqb (lit "_to_string") (cd_init d)
        end ->
        (forall props a m, In (props, (a, m)) (map (fun e => (without sets, e)) (cd_sets d) ++ map (fun e => (with_name ad, e)) (cd_adapted d) ++ map (fun e => (with_name ex, e)) (cd_extended d)) ->
           dict_get str_eqb a attrs <> None /\ (none_suits m props -> dict_get str_eqb a attrs = Some VNone)) ->
        (forall props a m t r' v, In (props, (a, m)) (map (fun e => (without sets, e)) (cd_sets d) ++ map (fun e => (with_name ad, e)) (cd_adapted d) ++ map (fun e => (with_name ex, e)) (cd_extended d)) ->
           only m props t -> as_reading m = Some r' -> dict_get str_eqb a attrs = Some v -> holds r' t v) ->
        holds r (Object id n text sets ad ex) (VObj k)
    | ho_list : forall r id n l rest r' vs, taken r n = Some (ListOf r') -> dict_get str_eqb id env = Some (VList vs) ->
        same_length l vs -> (forall i t v, nth_error l i = Some t -> nth_error vs i = Some v -> holds r' t v) ->
        holds r (Members id n (lit "LST") l rest) (VList vs)
    | ho_queue : forall r id n l rest vs, taken r n = Some Que -> dict_get str_eqb id env = Some (VQueue vs) ->
        same_length l vs -> (forall i t v, nth_error l i = Some t -> nth_error vs i = Some v -> holds Open t v) ->
        holds r (Members id n (lit "QUE") l rest) (VQueue vs)
    | ho_stack : forall r id n l rest vs, taken r n = Some Stk -> dict_get str_eqb id env = Some (VList vs) ->
        same_length l vs -> (forall i t v, nth_error l i = Some t -> nth_error vs i = Some v -> holds Open t v) ->
        holds r (Members id n (lit "STK") l rest) (VList vs)
    | ho_dict : forall r id n l rest d, taken r n = Some Dict -> dict_get str_eqb id env = Some (VDict d) -> same_length l d ->
        (forall i e p, nth_error l i = Some e -> nth_error d i = Some p -> holds Open (fst e) (fst p)) ->
        (forall i e p, nth_error l i = Some e -> nth_error d i = Some p -> holds Open (snd e) (snd p)) ->
        holds r (Pairs id n l rest) (VDict d).
  End Held.
End Read.
