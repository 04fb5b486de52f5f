(* Lemmas about the serializer: integers and characters; the rule for properties;
   output that is no instance of its class. *)
From Coq Require Import Lia ZifyBool ZifyNat ZifyN.
From Verif Require Import Base BaseProofs Lit NumModel NumSpec NumProofs NumProofs2 TextModel MsgModel XmlModel TextSpec SerModel SerSpec SerProofs SerProofs2.

(* ---- integers and characters ---- *)
Lemma py_str_nonempty z : py_str z <> [].
Proof.
  unfold py_str. destruct (Z.ltb z 0); [discriminate|]. destruct (dec_spec (Z.to_N z)) as (H & _). exact H.
Qed.
Definition integer_tags : list (list N) := map lit ["By"; "SB"; "U16"; "I16"; "U32"; "I32"; "U64"; "I64"]%string.

Section Numbers.
  Context (ci : option cipher) (show : value -> list N) (xml_text : xml -> list N) (float_of : list N -> res (list N))
          (classes : list N -> option cdesc).

  Lemma reparse_leaf m t s : s <> [] -> reparse (named m (Elem t [] (Some s) [])) = named m (Elem t [] (Some s) []).
  Proof. unfold named. destruct (m_name m); cbn [set_attr reparse map]; destruct s; congruence. Qed.
  Lemma x_tag_named m x : x_tag (named m x) = x_tag x.
  Proof. unfold named. destruct (m_name m); [|reflexivity]. destruct x. reflexivity. Qed.
  Lemma x_text_named m x : x_text (named m x) = x_text x.
  Proof. unfold named. destruct (m_name m); [|reflexivity]. destruct x. reflexivity. Qed.
  Lemma x_children_named m x : x_children (named m x) = x_children x.
  Proof. unfold named. destruct (m_name m); [|reflexivity]. destruct x. reflexivity. Qed.

  (* the text of an integer under [tag] *)
  Lemma ser_int heap fuel tag name opt z : In tag integer_tags ->
    serialize ci show classes heap (S fuel) (VInt z) (Meta KPlain tag name opt None) =
    Ok (Some (named (Meta KPlain tag name opt None) (Elem tag [] (Some (py_str z)) []))) /\
    serialize ci show classes heap (S fuel) (VTagged tag (VInt z)) (Meta KPlain star name opt None) =
    Ok (Some (named (Meta KPlain tag name opt None) (Elem tag [] (Some (py_str z)) []))).
  Proof.
    intros H. unfold integer_tags in H. cbn [map In] in H.
    repeat (destruct H as [H|H]; [subst tag; split; reflexivity|]). destruct H.
  Qed.
  Lemma des_int heap tag name opt z m : In tag integer_tags ->
    deserialize ci xml_text float_of classes heap (named (Meta KPlain tag name opt None) (Elem tag [] (Some (py_str z)) [])) m = Ok (VInt z, heap).
  Proof.
    intros H. rewrite read_scalar.
    - unfold scalar_of. set (x := named _ _).
      assert (E : primitive ci float_of x (clear_dst []) = Some (do z <- int_of (x_text x); Ok (VInt z))).
      { assert (Ex : x_tag x = tag) by (unfold x; rewrite x_tag_named; reflexivity). clearbody x.
        unfold primitive. cbv zeta. rewrite Ex. clear Ex. unfold integer_tags in H. cbn [map In] in H.
        repeat (destruct H as [H|H]; [subst tag; reflexivity|]). destruct H. }
      rewrite E. unfold x. rewrite x_text_named. cbn [x_text int_of]. rewrite py_int_str. reflexivity.
    - split; [rewrite x_children_named; reflexivity|]. rewrite x_tag_named. cbn [x_tag].
      unfold integer_tags in H. cbn [map In] in H.
      repeat (destruct H as [H|H]; [subst tag; unfold scalar_tags; cbn [map In]; tauto|]). destruct H.
  Qed.
  Lemma int_roundtrip heap heap' fuel tag name opt z v m' m : In tag integer_tags ->
    (v = VInt z /\ m = Meta KPlain tag name opt None \/ v = VTagged tag (VInt z) /\ m = Meta KPlain star name opt None \/
     v = VInt z /\ m = Meta KPlain star name opt None /\ tag = lit "I32") ->
    exists x, serialize ci show classes heap (S fuel) v m = Ok (Some x) /\
      deserialize ci xml_text float_of classes heap' (reparse x) m' = Ok (VInt z, heap').
  Proof.
    intros Ht H. exists (named (Meta KPlain tag name opt None) (Elem tag [] (Some (py_str z)) [])).
    split.
    - destruct (ser_int heap fuel tag name opt z Ht) as (A & B).
      destruct H as [(-> & ->)|[(-> & ->)|(-> & -> & ->)]]; [exact A|exact B|].
      destruct (ser_int heap fuel (lit "I32") name opt z Ht) as (A' & _). rewrite <- A'. reflexivity.
    - rewrite reparse_leaf by apply py_str_nonempty. apply des_int. exact Ht.
  Qed.

  Lemma py_str_of_N c : py_str (Z.of_N c) = dec c.
  Proof. unfold py_str. destruct (Z.ltb_spec (Z.of_N c) 0); [lia|]. rewrite N2Z.id. reflexivity. Qed.
  Lemma char_roundtrip heap heap' fuel name opt c v m' m : (c < 1114112)%N ->
    (v = VStr [c] /\ m = Meta KPlain (lit "C") name opt None \/ v = VTagged (lit "C") (VStr [c]) /\ m = Meta KPlain star name opt None) ->
    exists x, serialize ci show classes heap (S fuel) v m = Ok (Some x) /\
      deserialize ci xml_text float_of classes heap' (reparse x) m' = Ok (VStr [c], heap').
  Proof.
    intros Hc H. exists (named (Meta KPlain (lit "C") name opt None) (Elem (lit "C") [] (Some (dec c)) [])).
    split; [destruct H as [(-> & ->)|(-> & ->)]; reflexivity|].
    rewrite reparse_leaf by apply (dec_spec c). rewrite read_scalar.
    - unfold scalar_of. set (x := named _ _).
      assert (E : primitive ci float_of x (clear_dst []) = Some (char_of (x_text x))).
      { assert (Ex : x_tag x = lit "C") by (unfold x; rewrite x_tag_named; reflexivity). clearbody x.
        unfold primitive. cbv zeta. rewrite Ex. reflexivity. }
      rewrite E. unfold x. rewrite x_text_named. cbn [x_text]. unfold char_of, int_of.
      rewrite <- py_str_of_N, py_int_str. cbn [bind].
      replace (Z.leb 0 (Z.of_N c) && Z.ltb (Z.of_N c) 1114112)%bool with true by lia. rewrite N2Z.id. reflexivity.
    - split; [rewrite x_children_named; reflexivity|]. rewrite x_tag_named. unfold scalar_tags. cbn [x_tag map In]. tauto.
  Qed.
  Lemma int_read heap tag a t m z h : In tag integer_tags ->
    (deserialize ci xml_text float_of classes heap (Elem tag a t []) m = Ok (VInt z, h) <-> h = heap /\ exists s, t = Some s /\ numeral s z).
  Proof.
    intros H. rewrite read_scalar.
    - assert (E : scalar_of ci float_of (Elem tag a t []) = (do z <- int_of t; Ok (VInt z))).
      { unfold scalar_of, primitive. cbv zeta. cbn [x_tag x_text]. unfold integer_tags in H. cbn [map In] in H.
        repeat (destruct H as [H|H]; [subst tag; reflexivity|]). destruct H. }
      rewrite E. clear E. unfold int_of. destruct t as [s|].
      + destruct (py_int s) as [z0|e] eqn:P; cbn [bind]; split.
        * intros Q. apply Ok_pair_inj in Q. destruct Q as (Q & <-). split; [reflexivity|]. exists s. split; [reflexivity|]. apply int_numeral. rewrite P. congruence.
        * intros (-> & s' & Q & Nu). apply Some_inj in Q. subst s'. apply int_numeral in Nu. rewrite P in Nu. apply Ok_inj in Nu. subst z0. reflexivity.
        * intros Q. discriminate Q.
        * intros (-> & s' & Q & Nu). apply Some_inj in Q. subst s'. apply int_numeral in Nu. rewrite P in Nu. discriminate Nu.
      + cbn [bind]. split; [intros Q; discriminate Q|]. intros (_ & s' & Q & _). discriminate Q.
    - split; [reflexivity|]. cbn [x_tag]. unfold integer_tags in H. cbn [map In] in H.
      repeat (destruct H as [H|H]; [subst tag; unfold scalar_tags; cbn [map In]; tauto|]). destruct H.
  Qed.
  Lemma one_char heap fuel name opt s v m : length s <> 1%nat ->
    (v = VStr s /\ m = Meta KPlain (lit "C") name opt None \/ v = VTagged (lit "C") (VStr s) /\ m = Meta KPlain star name opt None) ->
    serialize ci show classes heap (S fuel) v m = Err TypeError.
  Proof.
    intros L H. destruct s as [|c [|c' s]]; [|contradiction L; reflexivity|]; destruct H as [(-> & ->)|(-> & ->)]; reflexivity.
  Qed.
End Numbers.

(* ---- the rule for properties ---- *)
Section Rule.
  Context (ci : option cipher) (xml_text : xml -> list N) (float_of : list N -> res (list N)) (classes : list N -> option cdesc).
  Let desf := des ci xml_text float_of classes.
  Let read := deserialize ci xml_text float_of classes.

  Lemma find_first_child t x y : child t x = Some y -> In y (x_children x) /\ x_tag y = t.
  Proof.
    unfold child, find_first. cbn [find_all]. intros H.
    destruct (flat_map (fun x0 => [x0]) (filter (fun c => str_eqb (x_tag c) t) (x_children x))) as [|z zs] eqn:E; [discriminate|].
    apply Some_inj in H. subst z. assert (K : In y (flat_map (fun x0 => [x0]) (filter (fun c => str_eqb (x_tag c) t) (x_children x)))) by (rewrite E; left; reflexivity).
    apply in_flat_map in K. destruct K as (q & Hq & [->|[]]). apply filter_In in Hq. destruct Hq as (A & B).
    apply str_eqb_spec in B. auto.
  Qed.
  Definition names_of (x : xml) : list (list N) := map (fun e => text_or_empty (x_text e)) (find_all [lit "TN"; lit "T"] x).
  Lemma get_types_headed x st : well_headed x -> exists st1, get_types x st = Ok (names_of x, st1) /\ d_heap st1 = d_heap st.
  Proof.
    intros (_ & _ & A & B). unfold get_types. fold (names_of x).
    assert (H : exists st1, match names_of x, child (lit "TN") x with
              | _ :: _, Some tn => do id <- attrib refid tn; Ok (tn_put id (names_of x) st)
              | _, _ => Ok st
              end = Ok st1 /\ d_heap st1 = d_heap st).
    { destruct (names_of x) as [|n ns]; [exists st; split; reflexivity|].
      destruct (child (lit "TN") x) as [tn|] eqn:C; [|exists st; split; reflexivity].
      apply find_first_child in C. destruct C as (C1 & C2). specialize (B tn C1 C2). unfold attrib.
      unfold refid. destruct (attr_get (lit "RefId") tn) as [id|]; [|congruence]. cbn [bind]. eexists. split; reflexivity. }
    destruct H as (st1 & -> & Hh). cbn [bind].
    destruct (child (lit "TNRef") x) as [r|] eqn:C; [|eauto].
    apply find_first_child in C. destruct C as (C1 & C2). destruct (A r C1 C2).
  Qed.

  (* every element found for a property can be read, whatever came before *)
  Definition readable (p : xml) (m : meta) : Prop :=
    forall fuel st, (depth p <= fuel)%nat -> exists r, desf fuel p m st = Ok r.
  Lemma scalar_readable p m v : scalar_elem p -> read [] p any_meta = Ok (v, []) -> readable p m.
  Proof.
    intros Hs H fuel st Hf. destruct (depth_S p) as (k & Hk). destruct fuel as [|fuel]; [lia|].
    unfold desf. rewrite (des_scalar ci xml_text float_of classes _ _ _ _ Hs). unfold read in H. rewrite (read_scalar ci xml_text float_of classes _ _ _ Hs) in H.
    destruct (scalar_of ci float_of p); [|discriminate]. cbn [bind]. eauto.
  Qed.

  Section Group.
    Context (fuel : nat) (x : xml) (d : cdesc) (n : nat).
    Context (Hd : (depth x <= S fuel)%nat) (Ht : forall attrs, exists t, cd_text d attrs = Ok t).
    Context (Hr : forall g props a m e t, In (g, props) (groups d) -> In (a, m) props -> member g x e -> In t (property_tags m) ->
                    fits t (m_name m) e -> readable e m).
    Definition whole (g : option (list N)) (props : list (list N * meta)) : Prop :=
      forall a m, In (a, m) props -> m_optional m = false -> present g m x \/ nilled g m x.
    Lemma group_rule g all props : In (g, all) (groups d) -> incl props all -> forall st,
      (exists st', des_properties (desf fuel) d (path_of g) x n props st = Ok st') \/
      (des_properties (desf fuel) d (path_of g) x n props st = Err SerializationError /\ ~ whole g all).
    Proof.
      intros Hg. induction props as [|[a m] props IH]; intros Hi st; cbn [des_properties]; [left; eauto|].
      assert (Ha : In (a, m) all) by (apply Hi; left; reflexivity).
      assert (K : (exists st', des_property (desf fuel) d (path_of g) x n a m st = Ok st') \/
                  (des_property (desf fuel) d (path_of g) x n a m st = Err SerializationError /\ ~ whole g all)).
      { unfold des_property. destruct (find_property (path_of g) m x) as [p|] eqn:F.
        - apply find_property_some in F. destruct F as (U & t & V & W).
          destruct (Hr g all a m p t Hg Ha U V W fuel st) as ([[v m'] st1] & R); [apply present_depth in U; lia|].
          rewrite R. cbn [bind]. left. eauto.
        - destruct (m_optional m) eqn:Ho; [left; eauto|].
          destruct (find_in (path_of g) (lit "Nil") (m_name m) x) as [e|] eqn:Fn; [left; eauto|].
          right. destruct (Ht (attrs_of n st)) as (t & ->). split; [reflexivity|].
          intros K. destruct (K a m Ha Ho) as [P|(e & P & Q)].
          + exact (find_property_none _ _ _ F P).
          + exact (find_in_none _ _ _ _ Fn e P Q). }
      destruct K as [(st' & K)|(K & Nw)]; rewrite K; cbn [bind]; [|right; auto].
      apply IH. intros q Hq. apply Hi. right. exact Hq.
    Qed.
  End Group.

  Lemma read_rule heap x c d : classes c = Some d -> well_headed x ->
    (forall attrs, exists t, cd_text d attrs = Ok t) ->
    (forall t, In t (x_children x) -> x_tag t = lit "ToString" -> exists s, deserialize_string (x_text t) = Ok s) ->
    (forall g props a m e t, In (g, props) (groups d) -> In (a, m) props -> member g x e -> In t (property_tags m) ->
       fits t (m_name m) e -> readable e m) ->
    (exists r, read heap x (class_meta c) = Ok r) \/ (read heap x (class_meta c) = Err SerializationError /\ ~ complete d x).
  Proof.
    intros Hc Hw Ht Hs Hr. unfold read, deserialize. destruct (depth_S x) as (k & Hk). rewrite Hk. fold desf.
    unfold desf at 1 2. cbn [des]. fold desf.
    change (if str_eqb (m_tag (class_meta c)) star then set_tag (x_tag x) (class_meta c) else class_meta c) with (class_meta c).
    destruct (get_types_headed x (clear_dst heap) Hw) as (st1 & G & Gh). rewrite G. cbn [bind].
    destruct Hw as (Htag & Hid & _ & _).
    rewrite (obj_not_primitive ci float_of x st1 Htag).
    change (is_plain (class_meta c) && is_none (m_object (class_meta c)))%bool with false. cbv iota.
    unfold des_struct. change (str_eqb (m_tag (class_meta c)) (lit "Obj")) with true. cbv iota.
    unfold des_obj. change (m_object (class_meta c)) with (Some c). cbv iota. rewrite Hc. cbn [new_obj].
    rewrite Htag. change (str_eqb (lit "Obj") (lit "Obj")) with true. cbv iota.
    unfold attrib, refid. destruct (attr_get (lit "RefId") x) as [id|]; [|congruence]. cbn [bind].
    set (n := length (d_heap st1)). set (st2 := obj_put id (VObj n) _).
    assert (T : exists st3, match child (lit "ToString") x with
                     | Some t => do s <- deserialize_string (x_text t); Ok (upd_obj n (set_field (lit "_to_string") (VStr s)) st2)
                     | None => Ok st2 end = Ok st3).
    { destruct (child (lit "ToString") x) as [t|] eqn:C; [|eauto]. apply find_first_child in C. destruct C as (C1 & C2).
      destruct (Hs t C1 C2) as (s & ->). cbn [bind]. eauto. }
    destruct T as (st3 & ->). cbn [bind].
    assert (Hx : (depth x <= S k)%nat) by lia.
    assert (Nc : forall g props, In (g, props) (groups d) -> ~ whole x g props -> ~ complete d x).
    { intros g props Hg Hn Hcm. apply Hn. intros a m Ha Ho. exact (Hcm g props a m Hg Ha Ho). }
    destruct (group_rule k x d n Hx Ht Hr None (cd_sets d) (cd_sets d) (or_introl eq_refl) (incl_refl _) st3) as [(st4 & E)|(E & W)];
      cbn [path_of] in E; rewrite E; cbn [bind]; [|right; split; [reflexivity|exact (Nc _ _ (or_introl eq_refl) W)]].
    destruct (group_rule k x d n Hx Ht Hr (Some (lit "Props")) (cd_adapted d) (cd_adapted d) (or_intror (or_introl eq_refl)) (incl_refl _) st4) as [(st5 & E5)|(E5 & W)];
      cbn [path_of] in E5; rewrite E5; cbn [bind]; [|right; split; [reflexivity|exact (Nc _ _ (or_intror (or_introl eq_refl)) W)]].
    destruct (group_rule k x d n Hx Ht Hr (Some (lit "MS")) (cd_extended d) (cd_extended d) (or_intror (or_intror (or_introl eq_refl))) (incl_refl _) st5) as [(st6 & E6)|(E6 & W)];
      cbn [path_of] in E6; rewrite E6; cbn [bind]; [|right; split; [reflexivity|exact (Nc _ _ (or_intror (or_intror (or_introl eq_refl))) W)]].
    left. eauto.
  Qed.

  (* the class is found by the first type name that is known *)
  Lemma read_by_type heap x c : well_headed x -> names_of x <> [] -> choose (names_of x) = Ok (Some (class_meta c)) ->
    read heap x any_meta = read heap x (class_meta c).
  Proof.
    intros Hw Hn Hc. unfold read, deserialize. destruct (depth_S x) as (k & Hk). rewrite Hk.
    cbn [des].
    change (if str_eqb (m_tag (class_meta c)) star then set_tag (x_tag x) (class_meta c) else class_meta c) with (class_meta c).
    change (if str_eqb (m_tag any_meta) star then set_tag (x_tag x) any_meta else any_meta) with (object_meta (x_tag x) None).
    destruct (get_types_headed x (clear_dst heap) Hw) as (st1 & G & _). rewrite G. cbn [bind].
    destruct Hw as (Htag & _). rewrite (obj_not_primitive ci float_of x st1 Htag).
    change (is_plain (class_meta c) && is_none (m_object (class_meta c)))%bool with false. cbv iota.
    change (is_plain (object_meta (x_tag x) None) && is_none (m_object (object_meta (x_tag x) None)))%bool with true. cbv iota.
    destruct (names_of x) as [|t ts]; [congruence|]. rewrite Hc. cbn [bind].
    destruct (des_struct xml_text classes (des ci xml_text float_of classes k) x (class_meta c) st1) as [[[v m] st2]|e]; [|reflexivity].
    cbn [bind]. destruct (if str_eqb (x_tag x) (lit "Obj") then _ else _) as [st3|e]; reflexivity.
  Qed.

  (* ---- a generic object from scalars ---- *)
  Definition val (e : xml) : value := match scalar_of ci float_of e with Ok v => v | Err _ => VNone end.
  Definition name (e : xml) : list N := match attr_get (lit "N") e with Some n => n | None => [] end.
  Definition put_all (es : list xml) (d : list (list N * value)) : list (list N * value) :=
    fold_left (fun d e => dict_set str_eqb (name e) (val e) d) es d.
  Definition good_scalar (e : xml) : Prop := scalar_elem e /\ exists v, read [] e any_meta = Ok (v, []).
  Definition absorb (g : gobj) (p : xml) : gobj :=
    let t := x_tag p in
    if str_eqb t (lit "TN") then mkG (g_types g ++ map (fun e => text_or_empty (x_text e)) (x_children p)) (g_text g) (g_sets g) (g_adapted g) (g_extended g)
    else if str_eqb t (lit "Props") then mkG (g_types g) (g_text g) (g_sets g) (put_all (x_children p) (g_adapted g)) (g_extended g)
    else if str_eqb t (lit "MS") then mkG (g_types g) (g_text g) (g_sets g) (g_adapted g) (put_all (x_children p) (g_extended g))
    else if str_eqb t (lit "ToString") then mkG (g_types g) (val p) (g_sets g) (g_adapted g) (g_extended g)
    else mkG (g_types g) (g_text g) (g_sets g ++ [val p]) (g_adapted g) (g_extended g).
  Definition simple_child (p : xml) : Prop :=
    x_tag p = lit "TN" /\ attr_get (lit "RefId") p <> None \/
    (x_tag p = lit "Props" \/ x_tag p = lit "MS") /\ Forall (fun e => good_scalar e /\ attr_get (lit "N") e <> None) (x_children p) \/
    good_scalar p.

  Lemma good_scalar_des fuel e m st : (1 <= fuel)%nat -> good_scalar e -> desf fuel e m st = Ok (val e, next_meta e m, st).
  Proof.
    intros Hf (Hs & v & Hv). destruct fuel as [|fuel]; [lia|]. unfold desf.
    rewrite (des_scalar ci xml_text float_of classes _ _ _ _ Hs). unfold read in Hv. rewrite (read_scalar ci xml_text float_of classes _ _ _ Hs) in Hv.
    unfold val. destruct (scalar_of ci float_of e); [reflexivity|discriminate].
  Qed.
  Lemma good_scalar_val e m h : good_scalar e -> read h e m = Ok (val e, h).
  Proof.
    intros (Hs & v & Hv). unfold read in *. rewrite (read_scalar ci xml_text float_of classes _ _ _ Hs) in Hv. rewrite (read_scalar ci xml_text float_of classes _ _ _ Hs).
    unfold val. destruct (scalar_of ci float_of e); [reflexivity|cbn [bind] in Hv; discriminate Hv].
  Qed.
  Lemma named_scalars fuel h (put : list N -> value -> gobj -> gobj) es : (1 <= fuel)%nat ->
    Forall (fun e => good_scalar e /\ attr_get (lit "N") e <> None) es ->
    forall g st, d_heap st = h ++ [HGen g] ->
    exists st', des_named (desf fuel) es (fun k v => upd_obj (length h) (on_gen (put k v))) st = Ok st' /\
      d_heap st' = h ++ [HGen (fold_left (fun g e => put (name e) (val e) g) es g)].
  Proof.
    intros Hf. induction es as [|e es IH]; intros Hes g st Hst; cbn [des_named fold_left]; [exists st; auto|].
    destruct (Forall_inv Hes) as (Hg & Hn). unfold attrib. unfold name at 2.
    destruct (attr_get (lit "N") e) as [k|] eqn:Hk; [|congruence]. cbn [bind]. rewrite (good_scalar_des _ _ _ _ Hf Hg). cbn [bind].
    apply (IH (Forall_inv_tail Hes)). unfold upd_obj. cbn [set_d_heap d_heap]. rewrite Hst.
    exact (upd_nth_at (on_gen (put k (val e))) h (HGen g) []).
  Qed.
  Lemma fold_adapted es : forall g, fold_left (fun g e => mkG (g_types g) (g_text g) (g_sets g) (dict_set str_eqb (name e) (val e) (g_adapted g)) (g_extended g)) es g =
    mkG (g_types g) (g_text g) (g_sets g) (put_all es (g_adapted g)) (g_extended g).
  Proof. induction es as [|e es IH]; intros g; cbn [fold_left put_all]; [destruct g; reflexivity|]. rewrite IH. reflexivity. Qed.
  Lemma fold_extended es : forall g, fold_left (fun g e => mkG (g_types g) (g_text g) (g_sets g) (g_adapted g) (dict_set str_eqb (name e) (val e) (g_extended g))) es g =
    mkG (g_types g) (g_text g) (g_sets g) (g_adapted g) (put_all es (g_extended g)).
  Proof. induction es as [|e es IH]; intros g; cbn [fold_left put_all]; [destruct g; reflexivity|]. rewrite IH. reflexivity. Qed.

  Lemma scalar_not t e : scalar_elem e -> existsb (str_eqb t) scalar_tags = false -> str_eqb (x_tag e) t = false.
  Proof.
    intros (_ & H) Ht. destruct (str_eqb (x_tag e) t) eqn:E; [|reflexivity]. apply str_eqb_spec in E. subst t.
    assert (existsb (str_eqb (x_tag e)) scalar_tags = true) by (apply existsb_exists; exists (x_tag e); split; [exact H|apply str_eqb_refl]).
    congruence.
  Qed.
  Lemma children_scalars fuel h ps : (1 <= fuel)%nat -> Forall simple_child ps ->
    forall g st, d_heap st = h ++ [HGen g] ->
    exists st', des_children (desf fuel) (length h) ps st = Ok st' /\ d_heap st' = h ++ [HGen (fold_left absorb ps g)].
  Proof.
    intros Hf. induction ps as [|p ps IH]; intros Hps g st Hst; cbn [des_children fold_left]; [exists st; auto|].
    match goal with |- exists st', bind ?a _ = _ /\ _ => assert (K : exists st1, a = Ok st1 /\ d_heap st1 = h ++ [HGen (absorb g p)]) end.
    { assert (Hn : nth_error (d_heap st) (length h) = Some (HGen g)) by (rewrite Hst, nth_error_app2, Nat.sub_diag by lia; reflexivity).
      assert (Hu : forall f, d_heap (upd_obj (length h) (on_gen f) st) = h ++ [HGen (f g)]).
      { intros f. unfold upd_obj. cbn [set_d_heap d_heap]. rewrite Hst. exact (upd_nth_at (on_gen f) h (HGen g) []). }
      unfold absorb. destruct (Forall_inv Hps) as [(Ht & Hi)|[([Ht|Ht] & Hc)|Hg]].
      - rewrite Ht. change (str_eqb (lit "TN") (lit "TN")) with true. cbv iota zeta. unfold attrib, refid.
        destruct (attr_get (lit "RefId") p); [|congruence]. cbn [bind]. rewrite Hn. eexists. split; [reflexivity|].
        change (d_heap (tn_put ?i ?t ?s)) with (d_heap s). rewrite Hu. reflexivity.
      - rewrite Ht. change (str_eqb (lit "Props") (lit "TN")) with false. change (str_eqb (lit "Props") (lit "TNRef")) with false.
        change (str_eqb (lit "Props") (lit "Props")) with true. cbv iota.
        destruct (named_scalars fuel h (fun k v g => mkG (g_types g) (g_text g) (g_sets g) (dict_set str_eqb k v (g_adapted g)) (g_extended g)) _ Hf Hc g st Hst) as (st1 & E & Eh).
        exists st1. split; [exact E|]. rewrite Eh, fold_adapted. reflexivity.
      - rewrite Ht. change (str_eqb (lit "MS") (lit "TN")) with false. change (str_eqb (lit "MS") (lit "TNRef")) with false.
        change (str_eqb (lit "MS") (lit "Props")) with false. change (str_eqb (lit "MS") (lit "MS")) with true. cbv iota.
        destruct (named_scalars fuel h (fun k v g => mkG (g_types g) (g_text g) (g_sets g) (g_adapted g) (dict_set str_eqb k v (g_extended g))) _ Hf Hc g st Hst) as (st1 & E & Eh).
        exists st1. split; [exact E|]. rewrite Eh, fold_extended. reflexivity.
      - destruct Hg as (Hs & Hv). assert (Hg : good_scalar p) by (split; assumption).
        rewrite !(scalar_not _ _ Hs) by reflexivity.
        rewrite (good_scalar_des _ _ _ _ Hf Hg). cbn [bind].
        destruct (str_eqb (x_tag p) (lit "ToString")); eexists; (split; [reflexivity|rewrite Hu; reflexivity]). }
    destruct K as (st1 & E & Eh). rewrite E. cbn [bind]. exact (IH (Forall_inv_tail Hps) _ _ Eh).
  Qed.

  Lemma put_all_get n w es : forall d, (forall e, In e es -> name e = n -> val e = w) ->
    (exists e, In e es /\ name e = n) \/ dict_get str_eqb n d = Some w -> dict_get str_eqb n (put_all es d) = Some w.
  Proof.
    induction es as [|e es IH]; intros d Hu H; cbn [put_all fold_left].
    - destruct H as [(e & [] & _)|H]. exact H.
    - apply IH; [intros e' He'; apply Hu; right; exact He'|].
      destruct (str_eqb n (name e)) eqn:E.
      + apply str_eqb_spec in E. right. rewrite <- E, (dict_get_set_same str_eqb str_eqb_spec).
        rewrite (Hu e (or_introl eq_refl) (eq_sym E)). reflexivity.
      + assert (Ne : name e <> n) by (intros K; rewrite K, str_eqb_refl in E; discriminate).
        destruct H as [(e' & [->|He'] & K)|H]; [congruence|left; eauto|].
        right. rewrite (dict_get_set_other str_eqb str_eqb_spec); [exact H|congruence].
  Qed.
  Lemma put_all_inv n w es : forall d, dict_get str_eqb n (put_all es d) = Some w ->
    (exists e, In e es /\ name e = n /\ val e = w) \/ dict_get str_eqb n d = Some w.
  Proof.
    induction es as [|e es IH]; intros d H; cbn [put_all fold_left] in H; [auto|].
    apply IH in H. destruct H as [(e' & A & B)|H]; [left; exists e'; split; [right; exact A|exact B]|].
    destruct (str_eqb n (name e)) eqn:E.
    - apply str_eqb_spec in E. left. exists e. split; [left; reflexivity|]. split; [auto|].
      rewrite <- E, (dict_get_set_same str_eqb str_eqb_spec) in H. apply Some_inj in H. exact H.
    - right. rewrite (dict_get_set_other str_eqb str_eqb_spec) in H; [exact H|]. intros K. rewrite K, str_eqb_refl in E. discriminate.
  Qed.
  (* the two groups of an object, alike *)
  Definition side (t : list N) (g : gobj) : list (list N * value) := if str_eqb t (lit "Props") then g_adapted g else g_extended g.
  Lemma absorb_side t g p : t = lit "Props" \/ t = lit "MS" ->
    side t (absorb g p) = if str_eqb (x_tag p) t then put_all (x_children p) (side t g) else side t g.
  Proof.
    intros Ht. unfold absorb.
    destruct (str_eqb (x_tag p) (lit "TN")) eqn:A; [apply str_eqb_spec in A; rewrite A; destruct Ht as [-> | ->]; reflexivity|].
    destruct (str_eqb (x_tag p) (lit "Props")) eqn:B; [apply str_eqb_spec in B; rewrite B; destruct Ht as [-> | ->]; reflexivity|].
    destruct (str_eqb (x_tag p) (lit "MS")) eqn:C; [apply str_eqb_spec in C; rewrite C; destruct Ht as [-> | ->]; reflexivity|].
    assert (E : str_eqb (x_tag p) t = false) by (destruct Ht as [-> | ->]; assumption). rewrite E.
    destruct (str_eqb (x_tag p) (lit "ToString")); destruct Ht as [-> | ->]; reflexivity.
  Qed.
  Lemma absorb_get t n w ps : t = lit "Props" \/ t = lit "MS" ->
    (forall p e, In p ps -> x_tag p = t -> In e (x_children p) -> name e = n -> val e = w) ->
    forall g, (exists p e, In p ps /\ x_tag p = t /\ In e (x_children p) /\ name e = n) \/ dict_get str_eqb n (side t g) = Some w ->
    dict_get str_eqb n (side t (fold_left absorb ps g)) = Some w.
  Proof.
    intros Ht. induction ps as [|p ps IH]; intros Hu g H; cbn [fold_left].
    - destruct H as [(p & e & [] & _)|H]. exact H.
    - apply IH; [intros q e Hq; apply Hu; right; exact Hq|]. rewrite (absorb_side t g p Ht).
      destruct (str_eqb (x_tag p) t) eqn:E.
      + apply str_eqb_spec in E. destruct H as [(q & e & [->|Hq] & K)|H].
        * right. apply put_all_get; [intros e' He'; apply (Hu q e' (or_introl eq_refl) E He')|]. left. exists e. tauto.
        * left. exists q, e. tauto.
        * right. apply put_all_get; [intros e' He'; apply (Hu p e' (or_introl eq_refl) E He')|]. auto.
      + destruct H as [(q & e & [->|Hq] & K)|H]; [|left; exists q, e; tauto|right; exact H].
        destruct K as (K & _). rewrite K, str_eqb_refl in E. discriminate.
  Qed.
  Lemma absorb_inv t n w ps : t = lit "Props" \/ t = lit "MS" ->
    forall g, dict_get str_eqb n (side t (fold_left absorb ps g)) = Some w ->
    (exists p e, In p ps /\ x_tag p = t /\ In e (x_children p) /\ name e = n /\ val e = w) \/ dict_get str_eqb n (side t g) = Some w.
  Proof.
    intros Ht. induction ps as [|p ps IH]; intros g H; cbn [fold_left] in H; [auto|].
    apply IH in H. destruct H as [(q & e & A & B)|H]; [left; exists q, e; split; [right; exact A|exact B]|].
    rewrite (absorb_side t g p Ht) in H. destruct (str_eqb (x_tag p) t) eqn:E; [|auto].
    apply str_eqb_spec in E. apply put_all_inv in H. destruct H as [(e & A & B)|H]; [|auto].
    left. exists p, e. split; [left; reflexivity|]. auto.
  Qed.

  Lemma output_generic heap x : well_headed x -> Forall simple_child (x_children x) ->
    read heap x any_meta = Err SerializationError ->
    exists g, output_value ci xml_text float_of classes heap x = Ok (VObj (length heap), heap ++ [HGen g]) /\
      forall t n e, t = lit "Props" \/ t = lit "MS" -> member (Some t) x e -> attr_get (lit "N") e = Some n ->
        (forall e', member (Some t) x e' -> attr_get (lit "N") e' = Some n -> e' = e) ->
        exists v, read [] e any_meta = Ok (v, []) /\
          dict_get str_eqb n (if str_eqb t (lit "Props") then g_adapted g else g_extended g) = Some v.
  Proof.
    intros Hw Hc He. unfold output_value. fold read. rewrite He. unfold read at 1, deserialize.
    destruct (depth_S x) as (k & Hk). rewrite Hk. cbn [des].
    change (if str_eqb (m_tag generic_meta) star then set_tag (x_tag x) generic_meta else generic_meta) with generic_meta.
    destruct (get_types_headed x (clear_dst heap) Hw) as (st1 & G & Gh). rewrite G. cbn [bind]. cbn [clear_dst d_heap] in Gh.
    pose proof Hw as (Htag & Hid & _ & _). rewrite (obj_not_primitive ci float_of x st1 Htag).
    change (is_plain generic_meta && is_none (m_object generic_meta))%bool with false. cbv iota.
    unfold des_struct. change (str_eqb (m_tag generic_meta) (lit "Obj")) with false.
    change (str_eqb (m_tag generic_meta) (lit "ObjDynamic")) with true. cbv iota.
    unfold des_dynamic. change (m_object generic_meta) with (Some generic_name). cbv iota.
    change (str_eqb generic_name generic_name) with true. cbv iota. cbn [new_obj].
    rewrite Htag. change (str_eqb (lit "Obj") (lit "Obj")) with true. cbv iota.
    unfold attrib, refid. destruct (attr_get (lit "RefId") x) as [id|]; [|congruence]. cbn [bind].
    set (st2 := obj_put id _ _). assert (Hst2 : d_heap st2 = heap ++ [HGen empty_gobj]) by (unfold st2; cbn; rewrite Gh; reflexivity).
    rewrite Gh.
    assert (Hkids : (1 <= k)%nat \/ x_children x = []).
    { destruct (x_children x) as [|c cs] eqn:Ec; [auto|]. left. assert (In c (x_children x)) by (rewrite Ec; left; reflexivity).
      apply depth_child in H. destruct (depth_S c) as (j & Hj). lia. }
    assert (R : exists st', des_children (des ci xml_text float_of classes k) (length heap) (x_children x) st2 = Ok st' /\
                d_heap st' = heap ++ [HGen (fold_left absorb (x_children x) empty_gobj)]).
    { destruct Hkids as [Hk1|Hnil].
      - exact (children_scalars k heap (x_children x) Hk1 Hc empty_gobj st2 Hst2).
      - rewrite Hnil. exists st2. split; [reflexivity|exact Hst2]. }
    destruct R as (st' & E & Eh). rewrite E. cbn [bind]. exists (fold_left absorb (x_children x) empty_gobj).
    split; [cbn [obj_put set_d_obj d_heap]; rewrite Eh; reflexivity|].
    intros t n e Ht (p & Hp & Htp & Hep) Hn Hu. exists (val e). 
    assert (Hgood : forall q e', In q (x_children x) -> x_tag q = t -> In e' (x_children q) -> good_scalar e' /\ attr_get (lit "N") e' <> None).
    { intros q e' Hq Hqt He'. rewrite Forall_forall in Hc. destruct (Hc q Hq) as [(K & _)|[(_ & K)|(K & _)]].
      - rewrite K in Hqt. destruct Ht as [Ht|Ht]; rewrite Ht in Hqt; vm_compute in Hqt; discriminate Hqt.
      - rewrite Forall_forall in K. exact (K e' He').
      - destruct K as (K & _). rewrite K in He'. destruct He'. }
    split; [apply good_scalar_val; apply (Hgood p e Hp Htp Hep)|].
    assert (Nm : forall e', name e' = n -> attr_get (lit "N") e' <> None -> attr_get (lit "N") e' = Some n).
    { intros e'. unfold name. destruct (attr_get (lit "N") e'); congruence. }
    apply (absorb_get t n (val e) (x_children x) Ht).
    - intros q e' Hq Hqt He' Hne. destruct (Hgood q e' Hq Hqt He') as (_ & K).
      rewrite (Hu e'); [reflexivity|exists q; auto|apply Nm; assumption].
    - left. exists p, e. unfold name. rewrite Hn. auto.
  Qed.
End Rule.

(* ---- identifiers, as stated ---- *)
Lemma nseq_seq k : nseq k = map (fun i => dec (N.of_nat i)) (seq 0 k).
Proof. induction k as [|k IH]; [reflexivity|]. rewrite seq_S, map_app, <- IH. reflexivity. Qed.
Lemma serialize_ids ci show classes heap fuel v m x : Forall elementless_obj heap -> elementless v ->
  serialize ci show classes heap fuel v m = Ok (Some x) ->
  exists n k,
    obj_ids (marks (reparse x)) = map (fun i => dec (N.of_nat i)) (seq 0 n) /\ NoDup (obj_ids (marks (reparse x))) /\
    tn_ids (marks (reparse x)) = map (fun i => dec (N.of_nat i)) (seq 0 k) /\ NoDup (tn_ids (marks (reparse x))) /\
    preceded (fun before y => match y with
                              | MRef i => In (MObj i) before
                              | MTypesRef i => exists ts, In (MTypes i ts) before
                              | _ => True
                              end) (marks (reparse x)).
Proof.
  intros Hh Hv H. rewrite reparse_marks. destruct (serialize_marks ci show classes heap Hh fuel v m x Hv H) as (n & k & A & B & C).
  exists (N.to_nat n), (N.to_nat k). rewrite A, B. unfold numbers. rewrite <- !nseq_seq.
  split; [reflexivity|]. split; [exact (nodup_numbers n)|]. split; [reflexivity|]. split; [exact (nodup_numbers k)|]. exact C.
Qed.

(* ---- the attributes of the library's classes ---- *)
From Verif Require Import SerClasses.
Fixpoint nodupb (l : list (list N)) : bool := match l with [] => true | a :: l' => (negb (existsb (str_eqb a) l') && nodupb l')%bool end.
Lemma nodupb_spec l : nodupb l = true -> NoDup l.
Proof.
  induction l as [|a l IH]; cbn [nodupb]; [constructor|]. rewrite Bool.andb_true_iff, Bool.negb_true_iff. intros (A & B).
  constructor; [|auto]. intros H. assert (K : existsb (str_eqb a) l = true) by (apply existsb_exists; exists a; split; [exact H|apply str_eqb_refl]).
  congruence.
Qed.
Lemma dict_get_in {V} k (d : list (list N * V)) v : dict_get str_eqb k d = Some v -> In v (map snd d).
Proof.
  induction d as [|[k' v'] d IH]; cbn [dict_get]; [discriminate|]. destruct (str_eqb k k').
  - intros H. apply Some_inj in H. left. exact H.
  - intros H. right. auto.
Qed.
Lemma library_names c d : library c = Some d -> NoDup (attribute_names d).
Proof.
  intros H. apply nodupb_spec. apply dict_get_in in H.
  assert (K : forallb (fun d => nodupb (attribute_names d)) (map snd library_classes) = true) by (vm_compute; reflexivity).
  rewrite forallb_forall in K. exact (K d H).
Qed.
