(* Lemmas about reading back a value that was serialized. *)
From Coq Require Import Lia ZifyBool ZifyNat ZifyN.
From Verif Require Import Base BaseProofs Lit NumModel NumProofs TextModel TextSpec MsgModel XmlModel SerModel SerSpec SerSpec2
  SerProofs SerProofs2 SerProofs3 SerProofs4.
From Verif Require TextProofs TextProofs2.

(* ---- serialization of these values succeeds ---- *)
Lemma bound_all {A} (P : nat -> A -> Prop) l :
  Forall (fun a => exists f0, forall f, (f0 <= f)%nat -> P f a) l -> exists f0, forall f, (f0 <= f)%nat -> Forall (P f) l.
Proof.
  induction 1 as [|a l (f1 & H1) _ (f2 & H2)]; [exists O; constructor|].
  exists (f1 + f2)%nat. intros f Hf. constructor; [apply H1; lia|apply H2; lia].
Qed.
Definition ser_ok ci show classes heap (fuel : nat) (v : value) : Prop :=
  forall key st, exists x m' st', ser ci show classes heap fuel v (object_meta star key) st = Ok (Some x, m', st') /\ m_kind m' = KPlain.
Lemma tn_ok types st : types <> [] -> exists x st1, create_tn types st = Ok (x, st1).
Proof.
  intros H. unfold create_tn. destruct types as [|main rest]; [contradiction|].
  destruct (dict_get str_eqb main (s_tn st)); eauto.
Qed.
Lemma entries_ok rec vs : (Forall (fun v => forall key st, exists x m' st', rec v (object_meta star key) st = Ok (Some x, m', st') /\ m_kind m' = KPlain) vs) ->
  forall st, exists xs m' st', ser_entries rec true any_meta vs st = Ok (xs, m', st').
Proof.
  induction 1 as [|v vs Hv _ IH]; intros st; cbn [ser_entries]; [eauto|].
  destruct (Hv None st) as (x & m1 & st1 & E & K). change (object_meta star None) with any_meta in E. rewrite E. cbn [bind]. rewrite K.
  change (set_kind KPlain any_meta) with any_meta. destruct (IH st1) as (xs & m2 & st2 & E2). rewrite E2. cbn [bind]. eauto.
Qed.
Lemma pairs_ok rec d : (Forall (fun e => (forall key st, exists x m' st', rec (fst e) (object_meta star key) st = Ok (Some x, m', st') /\ m_kind m' = KPlain) /\
    (forall key st, exists x m' st', rec (snd e) (object_meta star key) st = Ok (Some x, m', st') /\ m_kind m' = KPlain)) d) ->
  forall st, exists xs km vm st', ser_pairs rec (object_meta star (Some (lit "Key"))) (object_meta star (Some (lit "Value"))) d st = Ok (xs, km, vm, st').
Proof.
  induction 1 as [|[k v] d (Hk & Hv) _ IH]; intros st; cbn [ser_pairs]; [eauto|]. cbn [fst snd] in Hk, Hv.
  destruct (Hk (Some (lit "Key")) st) as (x & m1 & st1 & E & K). rewrite E. cbn [bind].
  destruct (Hv (Some (lit "Value")) st1) as (y & m2 & st2 & E' & K'). rewrite E'. cbn [bind]. rewrite K, K'.
  change (set_kind KPlain (object_meta star ?q)) with (object_meta star q).
  destruct (IH st2) as (xs & km & vm & st3 & E2). rewrite E2. cbn [bind]. eauto 8.
Qed.
Lemma scalar_ok ci show classes heap v : scalar_value v -> forall fuel, ser_ok ci show classes heap (S fuel) v.
Proof. intros H fuel key st. destruct H; do 3 eexists; split; reflexivity. Qed.
Lemma list_ok ci show classes heap l fuel : Forall (ser_ok ci show classes heap fuel) l -> ser_ok ci show classes heap (S fuel) (VList l).
Proof.
  intros H key st. rewrite ser_S. cbn [is_vxml].
  change (tagged heap (VList l) (object_meta star key)) with (lit "LST", VList l). cbv iota beta.
  unfold ser_with. change (negb _) with false. cbn [is_vnone].
  change (pack_text _ _ _ _ _) with (@None (res (list N))). cbv iota.
  change (pack_struct _ _ _ _ _ _ _) with (ser_lst (ser ci show classes heap fuel) (lit "LST") (object_meta (lit "LST") key) (VList l) st).
  unfold ser_lst. change (iterate (VList l)) with (Ok l). cbn [bind].
  change (list_info _) with (@None (meta * list (list N))). cbv iota. unfold ser_list.
  destruct (take_id st) as [id st0]. cbn [fst snd].
  destruct (tn_ok list_names st0) as (tn & st1 & E1); [discriminate|]. change list_names with [lit "System.Object[]"; lit "System.Array"; lit "System.Object"] in E1.
  rewrite E1. cbn [bind]. destruct (entries_ok _ _ H st1) as (xs & m' & st2 & E2). rewrite E2. cbn [bind].
  do 3 eexists. split; reflexivity.
Qed.
Lemma dict_ok ci show classes heap d fuel : Forall (fun e => ser_ok ci show classes heap fuel (fst e) /\ ser_ok ci show classes heap fuel (snd e)) d ->
  ser_ok ci show classes heap (S fuel) (VDict d).
Proof.
  intros H key st. rewrite ser_S. cbn [is_vxml].
  change (tagged heap (VDict d) (object_meta star key)) with (lit "DCT", VDict d). cbv iota beta.
  unfold ser_with. change (negb _) with false. cbn [is_vnone].
  change (pack_text _ _ _ _ _) with (@None (res (list N))). cbv iota.
  change (pack_struct _ _ _ _ _ _ _) with (ser_dct (ser ci show classes heap fuel) (object_meta (lit "DCT") key) (VDict d) st).
  unfold ser_dct. cbn [m_kind object_meta]. destruct (take_id st) as [id st0]. cbn [bind].
  destruct (tn_ok dict_names st0) as (tn & st1 & E1); [discriminate|]. change dict_names with [lit "System.Collections.Hashtable"; lit "System.Object"] in E1.
  rewrite E1. cbn [bind]. destruct (pairs_ok _ _ H st1) as (xs & km & vm & st2 & E2). rewrite E2. cbn [bind].
  do 3 eexists. split; reflexivity.
Qed.
Lemma claimed_ok ci show classes heap : forall v, claimed v -> exists f0, forall f, (f0 <= f)%nat -> ser_ok ci show classes heap f v.
Proof.
  fix IH 2. intros v H. destruct H as [v Hs|l Hl|d Hk Hv _].
  - exists 1%nat. intros [|f] Hf; [lia|]. apply scalar_ok. exact Hs.
  - assert (K : Forall (fun v => exists f0, forall f, (f0 <= f)%nat -> ser_ok ci show classes heap f v) l).
    { induction Hl as [|x l Hx Hl IHl]; constructor; [apply IH; exact Hx|exact IHl]. }
    clear Hl IH. apply bound_all in K. destruct K as (f0 & K). exists (S f0). intros [|f] Hf; [lia|]. apply list_ok. apply K. lia.
  - assert (K : Forall (fun e => exists f0, forall f, (f0 <= f)%nat -> ser_ok ci show classes heap f (snd e)) d).
    { clear Hk. induction Hv as [|x l Hx Hl IHl]; constructor; [apply IH; exact Hx|exact IHl]. }
    clear Hv IH. apply (bound_all (fun f e => ser_ok ci show classes heap f (snd e))) in K. destruct K as (f0 & K).
    exists (S (S f0)). intros [|f] Hf; [lia|]. apply dict_ok. specialize (K f). assert (Hf' : (f0 <= f)%nat) by lia. specialize (K Hf').
    destruct f as [|f]; [lia|]. rewrite Forall_forall in *. intros e He. split; [apply scalar_ok; exact (Hk e He)|exact (K e He)].
Qed.
Lemma claimed_graph heap : forall v, claimed v -> graph heap v.
Proof.
  assert (S : forall v, scalar_value v -> graph heap v) by (intros v []; constructor).
  fix IH 2. intros v H. destruct H as [v Hs|l Hl|d Hk Hv _].
  - apply S. exact Hs.
  - constructor. induction Hl as [|x l Hx Hl IHl]; constructor; [apply IH; exact Hx|exact IHl].
  - assert (K : Forall (fun e => graph heap (snd e)) d).
    { clear Hk. induction Hv as [|x l Hx Hl IHl]; constructor; [apply IH; exact Hx|exact IHl]. }
    clear Hv IH. constructor; [|exact K]. eapply Forall_impl; [|exact Hk]. intros e. apply S.
Qed.

(* ---- one scalar ---- *)
Lemma reparse_text (s : list N) : deserialize_string (match s with [] => None | _ => Some s end) = deserialize_string (Some s).
Proof. destruct s as [|c s]; reflexivity. Qed.
Lemma b64_nonempty b : bytes_ok b -> b <> [] -> b64encode b <> [].
Proof.
  intros Hb Hn E. pose proof (TextProofs.b64_roundtrip b Hb) as R. rewrite E in R.
  assert (K : b64decode [] = Ok []) by reflexivity. rewrite K in R. apply Ok_inj in R. congruence.
Qed.
Lemma nonempty_text (s : list N) : s <> [] -> match Some s with Some [] => None | _ => Some s end = Some s.
Proof. destruct s; [contradiction|reflexivity]. Qed.

Lemma dict_set_shape k (v : value) d :
  dict_set key_eqb k v d = d ++ [(k, v)] \/ (length (dict_set key_eqb k v d) = length d)%nat.
Proof.
  induction d as [|[k' v'] d IH]; cbn [dict_set]; [left; reflexivity|]. destruct (key_eqb k k'); [right; reflexivity|].
  destruct IH as [->|E]; [left; reflexivity|right]. cbn [length]. lia.
Qed.
Lemma dict_set_new k (v : value) d : Forall (fun e => key_eqb k (fst e) = false) d -> dict_set key_eqb k v d = d ++ [(k, v)].
Proof.
  induction d as [|[k' v'] d IH]; cbn [dict_set]; [reflexivity|]. intros H. pose proof (Forall_inv H) as E. cbv beta in E. cbn [fst] in E.
  rewrite E. cbn [app]. f_equal. apply IH. exact (Forall_inv_tail H).
Qed.
(* what a run of assignments gives when all keys end up there *)
Lemma dict_fold_length ps : forall d : list (value * value),
  (length (fold_left (fun d e => dict_set key_eqb (fst e) (snd e) d) ps d) <= length d + length ps)%nat.
Proof.
  induction ps as [|[k v] ps IH]; intros d; cbn [fold_left length]; [lia|]. cbn [fst snd].
  specialize (IH (dict_set key_eqb k v d)). destruct (dict_set_shape k v d) as [E|E].
  - rewrite E in *. rewrite app_length in IH. cbn [length] in IH. lia.
  - lia.
Qed.
Lemma dict_fold_exact ps : forall d : list (value * value),
  (length (fold_left (fun d e => dict_set key_eqb (fst e) (snd e) d) ps d) = length d + length ps)%nat ->
  fold_left (fun d e => dict_set key_eqb (fst e) (snd e) d) ps d = d ++ ps.
Proof.
  induction ps as [|[k v] ps IH]; intros d H; cbn [fold_left length] in *; [symmetry; apply app_nil_r|]. cbn [fst snd] in *.
  destruct (dict_set_shape k v d) as [E|E].
  - rewrite E in *. rewrite IH; [rewrite <- app_assoc; reflexivity|]. rewrite app_length in *. cbn [length] in *. lia.
  - pose proof (dict_fold_length ps (dict_set key_eqb k v d)). lia.
Qed.

Section Read.
  Context (ci : option cipher) (xml_text : xml -> list N) (float_of : list N -> res (list N)) (classes : list N -> option cdesc).
  Context (final : list mark) (W : list N -> nat -> Prop) (Hnd : NoDup (tn_ids final)).
  Notation desf := (des ci xml_text float_of classes).
  Notation T := (fun id ts => In (MTypes id ts) final).
  Notation dep := (depicts [] T W).

  Lemma scalar_read key v x : scalar_value v -> dep key v x ->
    marks x = [] /\ (depth (reparse x) = 1)%nat /\
    exists r, (forall fuel m st, desf (S fuel) (reparse x) m st = (do w <- r; Ok (w, next_meta (reparse x) m, st))) /\
      (r = Ok v <-> kept v) /\ (forall w, r = Ok w -> hashable w = true).
  Proof.
    intros Hv Hd.
    assert (G : exists tag t, x = Elem tag (attribs key []) t [] /\ In tag (map lit ["Nil"; "B"; "I32"; "S"; "BA"]%string) /\
      ((scalar_of ci float_of (reparse x) = Ok v <-> kept v) /\ forall w, scalar_of ci float_of (reparse x) = Ok w -> hashable w = true)).
    { destruct Hv as [|b|z|s Hs|b Hb]; inversion Hd; subst; do 2 eexists; (split; [reflexivity|split; [cbn [map In]; tauto|]]); cbn [reparse map].
      - split; [split; intros; [exact I|reflexivity]|]. intros w E. assert (w = VNone) by (symmetry; apply Ok_inj; exact E). subst w. reflexivity.
      - destruct b; (split; [split; intros; [exact I|reflexivity]|]); intros w E; apply Ok_inj in E; subst w; reflexivity.
      - rewrite nonempty_text by apply py_str_nonempty.
        assert (E : scalar_of ci float_of (Elem (lit "I32") (attribs key []) (Some (py_str z)) []) = Ok (VInt z)).
        { change (scalar_of _ _ _) with (do z0 <- int_of (Some (py_str z)); Ok (VInt z0)). unfold int_of. rewrite py_int_str. reflexivity. }
        rewrite E. split; [split; [intros; exact I|reflexivity]|]. intros w Hw. apply Ok_inj in Hw. subst w. reflexivity.
      - match goal with |- context [Elem (lit "S") ?a ?t []] => 
          change (scalar_of ci float_of (Elem (lit "S") a t [])) with (do s0 <- deserialize_string t; Ok (VStr s0)) end.
        rewrite reparse_text. cbn [kept]. rewrite <- (TextProofs2.string_roundtrip_iff s Hs).
        destruct (deserialize_string (Some (serialize_string s))) as [s'|e]; cbn [bind].
        + split; [split; intros E; [apply Ok_inj in E; f_equal; congruence|apply Ok_inj in E; congruence]|].
          intros w E. apply Ok_inj in E. subst w. reflexivity.
        + split; [split; intros E; congruence|]. intros w E. congruence.
      - cbn [kept]. destruct b as [|c b'].
        + split; [split; intros E; [discriminate|contradiction]|]. intros w E. discriminate.
        + rewrite nonempty_text by (apply b64_nonempty; [exact Hb|discriminate]).
          match goal with |- context [scalar_of ci float_of ?e] => assert (E : scalar_of ci float_of e = Ok (VBytes (c :: b'))) end.
          { match goal with |- scalar_of ci float_of (Elem _ _ (Some ?t) _) = _ =>
              change (scalar_of ci float_of _) with (do b0 <- b64decode t; Ok (VBytes b0)) end.
            rewrite (TextProofs.b64_roundtrip _ Hb). reflexivity. }
          rewrite E. split; [split; [discriminate|reflexivity]|]. intros w Hw. apply Ok_inj in Hw. subst w. reflexivity. }
    destruct G as (tag & t & -> & Ht & Hk & Hh). split; [|split].
    - rewrite marks_elem. cbn [flat_map]. rewrite app_nil_r. unfold mark_of, attr_get, attribs. cbn [x_attrib app].
      destruct key; reflexivity.
    - reflexivity.
    - exists (scalar_of ci float_of (reparse (Elem tag (attribs key []) t []))). split; [|split; assumption].
      intros fuel m st. rewrite des_scalar; [reflexivity|]. split; [reflexivity|]. cbn [reparse x_tag].
      unfold scalar_tags. cbn [map In] in *. tauto.
  Qed.

  (* ---- the type names of a structure ---- *)
  Definition sound (st : dst) : Prop := forall i ts, dict_get str_eqb i (d_tn st) = Some ts -> In (MTypes i ts) final.
  Definition full (pre : list mark) (st : dst) : Prop := forall i ts, In (MTypes i ts) pre -> dict_get str_eqb i (d_tn st) = Some ts.
  Lemma tn_unique i a b : In (MTypes i a) final -> In (MTypes i b) final -> a = b.
  Proof.
    intros Ha Hb. apply in_split in Ha. destruct Ha as (u & w & E). rewrite E in Hb, Hnd.
    rewrite tn_ids_app in Hnd. cbn [tn_ids flat_map app] in Hnd. apply NoDup_remove_2 in Hnd.
    apply in_app_iff in Hb. destruct Hb as [Hb|[Hb|Hb]].
    - exfalso. apply Hnd. apply in_or_app. left. apply in_flat_map. eexists. split; [exact Hb|left; reflexivity].
    - congruence.
    - exfalso. apply Hnd. apply in_or_app. right. apply in_flat_map. eexists. split; [exact Hb|left; reflexivity].
  Qed.
  Lemma sound_put id ts st : sound st -> In (MTypes id ts) final -> sound (tn_put id ts st).
  Proof.
    intros Hs Hi i ts' H. cbn [tn_put set_d_tn d_tn] in H. destruct (str_eqb i id) eqn:E.
    - apply str_eqb_spec in E. subst i. rewrite (dict_get_set_same str_eqb str_eqb_spec) in H. apply Some_inj in H. subst ts'. exact Hi.
    - rewrite (dict_get_set_other str_eqb str_eqb_spec) in H by (intros ->; rewrite str_eqb_refl in E; discriminate). apply Hs. exact H.
  Qed.
  Lemma full_put id ts st pre : full pre st -> In (MTypes id ts) final -> incl pre final -> full (pre ++ [MTypes id ts]) (tn_put id ts st).
  Proof.
    intros Hf Hi Hp i ts' H. cbn [tn_put set_d_tn d_tn]. apply in_app_iff in H. destruct (str_eqb i id) eqn:E.
    - apply str_eqb_spec in E. subst i. rewrite (dict_get_set_same str_eqb str_eqb_spec). f_equal.
      destruct H as [H|[H|[]]]; [|congruence]. eapply tn_unique; [exact Hi|apply Hp; exact H].
    - rewrite (dict_get_set_other str_eqb str_eqb_spec) by (intros ->; rewrite str_eqb_refl in E; discriminate). apply Hf.
      destruct H as [H|[H|[]]]; [exact H|]. exfalso. assert (i = id) by congruence. subst i. rewrite str_eqb_refl in E. discriminate.
  Qed.

  Definition T_elems (ts : list (list N)) : list xml := map (fun t => Elem (lit "T") [] (Some t) []) ts.
  Definition fine_names (ts : list (list N)) : Prop := ts <> [] /\ Forall (fun t => t <> []) ts.
  Lemma reparse_T ts : Forall (fun t => t <> []) ts -> map reparse (T_elems ts) = T_elems ts.
  Proof.
    unfold T_elems. induction 1 as [|t ts Ht _ IH]; [reflexivity|]. cbn [map]. rewrite IH. f_equal. cbn [reparse map].
    destruct t; [contradiction|reflexivity].
  Qed.
  Lemma filter_T ts : filter (fun c => str_eqb (x_tag c) (lit "T")) (T_elems ts) = T_elems ts.
  Proof. unfold T_elems. induction ts as [|t ts IH]; [reflexivity|]. cbn [map filter x_tag]. rewrite str_eqb_refl, IH. reflexivity. Qed.
  Lemma text_T ts : map (fun e => text_or_empty (x_text e)) (flat_map (find_all []) (T_elems ts)) = ts.
  Proof. unfold T_elems. induction ts as [|t ts IH]; [reflexivity|]. cbn [map flat_map find_all app]. f_equal. exact IH. Qed.

  (* an object with a type element and a body *)
  Definition obj_with (a : list (list N * list N)) (tn body : xml) : xml := Elem (lit "Obj") a None [tn; body].
  Definition body_tag (body : xml) : Prop := x_tag body = lit "LST" \/ x_tag body = lit "DCT".
  Lemma types_full ts id a body st : fine_names ts -> body_tag body ->
    get_types (obj_with a (Elem (lit "TN") (id_attr id) None (T_elems ts)) body) st = Ok (ts, tn_put id ts st).
  Proof.
    intros (Hn & _) Hb. unfold get_types, child, find_first, obj_with. cbn [find_all x_children filter x_tag].
    assert (B1 : str_eqb (x_tag body) (lit "TN") = false) by (destruct Hb as [-> | ->]; reflexivity).
    assert (B2 : str_eqb (x_tag body) (lit "TNRef") = false) by (destruct Hb as [-> | ->]; reflexivity).
    rewrite B1, B2. change (str_eqb (lit "TN") (lit "TN")) with true. change (str_eqb (lit "TN") (lit "TNRef")) with false. cbv iota.
    cbn [flat_map]. cbn [x_children]. rewrite filter_T, app_nil_r, text_T. cbn [app].
    destruct ts as [|t ts']; [contradiction|]. cbv iota. unfold attrib, attr_get. cbn [x_attrib]. change (dict_get str_eqb refid (id_attr id)) with (Some id).
    cbn [bind]. reflexivity.
  Qed.
  Lemma types_ref id a body st : body_tag body ->
    get_types (obj_with a (Elem (lit "TNRef") (id_attr id) None []) body) st = (do ts <- tn_get id st; Ok (ts, st)).
  Proof.
    intros Hb. unfold get_types, child, find_first, obj_with. cbn [find_all x_children filter x_tag].
    assert (B1 : str_eqb (x_tag body) (lit "TN") = false) by (destruct Hb as [-> | ->]; reflexivity).
    assert (B2 : str_eqb (x_tag body) (lit "TNRef") = false) by (destruct Hb as [-> | ->]; reflexivity).
    rewrite B1, B2. change (str_eqb (lit "TNRef") (lit "TN")) with false. change (str_eqb (lit "TNRef") (lit "TNRef")) with true. cbv iota.
    cbn [flat_map app map]. cbn [bind]. unfold attrib, attr_get. cbn [x_attrib]. change (dict_get str_eqb refid (id_attr id)) with (Some id).
    cbn [bind]. reflexivity.
  Qed.
  Lemma types_pos ts tn a body pre st rest : fine_names ts -> typed T ts [tn] -> body_tag body ->
    full pre st -> sound st -> incl (pre ++ marks tn) final -> preceded resolved (pre ++ marks tn ++ rest) ->
    exists st1, get_types (obj_with a (reparse tn) body) st = Ok (ts, st1) /\ full (pre ++ marks tn) st1 /\ sound st1 /\ d_heap st1 = d_heap st.
  Proof.
    intros Hn Ht Hb Hf Hs Hi Hp. inversion Ht as [|ts' id Hid E1 E2|ts' id Hid E1 E2]; subst.
    - exists (tn_put id ts st). cbn [reparse]. fold (T_elems ts). rewrite reparse_T by apply Hn. rewrite types_full by assumption.
      split; [reflexivity|].
      assert (Em : marks (Elem (lit "TN") (id_attr id) None (T_elems ts)) = [MTypes id ts]).
      { rewrite marks_elem. unfold T_elems. rewrite T_marks, app_nil_r. unfold mark_of, attr_get. cbn [x_attrib].
        change (dict_get str_eqb (lit "RefId") (id_attr id)) with (Some id). cbv iota. cbn [x_tag x_children].
        change (str_eqb (lit "TN") (lit "Obj")) with false. change (str_eqb (lit "TN") (lit "Ref")) with false.
        change (str_eqb (lit "TN") (lit "TN")) with true. cbv iota. do 2 f_equal. rewrite map_map. cbn [x_text]. apply map_id. }
      fold (T_elems ts) in *. rewrite Em in *. split; [apply full_put; [exact Hf|exact Hid|]|split; [apply sound_put; assumption|reflexivity]].
      intros m Hm. apply Hi. apply in_or_app. auto.
    - assert (Em : marks (Elem (lit "TNRef") (id_attr id) None []) = [MTypesRef id]) by (rewrite marks_elem; reflexivity).
      rewrite Em in *. exists st. cbn [reparse map]. rewrite types_ref by exact Hb.
      destruct (Hp pre (MTypesRef id) rest eq_refl) as (ts0 & H0).
      assert (E : ts0 = ts). { eapply tn_unique; [apply Hi, in_or_app; left; exact H0|exact Hid]. } subst ts0.
      unfold tn_get. rewrite (Hf _ _ H0). cbn [bind]. split; [reflexivity|split; [|split; [exact Hs|reflexivity]]].
      intros i ts' H. apply Hf. apply in_app_iff in H. destruct H as [H|[H|[]]]; [exact H|congruence].
  Qed.
  Lemma types_neg ts tn a body st ts' st1 : fine_names ts -> typed T ts [tn] -> body_tag body -> sound st ->
    get_types (obj_with a (reparse tn) body) st = Ok (ts', st1) -> ts' = ts /\ sound st1.
  Proof.
    intros Hn Ht Hb Hs H. inversion Ht as [|ts0 id Hid E1 E2|ts0 id Hid E1 E2]; subst.
    - cbn [reparse] in H. fold (T_elems ts) in H. rewrite reparse_T in H by apply Hn. rewrite types_full in H by assumption.
      apply Ok_pair_inj in H. destruct H as (<- & <-). split; [reflexivity|apply sound_put; assumption].
    - cbn [reparse map] in H. rewrite types_ref in H by exact Hb. unfold tn_get in H.
      destruct (dict_get str_eqb id (d_tn st)) as [t|] eqn:G; [|discriminate]. cbn [bind] in H. apply Ok_pair_inj in H. destruct H as (<- & <-).
      split; [|exact Hs]. eapply tn_unique; [apply Hs; exact G|exact Hid].
  Qed.
  Lemma list_fine : fine_names list_names. Proof. split; [discriminate|]. repeat constructor; discriminate. Qed.
  Lemma dict_fine : fine_names dict_names. Proof. split; [discriminate|]. repeat constructor; discriminate. Qed.

  (* ---- des on these elements ---- *)
  Definition finish (a : list (list N * list N)) (r : res (value * meta * dst)) (m1 : meta) : res (value * meta * dst) :=
    do '(v, _, st2) <- r; do id <- match dict_get str_eqb refid a with Some i => Ok i | None => Err KeyError end; Ok (v, m1, obj_put id v st2).
  Lemma des_list_elem fuel a tn body st st1 : get_types (obj_with a tn body) st = Ok (list_names, st1) ->
    desf (S fuel) (obj_with a tn body) any_meta st =
    finish a (des_lst (desf fuel) (obj_with a tn body) (list_meta None false generic_meta) st1) (object_meta (lit "Obj") None).
  Proof.
    intros H. cbn [des]. rewrite H. cbn [bind]. change (primitive _ _ _ _) with (@None (res value)). cbv iota.
    change (is_plain _ && is_none _)%bool with true. cbv iota.
    change (match list_names with [] => _ | _ => list_names end) with list_names.
    assert (C : choose list_names = Ok (Some (list_meta None false generic_meta))) by (vm_compute; reflexivity).
    rewrite C. cbn [bind]. unfold finish.
    change (des_struct _ _ _ _ _ _) with (des_lst (desf fuel) (obj_with a tn body) (list_meta None false generic_meta) st1).
    destruct (des_lst _ _ _ st1) as [[[v m'] st2]|e]; [|reflexivity]. cbn [bind].
    change (str_eqb (x_tag (obj_with a tn body)) (lit "Obj")) with true. cbv iota. unfold attrib, attr_get. cbn [obj_with x_attrib].
    destruct (dict_get str_eqb refid a); reflexivity.
  Qed.
  Lemma des_dict_elem fuel a tn body st st1 : get_types (obj_with a tn body) st = Ok (dict_names, st1) ->
    desf (S fuel) (obj_with a tn body) any_meta st =
    finish a (do '(v, s) <- des_dct (desf fuel) (obj_with a tn body) st1; Ok (v, dict_meta None false, s)) (object_meta (lit "Obj") None).
  Proof.
    intros H. cbn [des]. rewrite H. cbn [bind]. change (primitive _ _ _ _) with (@None (res value)). cbv iota.
    change (is_plain _ && is_none _)%bool with true. cbv iota.
    change (match dict_names with [] => _ | _ => dict_names end) with dict_names.
    assert (C : choose dict_names = Ok (Some (dict_meta None false))) by (vm_compute; reflexivity).
    rewrite C. cbn [bind]. unfold finish.
    change (des_struct _ _ _ _ _ _) with (do '(v, s) <- des_dct (desf fuel) (obj_with a tn body) st1; Ok (v, dict_meta None false, s)).
    destruct (des_dct _ _ st1) as [[v st2]|e]; [|reflexivity]. cbn [bind].
    change (str_eqb (x_tag (obj_with a tn body)) (lit "Obj")) with true. cbv iota. unfold attrib, attr_get. cbn [obj_with x_attrib].
    destruct (dict_get str_eqb refid a); reflexivity.
  Qed.
  Lemma refid_attribs key id : dict_get str_eqb refid (attribs key (id_attr id)) = Some id.
  Proof. reflexivity. Qed.

  Lemma dep_name k v x : dep (Some k) v x -> attr_get (lit "N") (reparse x) = Some k.
  Proof. intros H. inversion H; subst; reflexivity. Qed.
  Lemma dep_tag key v x : dep key v x -> str_eqb (x_tag (reparse x)) (lit "TN") = false /\ str_eqb (x_tag (reparse x)) (lit "TNRef") = false.
  Proof. intros H. inversion H; subst; split; reflexivity. Qed.
  Lemma kept_scalar v : claimed v -> kept v -> scalar_value v.
  Proof. intros [w Hs|l Hl|d Hk Hv Hd]; [auto|intros []|intros []]. Qed.
  Lemma flat_list l : flat (VList l) -> Forall kept l.
  Proof. intros H. inversion H as [v K|l' K|d K K']; subst; [destruct K|exact K]. Qed.
  Lemma flat_dict d : flat (VDict d) -> Forall (fun e => kept (fst e)) d /\ Forall (fun e => flat (snd e)) d.
  Proof. intros H. inversion H as [v K|l' K|d' K K']; subst; [destruct K|auto]. Qed.
  Lemma preceded_prefix P a b : preceded P (a ++ b) -> preceded P a.
  Proof. intros H u m w E. eapply (H u m (w ++ b)). rewrite E. rewrite <- app_assoc. reflexivity. Qed.
  Lemma typed_tag ts tn : typed T ts [tn] -> x_tag (reparse tn) = lit "TN" \/ x_tag (reparse tn) = lit "TNRef".
  Proof. intros H. inversion H; subst; [left|right]; reflexivity. Qed.
  Lemma lst_entries a tn body ts : typed T ts [tn] -> x_tag body = lit "LST" -> entries_of (lit "LST") (obj_with a (reparse tn) body) = x_children body.
  Proof.
    intros Ht Hb. unfold entries_of, child, find_first, obj_with. cbn [find_all x_children filter].
    destruct (typed_tag _ _ Ht) as [E|E]; rewrite E, Hb; reflexivity.
  Qed.
  Lemma dct_entries a tn ens ts : typed T ts [tn] -> Forall (fun en => x_tag en = lit "En") ens ->
    find_all [lit "DCT"; lit "En"] (obj_with a (reparse tn) (Elem (lit "DCT") [] None (map reparse ens))) = map reparse ens.
  Proof.
    intros Ht He. unfold obj_with. cbn [find_all x_children filter].
    assert (E : str_eqb (x_tag (reparse tn)) (lit "DCT") = false) by (destruct (typed_tag _ _ Ht) as [-> | ->]; reflexivity).
    rewrite E. cbn [x_tag]. change (str_eqb (lit "DCT") (lit "DCT")) with true. cbv iota. cbn [flat_map x_children]. rewrite app_nil_r.
    induction He as [|en ens H He IH]; [reflexivity|]. cbn [map filter].
    assert (E' : x_tag (reparse en) = lit "En") by (destruct en; exact H). rewrite E'. change (str_eqb (lit "En") (lit "En")) with true. cbv iota.
    cbn [flat_map app]. f_equal. exact IH.
  Qed.
  Lemma find_key x y kx ky : dep (Some (lit "Key")) kx x -> dep (Some (lit "Value")) ky y ->
    find_in [] star (Some (lit "Key")) (reparse (Elem (lit "En") [] None [x; y])) = Some (reparse x) /\
    find_in [] star (Some (lit "Value")) (reparse (Elem (lit "En") [] None [x; y])) = Some (reparse y).
  Proof.
    intros Hx Hy. apply dep_name in Hx, Hy. unfold find_in. cbn [find_all reparse map flat_map x_children app find]. unfold matches.
    rewrite Hx, Hy. split; reflexivity.
  Qed.

  (* ---- reading gives the value ---- *)
  Lemma entries_pos fuel l xs : Forall2 (dep None) l xs -> Forall scalar_value l -> Forall kept l ->
    (forall e, In e xs -> (depth (reparse e) <= fuel)%nat) ->
    forall m st, exists m', des_entries (desf fuel) (Some m) (map reparse xs) st = Ok (l, Some m', st) /\ flat_map marks xs = [].
  Proof.
    induction 1 as [|v x l xs Hx Hl IH]; intros Hs Hk Hd m st; cbn [map des_entries]; [eauto|].
    destruct (scalar_read None v x (Forall_inv Hs) Hx) as (M & D & r & R & K & _). specialize (Hd x (or_introl eq_refl)) as Hdx. rewrite D in Hdx.
    destruct fuel as [|f]; [lia|]. rewrite R. pose proof (proj2 K (Forall_inv Hk)) as Hr.
    rewrite Hr. cbn [bind].
    destruct (IH (Forall_inv_tail Hs) (Forall_inv_tail Hk) (fun e He => Hd e (or_intror He)) (next_meta (reparse x) m) st) as (m' & E & M').
    rewrite E. cbn [bind]. exists m'. split; [reflexivity|]. cbn [flat_map]. rewrite M, M'. reflexivity.
  Qed.
  Definition read_spec (fuel : nat) : Prop := forall v key x pre st, claimed v -> flat v -> dep key v x -> (depth (reparse x) <= fuel)%nat ->
    full pre st -> sound st -> incl (pre ++ marks x) final -> preceded resolved (pre ++ marks x) ->
    exists m' st', desf fuel (reparse x) any_meta st = Ok (v, m', st') /\ full (pre ++ marks x) st' /\ sound st' /\ d_heap st' = d_heap st.
  Lemma pairs_pos fuel : read_spec fuel -> forall d ens,
    Forall2 (fun e en => exists x y, dep (Some (lit "Key")) (fst e) x /\ dep (Some (lit "Value")) (snd e) y /\ en = Elem (lit "En") [] None [x; y]) d ens ->
    Forall (fun e => scalar_value (fst e)) d -> Forall (fun e => kept (fst e)) d -> Forall (fun e => claimed (snd e)) d -> Forall (fun e => flat (snd e)) d ->
    distinct_keys d -> (forall e, In e ens -> (depth (reparse e) <= S fuel)%nat) ->
    forall acc pre st, Forall (fun e => Forall (fun a => key_eqb (fst e) (fst a) = false) acc) d ->
    full pre st -> sound st -> incl (pre ++ flat_map marks ens) final -> preceded resolved (pre ++ flat_map marks ens) ->
    exists st', des_pairs (desf fuel) (map reparse ens) acc st = Ok (acc ++ d, st') /\ full (pre ++ flat_map marks ens) st' /\ sound st' /\
      d_heap st' = d_heap st.
  Proof.
    intros IH. induction 1 as [|[k v] en d ens (x & y & Hx & Hy & ->) Hl IHd]; intros Sk Kk Cv Fv Dk Hd acc pre st Hacc Hf Hs Hi Hp.
    - exists st. cbn [map des_pairs]. rewrite !app_nil_r. auto.
    - cbn [map des_pairs]. destruct (find_key _ _ _ _ Hx Hy) as (E1 & E2). unfold des_part. rewrite E1, E2. cbn [fst snd] in *.
      assert (Hdx : (depth (reparse x) <= fuel)%nat /\ (depth (reparse y) <= fuel)%nat).
      { specialize (Hd _ (or_introl eq_refl)). cbn [reparse map depth fold_right] in Hd. lia. }
      destruct Hdx as (Dx & Dy).
      destruct (scalar_read _ k x (Forall_inv Sk) Hx) as (M & D & r & R & K & Hh). rewrite D in Dx. destruct fuel as [|f]; [lia|].
      rewrite R. pose proof (proj2 K (Forall_inv Kk)) as Hr. rewrite Hr. cbn [bind].
      assert (Em : flat_map marks (Elem (lit "En") [] None [x; y] :: ens) = marks y ++ flat_map marks ens).
      { cbn [flat_map]. rewrite marks_plain. cbn [flat_map]. rewrite M, app_nil_r. reflexivity. }
      rewrite Em in *. rewrite app_assoc in Hi, Hp.
      destruct (IH v _ y pre st (Forall_inv Cv) (Forall_inv Fv) Hy Dy Hf Hs) as (m' & st1 & R1 & F1 & S1 & H1).
      { intros m Hm. apply Hi. apply in_or_app. auto. }
      { eapply preceded_prefix. exact Hp. }
      rewrite R1. cbn [bind]. rewrite (Hh _ Hr).
      rewrite dict_set_new by exact (Forall_inv Hacc). destruct Dk as (Dk1 & Dk2).
      destruct (IHd (Forall_inv_tail Sk) (Forall_inv_tail Kk) (Forall_inv_tail Cv) (Forall_inv_tail Fv) Dk2 (fun e He => Hd e (or_intror He))
                  (acc ++ [(k, v)]) (pre ++ marks y) st1) as (st' & R2 & F2 & S2 & H2); [| | |exact Hi|exact Hp|]; try assumption.
      { pose proof (Forall_inv_tail Hacc) as Ht. clear -Ht Dk1. cbn [fst] in Dk1. rewrite Forall_forall in *. intros e He.
        apply Forall_app. split; [exact (Ht e He)|]. constructor; [exact (Dk1 e He)|constructor]. }
      exists st'. rewrite R2. rewrite <- !app_assoc. rewrite <- app_assoc in F2. split; [reflexivity|]. split; [exact F2|split; [exact S2|congruence]].
  Qed.
  Lemma read_pos fuel : read_spec fuel.
  Proof.
    induction fuel as [|fuel IH]; intros v key x pre st Hc Hfl Hd Hdep Hf Hs Hi Hp.
    { destruct (depth_S (reparse x)) as (k & E). lia. }
    destruct Hc as [v Hsv|l Hl|d Hk Hv Hdk].
    - destruct (scalar_read _ v x Hsv Hd) as (M & D & r & R & K & _). rewrite R.
      assert (Hkept : kept v) by (destruct Hfl; [assumption|inversion Hsv|inversion Hsv]). rewrite (proj2 K Hkept). cbn [bind].
      rewrite M, app_nil_r. do 2 eexists. split; [reflexivity|auto].
    - inversion Hd as [| | | | | | |k' l' id tn xs Ht Hxs| | |]; subst. apply flat_list in Hfl.
      cbn [reparse map]. cbn [reparse map] in Hdep. change (Elem (lit "Obj") ?a None [?t; ?b]) with (obj_with a t b). 
      assert (Em : marks (Elem (lit "Obj") (attribs key (id_attr id)) None [tn; Elem (lit "LST") [] None xs]) = MObj id :: marks tn ++ flat_map marks xs).
      { rewrite marks_elem. cbn [flat_map]. rewrite marks_plain, app_nil_r. destruct key; reflexivity. }
      rewrite Em in *.
      assert (Hsl : Forall scalar_value l).
      { rewrite Forall_forall in *. intros w Hw. apply kept_scalar; auto. }
      destruct (entries_pos fuel l xs Hxs Hsl Hfl) with (m := generic_meta) (st := st) as (mm & _ & Mx).
      { intros e He. pose proof (depth_child (Elem (lit "LST") [] None (map reparse xs)) (reparse e) (in_map _ _ _ He)) as D1.
        pose proof (depth_child (obj_with (attribs key (id_attr id)) (reparse tn) (Elem (lit "LST") [] None (map reparse xs))) _ (or_intror (or_introl eq_refl))) as D2.
        unfold obj_with in D2. lia. }
      rewrite Mx, app_nil_r in *. change (pre ++ MObj id :: marks tn) with (pre ++ [MObj id] ++ marks tn) in *. rewrite app_assoc in *.
      assert (Hf' : full (pre ++ [MObj id]) st).
      { intros i ts H. apply Hf. apply in_app_iff in H. destruct H as [H|[H|[]]]; [exact H|discriminate]. }
      destruct (types_pos list_names tn (attribs key (id_attr id)) (Elem (lit "LST") [] None (map reparse xs)) (pre ++ [MObj id]) st []
                  list_fine Ht (or_introl eq_refl) Hf' Hs Hi) as (st1 & G & F1 & S1 & H1); [rewrite app_nil_r; exact Hp|].
      rewrite (des_list_elem _ _ _ _ _ _ G). unfold des_lst. rewrite (lst_entries _ _ (Elem (lit "LST") [] None (map reparse xs)) _ Ht eq_refl). cbn [x_children].
      change (list_info (list_meta None false generic_meta)) with (Some (generic_meta, list_names)). cbv iota. cbn [fst].
      destruct (entries_pos fuel l xs Hxs Hsl Hfl) with (m := generic_meta) (st := st1) as (mm' & R & _).
      { intros e He. pose proof (depth_child (Elem (lit "LST") [] None (map reparse xs)) (reparse e) (in_map _ _ _ He)) as D1.
        pose proof (depth_child (obj_with (attribs key (id_attr id)) (reparse tn) (Elem (lit "LST") [] None (map reparse xs))) _ (or_intror (or_introl eq_refl))) as D2.
        unfold obj_with in D2. lia. }
      rewrite R. unfold finish. cbn [bind]. rewrite refid_attribs. cbn [bind]. do 2 eexists. split; [reflexivity|].
      unfold obj_with. rewrite Em. change (pre ++ MObj id :: marks tn) with (pre ++ [MObj id] ++ marks tn). rewrite app_assoc.
      split; [exact F1|split; [exact S1|exact H1]].
    - inversion Hd as [| | | | | | | |k' d' id tn ens Ht Hens| |]; subst. apply flat_dict in Hfl. destruct Hfl as (Fk & Fv).
      cbn [reparse map]. cbn [reparse map] in Hdep. change (Elem (lit "Obj") ?a None [?t; ?b]) with (obj_with a t b).
      assert (Em : marks (Elem (lit "Obj") (attribs key (id_attr id)) None [tn; Elem (lit "DCT") [] None ens]) = MObj id :: marks tn ++ flat_map marks ens).
      { rewrite marks_elem. cbn [flat_map]. rewrite marks_plain, app_nil_r. destruct key; reflexivity. }
      rewrite Em in *. change (pre ++ MObj id :: marks tn ++ ?r) with (pre ++ [MObj id] ++ marks tn ++ r) in *. rewrite (app_assoc pre) in *.
      assert (Hf' : full (pre ++ [MObj id]) st).
      { intros i ts H. apply Hf. apply in_app_iff in H. destruct H as [H|[H|[]]]; [exact H|discriminate]. }
      destruct (types_pos dict_names tn (attribs key (id_attr id)) (Elem (lit "DCT") [] None (map reparse ens)) (pre ++ [MObj id]) st (flat_map marks ens)
                  dict_fine Ht (or_intror eq_refl) Hf' Hs) as (st1 & G & F1 & S1 & H1); [|exact Hp|].
      { intros m Hm. apply Hi. rewrite app_assoc. apply in_or_app. left. exact Hm. }
      rewrite (des_dict_elem _ _ _ _ _ _ G). unfold des_dct.
      rewrite (dct_entries _ _ _ _ Ht).
      2:{ clear -Hens. induction Hens as [|e en d ens (x & y & _ & _ & ->) _ IH]; constructor; [reflexivity|exact IH]. }
      rewrite app_assoc in Hi, Hp.
      destruct (pairs_pos fuel IH d ens Hens Hk Fk Hv Fv Hdk) with (acc := @nil (value * value)) (pre := (pre ++ [MObj id]) ++ marks tn) (st := st1)
        as (st2 & R & F2 & S2 & H2); try assumption.
      { intros e He. pose proof (depth_child (Elem (lit "DCT") [] None (map reparse ens)) (reparse e) (in_map _ _ _ He)) as D1.
        pose proof (depth_child (obj_with (attribs key (id_attr id)) (reparse tn) (Elem (lit "DCT") [] None (map reparse ens))) _ (or_intror (or_introl eq_refl))) as D2.
        unfold obj_with in D2. lia. }
      { apply Forall_forall. intros e _. constructor. }
      rewrite R. unfold finish. cbn [bind app]. rewrite refid_attribs. cbn [bind]. do 2 eexists. split; [reflexivity|].
      unfold obj_with. rewrite Em. change (pre ++ MObj id :: ?r) with (pre ++ [MObj id] ++ r).
      rewrite (app_assoc pre), (app_assoc _ (marks tn)). split; [exact F2|split; [exact S2|]]. cbn [obj_put set_d_obj d_heap]. congruence.
  Qed.

  (* ---- and only then ---- *)
  Lemma sound_same st st' : sound st -> d_tn st' = d_tn st -> sound st'.
  Proof. intros H E i ts G. apply H. rewrite <- E. exact G. Qed.
  Lemma body_read fuel body st v m st' : body_tag body ->
    Forall (fun c => str_eqb (x_tag c) (lit "TN") = false /\ str_eqb (x_tag c) (lit "TNRef") = false) (x_children body) ->
    desf fuel body any_meta st = Ok (v, m, st') -> st' = st.
  Proof.
    intros Hb Hc H. destruct fuel as [|fuel]; [discriminate|]. cbn [des] in H.
    assert (G : get_types body st = Ok ([], st)).
    { unfold get_types, child, find_first. cbn [find_all].
      assert (E1 : filter (fun c => str_eqb (x_tag c) (lit "TN")) (x_children body) = []).
      { clear -Hc. induction Hc as [|c l (A & _) _ IH]; [reflexivity|]. cbn [filter]. rewrite A. exact IH. }
      assert (E2 : filter (fun c => str_eqb (x_tag c) (lit "TNRef")) (x_children body) = []).
      { clear -Hc. induction Hc as [|c l (_ & A) _ IH]; [reflexivity|]. cbn [filter]. rewrite A. exact IH. }
      rewrite E1, E2. reflexivity. }
    rewrite G in H. cbn [bind] in H.
    assert (P : primitive ci float_of body st = None).
    { unfold primitive. destruct Hb as [-> | ->]; reflexivity. }
    rewrite P in H. cbv iota in H.
    change (is_plain (if str_eqb (m_tag any_meta) star then set_tag (x_tag body) any_meta else any_meta) &&
            is_none (m_object (if str_eqb (m_tag any_meta) star then set_tag (x_tag body) any_meta else any_meta)))%bool with true in H. cbv iota in H.
    assert (Q : str_eqb (m_tag (if str_eqb (m_tag any_meta) star then set_tag (x_tag body) any_meta else any_meta)) (lit "Obj") = false).
    { change (str_eqb (m_tag any_meta) star) with true. cbv iota. cbn [set_tag any_meta object_meta m_tag]. destruct Hb as [-> | ->]; reflexivity. }
    rewrite Q in H. cbn [choose bind] in H. 
    assert (Q2 : str_eqb (x_tag body) (lit "Obj") = false) by (destruct Hb as [-> | ->]; reflexivity).
    rewrite Q2 in H. cbn [bind] in H. apply Ok_pair_inj in H. destruct H as (_ & H). congruence.
  Qed.
  Lemma gen_read fuel a ts tn body st v' m' st' : fine_names ts -> typed T ts [tn] -> body_tag body ->
    Forall (fun c => str_eqb (x_tag c) (lit "TN") = false /\ str_eqb (x_tag c) (lit "TNRef") = false) (x_children body) ->
    sound st -> desf fuel (obj_with a (reparse tn) body) generic_meta st = Ok (v', m', st') ->
    (exists n, v' = VObj n) /\ m' = generic_meta /\ sound st'.
  Proof.
    intros Hn Ht Hb Hc Hs H. destruct fuel as [|fuel]; [discriminate|]. cbn [des] in H.
    apply bind_ok in H. destruct H as ([types st1] & G & H).
    destruct (types_neg _ _ _ _ _ _ _ Hn Ht Hb Hs G) as (-> & S1).
    change (primitive _ _ _ _) with (@None (res value)) in H. cbv iota in H.
    change (is_plain _ && is_none _)%bool with false in H. cbv iota in H.
    apply bind_ok in H. destruct H as ([[v m2] st2] & D & H).
    change (des_struct _ _ _ _ _ _) with (do '(v, s) <- des_dynamic (desf fuel) (obj_with a (reparse tn) body) generic_meta st1; Ok (v, generic_meta, s)) in D.
    apply bind_ok in D. destruct D as ([v0 s0] & D & E). apply Ok_pair_inj in E. destruct E as (E & <-). apply pair_inj in E. destruct E as (<- & <-).
    change (str_eqb (x_tag _) (lit "Obj")) with true in H. cbv iota in H. apply bind_ok in H. destruct H as (st3 & H3 & H).
    apply bind_ok in H3. destruct H3 as (id & Hid & H3). apply Ok_inj in H3. subst st3.
    apply Ok_pair_inj in H. destruct H as (H & <-). apply pair_inj in H. destruct H as (<- & <-).
    change (des_dynamic (desf fuel) ?x generic_meta st1) with
      (let '(n, s1) := new_obj (HGen empty_gobj) st1 in do id <- attrib refid x; do s2 <- des_children (desf fuel) n (x_children x) (obj_put id (VObj n) s1); Ok (VObj n, s2)) in D.
    unfold new_obj in D. cbv zeta iota beta in D.
    apply bind_ok in D. destruct D as (id' & _ & D). apply bind_ok in D. destruct D as (s2 & D & E). apply Ok_pair_inj in E. destruct E as (<- & <-).
    split; [eexists; reflexivity|split; [reflexivity|]].
    change (x_children (obj_with a (reparse tn) body)) with [reparse tn; body] in D. cbn [des_children] in D.
    assert (B1 : str_eqb (x_tag body) (lit "TN") = false) by (destruct Hb as [-> | ->]; reflexivity).
    assert (B2 : str_eqb (x_tag body) (lit "TNRef") = false) by (destruct Hb as [-> | ->]; reflexivity).
    assert (B3 : str_eqb (x_tag body) (lit "Props") = false) by (destruct Hb as [-> | ->]; reflexivity).
    assert (B4 : str_eqb (x_tag body) (lit "MS") = false) by (destruct Hb as [-> | ->]; reflexivity).
    assert (B5 : str_eqb (x_tag body) (lit "ToString") = false) by (destruct Hb as [-> | ->]; reflexivity).
    rewrite B1, B2, B3, B4, B5 in D.
    apply bind_ok in D. destruct D as (s3 & D1 & D2). apply bind_ok in D2. destruct D2 as (s4 & D2 & D3). apply Ok_inj in D3. subst s2.
    apply bind_ok in D2. destruct D2 as ([[w mw] s5] & D2 & D3). apply Ok_inj in D3. subst s4.
    apply (body_read _ _ _ _ _ _ Hb Hc) in D2. subst s5.
    apply (sound_same s3); [|reflexivity].
    inversion Ht as [|ts0 id0 Hid0 E1 E2|ts0 id0 Hid0 E1 E2]; subst.
    - cbn [reparse] in D1. fold (T_elems ts) in D1. rewrite reparse_T in D1 by apply Hn. cbn [x_tag] in D1.
      change (str_eqb (lit "TN") (lit "TN")) with true in D1. cbv iota zeta in D1.
      apply bind_ok in D1. destruct D1 as (id1 & Hid1 & D1). apply Ok_inj in D1. subst s3.
      assert (id1 = id0) by (unfold attrib, attr_get in Hid1; cbn [x_attrib] in Hid1; change (dict_get str_eqb refid (id_attr id0)) with (Some id0) in Hid1; apply Ok_inj in Hid1; congruence).
      subst id1. cbn [obj_put set_d_heap set_d_obj d_heap x_children].
      assert (Eo : nth_error (d_heap st1 ++ [HGen empty_gobj]) (length (d_heap st1)) = Some (HGen empty_gobj)).
      { rewrite nth_error_app2 by apply le_n. rewrite Nat.sub_diag. reflexivity. }
      rewrite Eo. cbn [empty_gobj g_types app].
      assert (Et : map (fun e => text_or_empty (x_text e)) (T_elems ts) = ts) by (unfold T_elems; rewrite map_map; cbn [x_text text_or_empty]; apply map_id).
      rewrite Et. apply sound_put; [|exact Hid0]. apply (sound_same st1); [exact S1|reflexivity].
    - cbn [reparse map] in D1. cbn [x_tag] in D1. change (str_eqb (lit "TNRef") (lit "TN")) with false in D1.
      change (str_eqb (lit "TNRef") (lit "TNRef")) with true in D1. cbv iota in D1.
      apply bind_ok in D1. destruct D1 as (id1 & _ & D1). apply bind_ok in D1. destruct D1 as (tt & _ & D1). apply Ok_inj in D1. subst s3.
      apply (sound_same st1); [exact S1|reflexivity].
  Qed.
  Lemma entries_neg fuel l xs : Forall2 (dep None) l xs -> Forall claimed l -> forall st vs e st', sound st ->
    des_entries (desf fuel) (Some generic_meta) (map reparse xs) st = Ok (vs, e, st') -> sound st' /\ (vs = l -> Forall kept l).
  Proof.
    induction 1 as [|v x l xs Hx Hl IH]; intros Hc st vs e st' Hs H; cbn [map des_entries] in H.
    - apply Ok_pair_inj in H. destruct H as (_ & <-). split; [exact Hs|constructor].
    - apply bind_ok in H. destruct H as ([[w m1] st1] & H1 & H). apply bind_ok in H. destruct H as ([[ws m2] st2] & H2 & H).
      apply Ok_pair_inj in H. destruct H as (H & <-). apply pair_inj in H. destruct H as (<- & _).
      assert (K : m1 = generic_meta /\ sound st1 /\ (w = v -> kept v)).
      { destruct (Forall_inv Hc) as [v Hsv|l' Hl'|d Hk Hv Hdk].
        - destruct fuel as [|fuel]; [discriminate|]. destruct (scalar_read _ v x Hsv Hx) as (_ & _ & r & R & Kr & _). rewrite R in H1.
          apply bind_ok in H1. destruct H1 as (w' & Er & H1). apply Ok_pair_inj in H1. destruct H1 as (H1 & <-). apply pair_inj in H1. destruct H1 as (<- & <-).
          split; [reflexivity|split; [exact Hs|]]. intros ->. apply Kr. exact Er.
        - inversion Hx as [| | | | | | |k' l0 id tn ys Ht Hys| | |]; subst. 
          cbn [reparse map] in H1. change (Elem (lit "Obj") ?a None [?t; ?b]) with (obj_with a t b) in H1.
          destruct (fun P => gen_read _ _ _ _ (Elem (lit "LST") [] None (map reparse ys)) _ _ _ _ list_fine Ht (or_introl eq_refl) P Hs H1) as ((n & En) & Em & S1).
          { cbn [x_children]. rewrite Forall_map. clear -Hys. induction Hys as [|a b c d Ha _ IHy]; constructor; [eapply dep_tag; exact Ha|exact IHy]. }
          split; [exact Em|split; [exact S1|]]. intros E. congruence.
        - inversion Hx as [| | | | | | | |k' d0 id tn ens Ht Hens| |]; subst.
          cbn [reparse map] in H1. change (Elem (lit "Obj") ?a None [?t; ?b]) with (obj_with a t b) in H1.
          destruct (fun P => gen_read _ _ _ _ (Elem (lit "DCT") [] None (map reparse ens)) _ _ _ _ dict_fine Ht (or_intror eq_refl) P Hs H1) as ((n & En) & Em & S1).
          { cbn [x_children]. rewrite Forall_map. clear -Hens. induction Hens as [|a b c d (p & q & _ & _ & ->) _ IHy]; constructor; [split; reflexivity|exact IHy]. }
          split; [exact Em|split; [exact S1|]]. intros E. congruence. }
      destruct K as (-> & S1 & K). destruct (IH (Forall_inv_tail Hc) _ _ _ _ S1 H2) as (S2 & K2). split; [exact S2|].
      intros E. apply cons_inj in E. destruct E as (E1 & E2). constructor; auto.
  Qed.
  Definition neg_spec (fuel : nat) : Prop := forall v key x st v' m' st', claimed v -> dep key v x -> sound st ->
    desf fuel (reparse x) any_meta st = Ok (v', m', st') -> sound st' /\ (v' = v -> flat v).
  Lemma pairs_neg fuel : neg_spec fuel -> forall d ens,
    Forall2 (fun e en => exists x y, dep (Some (lit "Key")) (fst e) x /\ dep (Some (lit "Value")) (snd e) y /\ en = Elem (lit "En") [] None [x; y]) d ens ->
    Forall (fun e => scalar_value (fst e)) d -> Forall (fun e => claimed (snd e)) d ->
    forall acc st d' st', sound st -> des_pairs (desf fuel) (map reparse ens) acc st = Ok (d', st') ->
    sound st' /\ exists ps, d' = fold_left (fun d e => dict_set key_eqb (fst e) (snd e) d) ps acc /\ length ps = length d /\
      (ps = d -> Forall (fun e => kept (fst e)) d /\ Forall (fun e => flat (snd e)) d).
  Proof.
    intros IH. induction 1 as [|[k v] en d ens (x & y & Hx & Hy & ->) Hl IHd]; intros Sk Cv acc st d' st' Hs H.
    - cbn [map des_pairs] in H. apply Ok_pair_inj in H. destruct H as (<- & <-). split; [exact Hs|]. exists []. split; [reflexivity|split; [reflexivity|split; constructor]].
    - cbn [map des_pairs] in H. destruct (find_key _ _ _ _ Hx Hy) as (E1 & E2). unfold des_part in H. rewrite E1, E2 in H. cbn [fst snd] in *.
      apply bind_ok in H. destruct H as ([k' st1] & H1 & H). apply bind_ok in H. destruct H as ([w st2] & H2 & H).
      apply bind_ok in H1. destruct H1 as ([[k0 mk] st0] & H1 & E). apply Ok_pair_inj in E. destruct E as (-> & ->).
      apply bind_ok in H2. destruct H2 as ([[w0 mw] st0] & H2 & E). apply Ok_pair_inj in E. destruct E as (-> & ->).
      assert (K1 : sound st1 /\ (k' = k -> kept k)).
      { destruct fuel as [|fuel]; [discriminate|]. destruct (scalar_read _ k x (Forall_inv Sk) Hx) as (_ & _ & r & R & Kr & _). rewrite R in H1.
        apply bind_ok in H1. destruct H1 as (w' & Er & H1). apply Ok_pair_inj in H1. destruct H1 as (H1 & <-). apply pair_inj in H1. destruct H1 as (<- & _).
        split; [exact Hs|]. intros ->. apply Kr. exact Er. }
      destruct K1 as (S1 & K1). destruct (IH _ _ _ _ _ _ _ (Forall_inv Cv) Hy S1 H2) as (S2 & K2).
      destruct (hashable k'); [|discriminate].
      destruct (IHd (Forall_inv_tail Sk) (Forall_inv_tail Cv) _ _ _ _ S2 H) as (S3 & ps & -> & Lps & K3).
      split; [exact S3|]. exists ((k', w) :: ps). split; [reflexivity|split; [cbn [length]; lia|]].
      intros E. apply cons_inj in E. destruct E as (E & Ep). apply pair_inj in E. destruct E as (Ek & Ew). destruct (K3 Ep) as (A & B).
      split; constructor; auto.
  Qed.
  Lemma read_neg fuel : neg_spec fuel.
  Proof.
    induction fuel as [|fuel IH]; intros v key x st v' m' st' Hc Hd Hs H; [discriminate|].
    destruct Hc as [v Hsv|l Hl|d Hk Hv Hdk].
    - destruct (scalar_read _ v x Hsv Hd) as (_ & _ & r & R & Kr & _). rewrite R in H.
      apply bind_ok in H. destruct H as (w' & Er & H). apply Ok_pair_inj in H. destruct H as (H & <-). apply pair_inj in H. destruct H as (<- & _).
      split; [exact Hs|]. intros ->. constructor. apply Kr. exact Er.
    - inversion Hd as [| | | | | | |k' l' id tn xs Ht Hxs| | |]; subst.
      cbn [reparse map] in H. change (Elem (lit "Obj") ?a None [?t; ?b]) with (obj_with a t b) in H.
      destruct (get_types (obj_with (attribs key (id_attr id)) (reparse tn) (Elem (lit "LST") [] None (map reparse xs))) st) as [[ts st1]|e] eqn:G;
        [|cbn [des] in H; rewrite G in H; discriminate].
      destruct (types_neg _ _ _ (Elem (lit "LST") [] None (map reparse xs)) _ _ _ list_fine Ht (or_introl eq_refl) Hs G) as (-> & S1).
      rewrite (des_list_elem _ _ _ _ _ _ G) in H. unfold finish in H. apply bind_ok in H. destruct H as ([[w mw] st2] & H1 & H).
      rewrite refid_attribs in H. cbn [bind] in H. apply Ok_pair_inj in H. destruct H as (H & <-). apply pair_inj in H. destruct H as (<- & _).
      unfold des_lst in H1. rewrite (lst_entries _ _ (Elem (lit "LST") [] None (map reparse xs)) _ Ht eq_refl) in H1. cbn [x_children] in H1.
      change (list_info (list_meta None false generic_meta)) with (Some (generic_meta, list_names)) in H1. cbv iota in H1. cbn [fst] in H1.
      apply bind_ok in H1. destruct H1 as ([[vs e] st3] & H1 & E). apply Ok_pair_inj in E. destruct E as (E & <-). apply pair_inj in E. destruct E as (<- & _).
      destruct (entries_neg _ _ _ Hxs Hl _ _ _ _ S1 H1) as (S2 & K). split; [exact S2|]. intros E. apply f_list. apply K. congruence.
    - inversion Hd as [| | | | | | | |k' d' id tn ens Ht Hens| |]; subst.
      cbn [reparse map] in H. change (Elem (lit "Obj") ?a None [?t; ?b]) with (obj_with a t b) in H.
      destruct (get_types (obj_with (attribs key (id_attr id)) (reparse tn) (Elem (lit "DCT") [] None (map reparse ens))) st) as [[ts st1]|e] eqn:G;
        [|cbn [des] in H; rewrite G in H; discriminate].
      destruct (types_neg _ _ _ (Elem (lit "DCT") [] None (map reparse ens)) _ _ _ dict_fine Ht (or_intror eq_refl) Hs G) as (-> & S1).
      rewrite (des_dict_elem _ _ _ _ _ _ G) in H. unfold finish in H. apply bind_ok in H. destruct H as ([[w mw] st2] & H1 & H).
      rewrite refid_attribs in H. cbn [bind] in H. apply Ok_pair_inj in H. destruct H as (H & <-). apply pair_inj in H. destruct H as (<- & _).
      apply bind_ok in H1. destruct H1 as ([w0 st3] & H1 & E). apply Ok_pair_inj in E. destruct E as (E & <-). apply pair_inj in E. destruct E as (<- & _).
      unfold des_dct in H1. rewrite (dct_entries _ _ _ _ Ht) in H1.
      2:{ clear -Hens. induction Hens as [|e en d ens (x & y & _ & _ & ->) _ IH]; constructor; [reflexivity|exact IH]. }
      apply bind_ok in H1. destruct H1 as ([d' st4] & H1 & E). apply Ok_pair_inj in E. destruct E as (<- & <-).
      destruct (pairs_neg fuel IH d ens Hens Hk Hv _ _ _ _ S1 H1) as (S2 & ps & Ed & Lp & K). split; [exact S2|].
      intros E. assert (Ed' : d' = d) by congruence. rewrite Ed' in Ed.
      assert (Ep : ps = d).
      { rewrite (dict_fold_exact ps []) in Ed; [cbn [app] in Ed; congruence|]. rewrite <- Ed. cbn [length]. lia. }
      destruct (K Ep) as (A & B). apply f_dict; assumption.
  Qed.
End Read.

(* ---- together ---- *)
Lemma coherent_nil : coherent [].
Proof.
  intros a b Ha Hb E. destruct Ha as [->|[->|(g & [] & _)]]; destruct Hb as [->|[->|(g & [] & _)]]; try reflexivity; vm_compute in E; discriminate.
Qed.
Lemma value_roundtrip ci show xml_text float_of classes heap v : claimed v ->
  exists f0, forall fuel, (f0 <= fuel)%nat -> exists x, serialize ci show classes [] fuel v any_meta = Ok (Some x) /\
    (deserialize ci xml_text float_of classes heap (reparse x) any_meta = Ok (v, heap) <-> flat v).
Proof.
  intros Hc. destruct (claimed_ok ci show classes [] v Hc) as (f0 & H0). exists f0. intros fuel Hf.
  destruct (H0 fuel Hf None clear_sst) as (x & m' & st' & E & _). exists x.
  assert (Es : serialize ci show classes [] fuel v any_meta = Ok (Some x)).
  { unfold serialize. change any_meta with (object_meta star None). rewrite E. reflexivity. }
  split; [exact Es|].
  destruct (serialize_graph ci show classes [] (Forall_nil _) coherent_nil fuel v x (claimed_graph [] v Hc) Es) as (W & _ & Hd).
  destruct (serialize_marks ci show classes [] (Forall_nil _) fuel v any_meta x (graph_less [] v (claimed_graph [] v Hc)) Es) as (n & k & _ & Hk & Hr).
  assert (Hnd : NoDup (tn_ids (marks x))) by (rewrite Hk; apply nodup_numbers).
  assert (Hs : sound (marks x) (clear_dst heap)) by (intros i ts H; discriminate).
  unfold deserialize. split.
  - intros H. apply bind_ok in H. destruct H as ([[w mw] st1] & H & E'). apply Ok_pair_inj in E'. destruct E' as (-> & _).
    exact (proj2 (read_neg ci xml_text float_of classes (marks x) W Hnd _ _ _ _ _ _ _ _ Hc Hd Hs H) eq_refl).
  - intros Hfl. destruct (read_pos ci xml_text float_of classes (marks x) W Hnd (depth (reparse x)) v None x [] (clear_dst heap) Hc Hfl Hd (le_n _)) as (mm & st1 & R & _ & _ & Hh).
    + intros i ts [].
    + exact Hs.
    + apply incl_refl.
    + exact Hr.
    + rewrite R. cbn [bind]. rewrite Hh. reflexivity.
Qed.

(* for the examples *)
Lemma ascii_scalars s : forallb (fun c => N.ltb c 128) s = true -> scalars s.
Proof. intros H. apply Forall_forall. intros c Hc. rewrite forallb_forall in H. specialize (H c Hc). unfold scalar. lia. Qed.
Lemma small_bytes b : forallb (fun c => N.ltb c 256) b = true -> bytes_ok b.
Proof. intros H. apply Forall_forall. intros c Hc. rewrite forallb_forall in H. specialize (H c Hc). lia. Qed.
Lemma short_kept s : (length s <= 5)%nat -> ~ has_straddle s.
Proof.
  intros Hl H. assert (K : (6 <= length s)%nat); [clear Hl|lia].
  induction H as [k g1 g2 g3 g4 g5 g6 g7 g8 y s Hk Hy Hg Hh|c s H IH]; [rewrite app_length; unfold straddle; cbn [length]; lia|cbn [length]; lia].
Qed.
