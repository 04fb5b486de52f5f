(* Serializing instances of classes and reading them back. *)
From Verif Require Import Base BaseProofs Lit NumModel TextModel TextSpec TextProofs Utf8Model MsgModel MsgSpec MsgProofs NumProofs XmlModel SerModel SerSpec SerSpec2 SerProofs SerProofs2 SerProofs3 SerProofs5 ClsSpec.
From Verif Require TextProofs2.
Require Import Lia ZifyBool ZifyNat ZifyN.

Section Cls.
  Context (ci : option cipher) (show : value -> list N) (xml_text : xml -> list N) (float_of : list N -> res (list N))
          (classes : list N -> option cdesc) (canon : list N -> list (list N)) (heap : list hobj) (said raw : list N -> Prop).
  Notation serf := (ser ci show classes heap).
  Notation desf := (des ci xml_text float_of classes).
  Notation bears := (bears ci float_of said raw).
  Notation lone := (lone ci float_of said raw).
  Notation conforms := (conforms ci float_of classes canon heap said raw).
  Notation copy := (copy classes heap).

  (* ---- scalars ---- *)
  Definition shown (s : list N) : option (list N) := match s with [] => None | _ => Some s end.
  Lemma shown_some s : s <> [] -> shown s = Some s.
  Proof. destruct s; [contradiction|reflexivity]. Qed.
  Lemma bears_text tag v : bears tag v ->
    is_vnone v = false /\ is_vxml v = false /\ existsb (str_eqb tag) known_tags = true /\ In tag scalar_tags /\ tag <> lit "Nil" /\ tag <> lit "ToString" /\
    forall m, exists s, pack_text ci show m tag v = Some (Ok s) /\ forall a, scalar_of ci float_of (Elem tag a (shown s) []) = Ok v.
  Proof.
    intros H. destruct H as [tag s I Hs Hk _|c Hc|b|tag z I|tag t I Hn Hf _|b Hb Hn|g Hg|tag s I Hn _|c s E Hi Hs].
    - split; [reflexivity|]. split; [reflexivity|].
      assert (D : existsb (str_eqb tag) known_tags = true /\ In tag scalar_tags /\ tag <> lit "Nil" /\ tag <> lit "ToString" /\
        (forall m, pack_text ci show m tag (VStr s) = Some (Ok (serialize_string s))) /\
        forall a t, scalar_of ci float_of (Elem tag a t []) = (do s0 <- deserialize_string t; Ok (VStr s0))).
      { cbn [map In] in I. destruct I as [<-|[<-|[<-|[<-|[]]]]]; (split; [reflexivity|]); (split; [unfold scalar_tags; cbn [map In]; tauto|]); repeat split; discriminate. }
      destruct D as (D1 & D2 & D3 & D4 & D5 & D6). split; [exact D1|]. split; [exact D2|]. split; [exact D3|]. split; [exact D4|]. intros m. eexists. split; [apply D5|].
      intros a. rewrite D6. unfold shown. rewrite reparse_text. rewrite (proj2 (TextProofs2.string_roundtrip_iff s Hs) Hk). reflexivity.
    - split; [reflexivity|]. split; [reflexivity|]. split; [reflexivity|]. split; [unfold scalar_tags; cbn [map In]; tauto|]. split; [discriminate|]. split; [discriminate|].
      intros m. exists (dec c). split; [reflexivity|]. intros a. 
      assert (E : dec c <> []) by (rewrite <- py_str_of_N; apply py_str_nonempty). rewrite (shown_some _ E).
      change (char_of (Some (dec c)) = Ok (VStr [c])). unfold char_of, int_of. rewrite <- py_str_of_N, py_int_str. cbn [bind].
      replace (Z.leb 0 (Z.of_N c) && Z.ltb (Z.of_N c) 1114112)%bool with true by lia. rewrite N2Z.id. reflexivity.
    - split; [reflexivity|]. split; [reflexivity|]. split; [reflexivity|]. split; [unfold scalar_tags; cbn [map In]; tauto|]. split; [discriminate|]. split; [discriminate|].
      intros m. destruct b; eexists; (split; [reflexivity|]); reflexivity.
    - split; [reflexivity|]. split; [reflexivity|].
      assert (D : existsb (str_eqb tag) known_tags = true /\ In tag scalar_tags /\ tag <> lit "Nil" /\ tag <> lit "ToString" /\
        (forall m, pack_text ci show m tag (VInt z) = Some (Ok (py_str z))) /\
        forall a t, scalar_of ci float_of (Elem tag a t []) = (do z0 <- int_of t; Ok (VInt z0))).
      { cbn [map In] in I. repeat (destruct I as [<-|I]; [(split; [reflexivity|]); (split; [unfold scalar_tags; cbn [map In]; tauto|]); repeat split; discriminate|]). destruct I. }
      destruct D as (D1 & D2 & D3 & D4 & D5 & D6). split; [exact D1|]. split; [exact D2|]. split; [exact D3|]. split; [exact D4|]. intros m. eexists. split; [apply D5|].
      intros a. rewrite D6, (shown_some _ (py_str_nonempty z)). unfold int_of. rewrite py_int_str. reflexivity.
    - split; [reflexivity|]. split; [reflexivity|].
      assert (D : existsb (str_eqb tag) known_tags = true /\ In tag scalar_tags /\ tag <> lit "Nil" /\ tag <> lit "ToString" /\
        (forall m, pack_text ci show m tag (VFloat t) = Some (Ok t)) /\
        forall a s, scalar_of ci float_of (Elem tag a (Some s) []) = (do f <- float_of s; Ok (VFloat f))).
      { cbn [map In] in I. repeat (destruct I as [<-|I]; [(split; [reflexivity|]); (split; [unfold scalar_tags; cbn [map In]; tauto|]); repeat split; discriminate|]). destruct I. }
      destruct D as (D1 & D2 & D3 & D4 & D5 & D6). split; [exact D1|]. split; [exact D2|]. split; [exact D3|]. split; [exact D4|]. intros m. eexists. split; [apply D5|].
      intros a. rewrite (shown_some _ Hn), D6, Hf. reflexivity.
    - split; [reflexivity|]. split; [reflexivity|]. split; [reflexivity|]. split; [unfold scalar_tags; cbn [map In]; tauto|]. split; [discriminate|]. split; [discriminate|].
      intros m. exists (b64encode b). split; [reflexivity|]. intros a. rewrite (shown_some _ (b64_nonempty b Hb Hn)).
      change ((do b0 <- b64decode (b64encode b); Ok (VBytes b0)) = Ok (VBytes b)). rewrite (b64_roundtrip _ Hb). reflexivity.
    - split; [reflexivity|]. split; [reflexivity|]. split; [reflexivity|]. split; [unfold scalar_tags; cbn [map In]; tauto|]. split; [discriminate|]. split; [discriminate|].
      intros m. exists (guid_str g). split; [reflexivity|]. intros a.
      assert (E : guid_str g <> []) by (intros C; pose proof (guid_parse_str g Hg) as P; rewrite C in P; discriminate P).
      rewrite (shown_some _ E). change ((do g0 <- guid_parse (guid_str g); Ok (VGuid g0)) = Ok (VGuid g)). rewrite (guid_parse_str g Hg). reflexivity.
    - split; [reflexivity|]. split; [reflexivity|].
      assert (D : existsb (str_eqb tag) known_tags = true /\ In tag scalar_tags /\ tag <> lit "Nil" /\ tag <> lit "ToString" /\
        (forall m, pack_text ci show m tag (VStr s) = Some (Ok s)) /\
        forall a t, scalar_of ci float_of (Elem tag a t []) = Ok (text_value t)).
      { cbn [map In] in I. repeat (destruct I as [<-|I]; [(split; [reflexivity|]); (split; [unfold scalar_tags; cbn [map In]; tauto|]); repeat split; discriminate|]). destruct I. }
      destruct D as (D1 & D2 & D3 & D4 & D5 & D6). split; [exact D1|]. split; [exact D2|]. split; [exact D3|]. split; [exact D4|]. intros m. eexists. split; [apply D5|].
      intros a. rewrite (shown_some _ Hn), D6. reflexivity.
    - split; [reflexivity|]. split; [reflexivity|]. split; [reflexivity|]. split; [unfold scalar_tags; cbn [map In]; tauto|]. split; [discriminate|]. split; [discriminate|].
      intros m. destruct (TextProofs2.secure_string_roundtrip c s Hi Hs) as (t & E1 & E2). exists t. split.
      { change (pack_text ci show m (lit "SS") (VStr s)) with (Some (serialize_secure_string ci s)). rewrite E, E1. reflexivity. }
      intros a. change ((do r <- deserialize_secure_string ci (shown t); Ok (match r with RawElement _ => VXml (Elem (lit "SS") a (shown t) []) | Plain s0 => VStr s0 end)) = Ok (VStr s)).
      replace (deserialize_secure_string ci (shown t)) with (deserialize_secure_string ci (Some t)) by (rewrite E; destruct t; reflexivity).
      rewrite E, E2. reflexivity.
  Qed.

  (* ---- states ---- *)
  Definition sane (st : sst) : Prop := s_objs st = [] /\ forall main id, dict_get str_eqb main (s_tn st) = Some id -> (id < s_tnid st)%N.
  Definition knows (st : sst) (ds : dst) : Prop :=
    forall main id, dict_get str_eqb main (s_tn st) = Some id -> dict_get str_eqb (dec id) (d_tn ds) = Some (canon main).
  Lemma sane_clear : sane clear_sst.
  Proof. split; [reflexivity|]. intros main id H. discriminate H. Qed.
  Lemma knows_clear h : knows clear_sst (clear_dst h).
  Proof. intros main id H. discriminate H. Qed.
  Lemma take_sane st : sane st -> sane (snd (take_id st)).
  Proof. intros H. exact H. Qed.
  Lemma knows_take st ds : knows (snd (take_id st)) ds <-> knows st ds.
  Proof. split; intros H; exact H. Qed.
  Lemma knows_put st ds id v : knows st (obj_put id v ds) <-> knows st ds.
  Proof. split; intros H; exact H. Qed.
  Lemma knows_upd st ds n f : knows st (upd_obj n f ds) <-> knows st ds.
  Proof. split; intros H; exact H. Qed.
  Lemma knows_heap st ds h : knows st (set_d_heap h ds) <-> knows st ds.
  Proof. split; intros H; exact H. Qed.

  (* ---- type names ---- *)
  Definition untyped (cs : list xml) : Prop := Forall (fun c => x_tag c <> lit "TN" /\ x_tag c <> lit "TNRef") cs.
  Lemma untyped_filter cs t : untyped cs -> t = lit "TN" \/ t = lit "TNRef" -> filter (fun c => str_eqb (x_tag c) t) cs = [].
  Proof.
    intros U E. induction U as [|c cs (A & B) U IH]; [reflexivity|]. cbn [filter].
    replace (str_eqb (x_tag c) t) with false; [exact IH|]. symmetry. apply str_eqb_neq. destruct E as [-> | ->]; assumption.
  Qed.
  Lemma no_types a t cs ds : untyped cs -> get_types (Elem (lit "Obj") a t cs) ds = Ok ([], ds).
  Proof.
    intros U. unfold get_types, child, find_first. cbn [find_all x_children].
    rewrite (untyped_filter cs (lit "TN") U (or_introl eq_refl)), (untyped_filter cs (lit "TNRef") U (or_intror eq_refl)). reflexivity.
  Qed.
  Lemma reparse_names ts : map (fun e => text_or_empty (x_text e)) (flat_map (find_all []) (filter (fun c => str_eqb (x_tag c) (lit "T")) (map reparse (map (fun t => Elem (lit "T") [] (Some t) []) ts)))) = ts.
  Proof.
    induction ts as [|t ts IH]; [reflexivity|]. cbn [map reparse]. cbn [filter x_tag]. change (str_eqb (lit "T") (lit "T")) with true. cbv iota. cbn [flat_map].
    match goal with |- context [find_all [] ?e ++ ?r] => change (find_all [] e ++ r) with (e :: r) end. cbn [map x_text]. rewrite IH. f_equal. destruct t; reflexivity.
  Qed.
  Lemma tn_written ts st : coded canon ts -> sane st ->
    exists x st1, create_tn ts st = Ok (x, st1) /\ sane st1 /\ (x_tag x = lit "TN" \/ x_tag x = lit "TNRef") /\ (depth (reparse x) <= 2)%nat /\
      forall a t cs ds, untyped cs -> knows st ds ->
        exists ds1, get_types (Elem (lit "Obj") a t (reparse x :: cs)) ds = Ok (ts, ds1) /\ knows st1 ds1 /\ d_heap ds1 = d_heap ds.
  Proof.
    intros (main & rest & E & C) (So & Si). subst ts. unfold create_tn. set (ts := main :: rest) in *. destruct (dict_get str_eqb main (s_tn st)) as [id|] eqn:G.
    - eexists. eexists. split; [reflexivity|]. split; [split; assumption|]. split; [right; reflexivity|]. split; [cbn; lia|].
      intros a t cs ds U K. exists ds. split; [|split; [exact K|reflexivity]].
      unfold get_types, child, find_first. cbn [reparse map find_all x_children filter x_tag].
      change (str_eqb (lit "TNRef") (lit "TN")) with false. change (str_eqb (lit "TNRef") (lit "TNRef")) with true. cbv iota.
      rewrite (untyped_filter cs (lit "TN") U (or_introl eq_refl)), (untyped_filter cs (lit "TNRef") U (or_intror eq_refl)).
      cbn [flat_map map app bind]. unfold attrib, attr_get. cbn [x_attrib]. change (dict_get str_eqb refid [(refid, dec id)]) with (Some (dec id)). cbn [bind].
      unfold tn_get. rewrite (K main id G). cbn [bind]. rewrite C. reflexivity.
    - eexists. eexists. split; [reflexivity|]. split; [|split; [left; reflexivity|split]].
      + split; [exact So|]. cbn [s_tn s_tnid]. intros main' id' H.
        destruct (str_eqb main' main) eqn:Q.
        * apply str_eqb_spec in Q. subst main'. rewrite (dict_get_set_same str_eqb str_eqb_spec) in H. apply Some_inj in H. subst id'. apply N.lt_add_pos_r. reflexivity.
        * rewrite (dict_get_set_other str_eqb str_eqb_spec) in H by (intros ->; rewrite str_eqb_refl in Q; discriminate Q). apply Si in H. apply N.lt_lt_add_r. exact H.
      + cbn [reparse depth]. apply le_n_S. clear. induction ts as [|t ts IH]; [apply Nat.le_0_l|]. cbn [map reparse fold_right depth]. 
        apply Nat.max_lub; [apply le_n|exact IH].
      + intros a t cs ds U K. set (st1 := mkSst _ _ _ _). exists (tn_put (dec (s_tnid st)) ts ds). split; [|split; [|reflexivity]].
        * unfold get_types, child, find_first. cbn [reparse find_all x_children filter x_tag].
          change (str_eqb (lit "TN") (lit "TN")) with true. change (str_eqb (lit "TN") (lit "TNRef")) with false. cbv iota.
          rewrite (untyped_filter cs (lit "TN") U (or_introl eq_refl)), (untyped_filter cs (lit "TNRef") U (or_intror eq_refl)).
          cbn [flat_map x_children app]. rewrite app_nil_r, reparse_names. cbn [flat_map]. change (match ts with [] => Ok ds | _ :: _ => do id <- attrib refid (Elem (lit "TN") [(refid, dec (s_tnid st))] None (map reparse (map (fun t => Elem (lit "T") [] (Some t) []) ts))); Ok (tn_put id ts ds) end) with (do id <- attrib refid (Elem (lit "TN") [(refid, dec (s_tnid st))] None (map reparse (map (fun t => Elem (lit "T") [] (Some t) []) ts))); Ok (tn_put id ts ds)). unfold attrib, attr_get. cbn [x_attrib].
          change (dict_get str_eqb refid [(refid, dec (s_tnid st))]) with (Some (dec (s_tnid st))). cbn [bind]. reflexivity.
        * intros main' id' H. subst st1. cbn [s_tn] in H. unfold tn_put. cbn [set_d_tn d_tn].
          destruct (str_eqb main' main) eqn:Q.
          -- apply str_eqb_spec in Q. subst main'. rewrite (dict_get_set_same str_eqb str_eqb_spec) in H. apply Some_inj in H. subst id'.
             rewrite (dict_get_set_same str_eqb str_eqb_spec). rewrite C. reflexivity.
          -- rewrite (dict_get_set_other str_eqb str_eqb_spec) in H by (intros ->; rewrite str_eqb_refl in Q; discriminate Q).
             rewrite (dict_get_set_other str_eqb str_eqb_spec); [exact (K _ _ H)|].
             intros F. apply dec_inj in F. pose proof (Si _ _ H) as L. rewrite F in L. exact (N.lt_irrefl _ L).
  Qed.

  (* ---- copies ---- *)
  Lemma copy_weaken base base' h h' v w : copy base h v w -> (base' <= base)%nat ->
    (forall n o, (base <= n)%nat -> nth_error h n = Some o -> nth_error h' n = Some o) -> copy base' h' v w.
  Proof.
    intros H L K. induction H as [|b|z|t|s|b|g|t v w _ IH|l l' El _ IH|d d' El _ IH|n n' c at1 at2 d Hb Hn Hn' Hc H1 _ IH H2 H3]; try (constructor; fail).
    - constructor. exact IH.
    - apply co_list; [exact El|exact IH].
    - apply co_dict; [exact El|exact IH].
    - apply (co_obj _ _ _ _ n n' c at1 at2 d); auto. eapply Nat.le_trans; eassumption.
  Qed.
  Lemma bears_copy tag v base h : bears tag v -> copy base h v v.
  Proof. intros []; constructor. Qed.
  Lemma bears_hash tag v : bears tag v -> hashable v = true.
  Proof. intros []; reflexivity. Qed.
  Lemma lone_copy v base h : lone v -> copy base h v v.
  Proof. intros [-> |H]; [constructor|exact (bears_copy _ _ _ _ H)]. Qed.
  Lemma lone_hash v : lone v -> hashable v = true.
  Proof. intros [-> |H]; [reflexivity|exact (bears_hash _ _ H)]. Qed.

  (* ---- what was written and how it is read ---- *)
  Definition reads (m mr : meta) : Prop :=
    match m_object m with
    | None => match m_kind m with KPlain => is_plain mr = true /\ m_object mr = None | _ => mr = m end
    | Some _ => mr = m \/ (m_tag m = star /\ m_kind m = KPlain /\ mr = set_tag (lit "Obj") m)
    end.
  Lemma reads_refl m : reads m m.
  Proof.
    unfold reads. destruct (m_object m) as [c|] eqn:E; [left; reflexivity|]. destruct (m_kind m) eqn:K; try reflexivity.
    unfold is_plain. rewrite K. auto.
  Qed.
  Definition steady (m : meta) (v : value) : Prop := m_kind m = KPlain /\ (v <> VNone \/ m_object m = None).
  Definition readable (st : sst) (m : meta) (v : value) (x : xml) (st1 : sst) : Prop :=
    forall mr ds fuel, reads m mr -> knows st ds -> (depth (reparse x) <= fuel)%nat ->
      exists w mr' ds', desf fuel (reparse x) mr ds = Ok (w, mr', ds') /\ knows st1 ds' /\ (steady m v -> reads m mr') /\
        grows (d_heap ds) (d_heap ds') /\ copy (length (d_heap ds)) (d_heap ds') v w.
  Definition found_by (m : meta) (x : xml) : Prop := m_tag m = star \/ In (x_tag x) (wanted_tags m).
  Definition written (st : sst) (m : meta) (v : value) (ox : option xml) (st1 : sst) : Prop :=
    match ox with
    | None => v = VNone /\ m_optional m = true /\ st1 = st
    | Some x => attr_get (lit "N") x = m_name m /\
        ((v = VNone /\ x_tag x = lit "Nil" /\ m_optional m = false /\ st1 = st) \/ (v <> VNone /\ found_by m x)) /\
        readable st m v x st1
    end.
  Definition goes (fuel : nat) (m : meta) (v : value) : Prop := forall st, sane st ->
    exists ox m' st', serf fuel v m st = Ok (ox, m', st') /\ m_kind m' = m_kind m /\ sane st' /\ written st m v ox st'.
  Definition settles (m : meta) (v : value) : Prop := exists f0, forall fuel, (f0 <= fuel)%nat -> goes fuel m v.

  (* ---- elements without children ---- *)
  Definition leafy (x : xml) (v : value) : Prop :=
    x_children x = [] /\ In (x_tag x) scalar_tags /\ scalar_of ci float_of (reparse x) = Ok v.
  Lemma reparse_tag x : x_tag (reparse x) = x_tag x. Proof. destruct x. reflexivity. Qed.
  Lemma reparse_attr k x : attr_get k (reparse x) = attr_get k x. Proof. destruct x. reflexivity. Qed.
  Lemma reparse_children x : x_children (reparse x) = map reparse (x_children x). Proof. destruct x. reflexivity. Qed.
  Lemma leaf_des x v fuel mr ds : leafy x v -> desf (S fuel) (reparse x) mr ds = Ok (v, next_meta (reparse x) mr, ds).
  Proof.
    intros (C & T & R). rewrite des_scalar; [rewrite R; reflexivity|]. split; [rewrite reparse_children, C; reflexivity|rewrite reparse_tag; exact T].
  Qed.
  Lemma next_plain x m : is_plain m = true /\ m_object m = None -> is_plain (next_meta x m) = true /\ m_object (next_meta x m) = None.
  Proof. destruct m as [k t n o c]. unfold next_meta. cbn [m_tag]. destruct (str_eqb t star); intros H; exact H. Qed.
  Lemma leaf_readable st m v x : leafy x v -> (forall base h, copy base h v v) -> (m_object m = None \/ v = VNone) -> readable st m v x st.
  Proof.
    intros L C O mr ds fuel R K D. destruct (depth_S (reparse x)) as (k & E). destruct fuel as [|fuel]; [rewrite E in D; inversion D|].
    exists v, (next_meta (reparse x) mr), ds. split; [apply leaf_des; exact L|]. split; [exact K|]. split; [|split; [apply grows_refl|apply C]].
    intros (P & Q). assert (O' : m_object m = None) by (destruct O as [O|O]; [exact O|destruct Q as [Q|Q]; [contradiction|exact Q]]).
    unfold reads in *. rewrite O', P in *. apply next_plain. exact R.
  Qed.
  Lemma named_attr m x : attr_get (lit "N") x = None -> attr_get (lit "N") (named m x) = m_name m.
  Proof.
    unfold named. destruct (m_name m) as [n|]; [|auto]. intros _. destruct x as [t a s c]. unfold attr_get. cbn [set_attr x_attrib].
    apply (dict_get_set_same str_eqb str_eqb_spec).
  Qed.
  Lemma named_tag m x : x_tag (named m x) = x_tag x. Proof. unfold named. destruct (m_name m), x; reflexivity. Qed.
  Lemma named_children m x : x_children (named m x) = x_children x. Proof. unfold named. destruct (m_name m), x; reflexivity. Qed.
  Lemma named_text m x : x_text (named m x) = x_text x. Proof. unfold named. destruct (m_name m), x; reflexivity. Qed.
  Lemma nil_leafy m : leafy (named m (Elem (lit "Nil") [] None [])) VNone.
  Proof.
    split; [rewrite named_children; reflexivity|]. split; [rewrite named_tag; unfold scalar_tags; cbn [x_tag map In]; tauto|].
    unfold named. destruct (m_name m); reflexivity.
  Qed.
  Lemma text_leafy m tag v s : bears tag v -> (forall a, scalar_of ci float_of (Elem tag a (shown s) []) = Ok v) -> leafy (named m (Elem tag [] (Some s) [])) v.
  Proof.
    intros B H. destruct (bears_text _ _ B) as (_ & _ & _ & T & _). split; [rewrite named_children; reflexivity|]. split; [rewrite named_tag; exact T|].
    unfold named. destruct (m_name m); cbn [set_attr reparse map]; (replace (match s with [] => None | _ :: _ => Some s end) with (shown s) by reflexivity); apply H.
  Qed.
  Lemma scalar_not_list tag : In tag scalar_tags -> tag_in tag ["DCT"; "LST"; "IE"; "QUE"; "STK"; "ObjDynamic"]%string = false /\ tag <> star.
  Proof.
    intros H. unfold scalar_tags in H. cbn [map In] in H.
    repeat (destruct H as [<- |H]; [split; [reflexivity|discriminate]|]). destruct H.
  Qed.
  Lemma star_not_known tag : existsb (str_eqb tag) known_tags = true -> tag <> star.
  Proof. intros H ->. discriminate H. Qed.
  Lemma set_tag_kind t m : m_kind (set_tag t m) = m_kind m. Proof. destruct m. reflexivity. Qed.

  (* none *)
  Lemma none_settles m : m_tag m = star \/ In (m_tag m) known_tags -> settles m VNone.
  Proof.
    intros H. exists 1%nat. intros [|fuel] L; [inversion L|]. intros st S. rewrite ser_S. cbn [is_vxml].
    assert (E : exists tag, tagged heap VNone m = (tag, VNone) /\ existsb (str_eqb tag) known_tags = true).
    { unfold tagged. destruct H as [H|H].
      - rewrite H. exists (lit "S"). split; reflexivity.
      - assert (K : existsb (str_eqb (m_tag m)) known_tags = true) by (apply existsb_exists; exists (m_tag m); split; [exact H|apply str_eqb_refl]).
        exists (m_tag m). split; [|exact K]. rewrite str_eqb_neq by (apply star_not_known; exact K). reflexivity. }
    destruct E as (tag & -> & K). unfold ser_with. rewrite K. cbn [negb is_vnone]. destruct (m_optional m) eqn:O.
    - exists None, (set_tag tag m), st. split; [reflexivity|]. split; [apply set_tag_kind|]. split; [exact S|]. split; [reflexivity|]. auto.
    - eexists. exists (set_tag tag m), st. split; [reflexivity|]. split; [apply set_tag_kind|]. split; [exact S|]. split; [apply named_attr; reflexivity|]. split.
      + left. rewrite named_tag. auto.
      + apply leaf_readable; [apply nil_leafy|constructor|right; reflexivity].
  Qed.
  (* a text *)
  Lemma text_ser tag v m fuel st : bears tag v -> tagged heap v m = (tag, v) ->
    exists s, serf (S fuel) v m st = Ok (Some (named m (Elem tag [] (Some s) [])), set_tag tag m, st) /\ leafy (named m (Elem tag [] (Some s) [])) v.
  Proof.
    intros B T. destruct (bears_text _ _ B) as (N1 & N2 & K & I & _ & _ & P). destruct (P (set_tag tag m)) as (s & E & R). exists s.
    split; [|exact (text_leafy _ _ _ _ B R)]. rewrite ser_S, N2, T. cbv beta iota zeta. unfold ser_with. rewrite K, N1. cbn [negb]. rewrite E. reflexivity.
  Qed.
  Lemma bears_not_none tag v : bears tag v -> v <> VNone.
  Proof. intros [] ; discriminate. Qed.
  Lemma scalar_settles tag name opt v : bears tag v -> settles (Meta KPlain tag name opt None) v.
  Proof.
    intros B. exists 1%nat. intros [|fuel] L; [inversion L|]. intros st S. set (m := Meta KPlain tag name opt None).
    destruct (bears_text _ _ B) as (_ & _ & K & I & _). destruct (scalar_not_list _ I) as (W & Ns).
    destruct (text_ser tag v m fuel st B) as (s & E & Lf).
    { unfold tagged. cbn [m m_tag]. rewrite (str_eqb_neq _ _ Ns). reflexivity. }
    eexists. eexists. exists st. split; [exact E|]. split; [reflexivity|]. split; [exact S|]. split; [apply named_attr; reflexivity|]. split.
    - right. split; [exact (bears_not_none _ _ B)|]. right. rewrite named_tag. unfold wanted_tags. cbn [m m_tag]. rewrite W. left. reflexivity.
    - apply leaf_readable; [exact Lf|intros; exact (bears_copy _ _ _ _ B)|left; reflexivity].
  Qed.
  Lemma natural_tag v : bears (natural v) v -> tag_of_value heap v = natural v /\ (match v with VTagged _ _ => False | _ => True end).
  Proof. intros B. destruct v; try (split; [reflexivity|exact I]); exfalso; inversion B. Qed.
  Lemma natural_tagged v name opt : bears (natural v) v -> tagged heap v (Meta KPlain star name opt None) = (natural v, v).
  Proof.
    intros B. destruct (natural_tag v B) as (E & T). unfold tagged. cbn [m_tag]. rewrite str_eqb_refl. destruct v; try contradiction; rewrite E; reflexivity.
  Qed.
  Lemma star_settles name opt v : bears (natural v) v -> settles (Meta KPlain star name opt None) v.
  Proof.
    intros B. exists 1%nat. intros [|fuel] L; [inversion L|]. intros st S.
    destruct (text_ser (natural v) v _ fuel st B (natural_tagged v name opt B)) as (s & E & Lf).
    eexists. eexists. exists st. split; [exact E|]. split; [reflexivity|]. split; [exact S|]. split; [apply named_attr; reflexivity|]. split.
    - right. split; [exact (bears_not_none _ _ B)|]. left. reflexivity.
    - apply leaf_readable; [exact Lf|intros; exact (bears_copy _ _ _ _ B)|left; reflexivity].
  Qed.
  Lemma tagged_settles name opt tag v : bears tag v -> settles (Meta KPlain star name opt None) (VTagged tag v).
  Proof.
    intros B. exists 1%nat. intros [|fuel] L; [inversion L|]. intros st S. set (m := Meta KPlain star name opt None).
    destruct (bears_text _ _ B) as (N1 & N2 & K & I & _ & _ & P). destruct (P (set_tag tag m)) as (s & E & R).
    exists (Some (named m (Elem tag [] (Some s) []))), (set_tag tag m), st. split; [|split; [reflexivity|split; [exact S|split; [apply named_attr; reflexivity|split]]]].
    - rewrite ser_S. cbn [is_vxml]. change (tagged heap (VTagged tag v) m) with (tag, v). cbv beta iota zeta. unfold ser_with. rewrite K, N1. cbn [negb]. rewrite E. reflexivity.
    - right. split; [discriminate|left; reflexivity].
    - intros mr ds fuel' Hr Hk Hd. destruct (leaf_readable st m v _ (text_leafy m _ _ _ B R) (fun base h => bears_copy _ _ base h B) (or_introl eq_refl) mr ds fuel' Hr Hk Hd)
        as (w & mr' & ds' & A1 & A2 & A3 & A4 & A5).
      exists w, mr', ds'. split; [exact A1|]. split; [exact A2|]. split; [|split; [exact A4|constructor; exact A5]].
      intros (Q1 & _). apply A3. split; [exact Q1|right; reflexivity].
  Qed.
  (* members of lists, keys *)
  Lemma lone_ser v name fuel st : lone v -> exists x m', serf (S fuel) v (Meta KPlain star name false None) st = Ok (Some x, m', st) /\ m_kind m' = KPlain /\
    attr_get (lit "N") x = name /\ leafy x v.
  Proof.
    intros [-> |B].
    - do 2 eexists. split; [reflexivity|]. split; [reflexivity|]. split; [apply (named_attr (Meta KPlain star name false None)); reflexivity|apply nil_leafy].
    - destruct (text_ser (natural v) v _ fuel st B (natural_tagged v name false B)) as (s & E & Lf). do 2 eexists. split; [exact E|]. split; [reflexivity|].
      split; [apply (named_attr (Meta KPlain star name false None)); reflexivity|exact Lf].
  Qed.

  (* ---- elements with children ---- *)
  Definition oattr (m : meta) (id : N) : list (list N * list N) :=
    (refid, dec id) :: match m_name m with Some n => [(lit "N", n)] | None => [] end.
  Lemma named_obj m id cs : named m (obj_elem id cs) = Elem (lit "Obj") (oattr m id) None cs.
  Proof. unfold named, oattr. destruct (m_name m); reflexivity. Qed.
  Lemma reparse_obj m id cs : reparse (named m (obj_elem id cs)) = Elem (lit "Obj") (oattr m id) None (map reparse cs).
  Proof. rewrite named_obj. reflexivity. Qed.
  Lemma oattr_name m id cs : attr_get (lit "N") (named m (obj_elem id cs)) = m_name m.
  Proof. apply named_attr. reflexivity. Qed.
  Lemma oattr_id m id t c : attrib refid (Elem (lit "Obj") (oattr m id) t c) = Ok (dec id).
  Proof. reflexivity. Qed.
  Lemma des_known fuel m id t cs mr ds types ds1 cm v m2 ds2 (X := Elem (lit "Obj") (oattr m id) t cs) :
    is_plain mr = true /\ m_object mr = None -> get_types X ds = Ok (types, ds1) -> types <> [] -> choose types = Ok (Some cm) ->
    des_struct xml_text classes (desf fuel) X cm ds1 = Ok (v, m2, ds2) ->
    desf (S fuel) X mr ds = Ok (v, next_meta X mr, obj_put (dec id) v ds2).
  Proof.
    intros P G Ne C D. destruct (next_plain X mr P) as (P1 & P2). cbn [des]. fold (next_meta X mr). rewrite G. cbn [bind].
    rewrite (obj_not_primitive ci float_of X ds1 eq_refl). rewrite P1, P2. cbn [is_none andb].
    destruct types as [|t0 ts0]; [contradiction|]. rewrite C. cbn [bind]. rewrite D. cbn [bind].
    change (str_eqb (x_tag X) (lit "Obj")) with true. cbv iota. unfold X at 1. rewrite oattr_id. reflexivity.
  Qed.
  Lemma des_given fuel m id t cs mr ds types ds1 v m2 ds2 (X := Elem (lit "Obj") (oattr m id) t cs) :
    (is_plain (next_meta X mr) && is_none (m_object (next_meta X mr)))%bool = false -> get_types X ds = Ok (types, ds1) ->
    des_struct xml_text classes (desf fuel) X (next_meta X mr) ds1 = Ok (v, m2, ds2) ->
    desf (S fuel) X mr ds = Ok (v, m2, obj_put (dec id) v ds2).
  Proof.
    intros P G D. cbn [des]. fold (next_meta X mr). rewrite G. cbn [bind].
    rewrite (obj_not_primitive ci float_of X ds1 eq_refl). rewrite P. cbv iota. rewrite D. cbn [bind].
    change (str_eqb (x_tag X) (lit "Obj")) with true. cbv iota. unfold X at 1. rewrite oattr_id. reflexivity.
  Qed.
  Lemma grows_length h h' : grows h h' -> (length h <= length h')%nat.
  Proof. intros (e & ->). rewrite app_length. apply Nat.le_add_r. Qed.
  Lemma grows_nth h h' n o : grows h h' -> nth_error h n = Some o -> nth_error h' n = Some o.
  Proof.
    intros (e & ->) H. rewrite nth_error_app1; [exact H|]. apply nth_error_Some. rewrite H. discriminate.
  Qed.

  (* ---- lists ---- *)
  Inductive chain (e : meta) : sst -> list value -> list xml -> sst -> Prop :=
  | ch_nil : forall st, chain e st [] [] st
  | ch_cons : forall st v l x xs st1 st2, readable st e v x st1 -> chain e st1 l xs st2 -> chain e st (v :: l) (x :: xs) st2.
  Lemma set_same_kind m : set_kind (m_kind m) m = m. Proof. destruct m. reflexivity. Qed.
  Lemma entries_go fuel e l : m_optional e = false -> (forall v, In v l -> goes fuel e v) ->
    forall st, sane st -> exists xs st2, ser_entries (serf fuel) true e l st = Ok (xs, e, st2) /\ sane st2 /\ chain e st l xs st2.
  Proof.
    intros O. induction l as [|v l IH]; intros G st S; cbn [ser_entries].
    - exists [], st. split; [reflexivity|]. split; [exact S|constructor].
    - destruct (G v (or_introl eq_refl) st S) as (ox & m' & st1 & E & K & S1 & W). rewrite E. cbn [bind]. rewrite K, set_same_kind.
      destruct (IH (fun w Hw => G w (or_intror Hw)) st1 S1) as (xs & st2 & E2 & S2 & C). rewrite E2. cbn [bind].
      destruct ox as [x|]; [|destruct W as (_ & W & _); rewrite O in W; discriminate W]. destruct W as (_ & _ & R).
      exists (x :: xs), st2. split; [reflexivity|]. split; [exact S2|]. econstructor; eassumption.
  Qed.
  Definition copies (base : nat) (h : list hobj) (l l' : list value) : Prop :=
    length l = length l' /\ forall i v w, nth_error l i = Some v -> nth_error l' i = Some w -> copy base h v w.
  Lemma copies_nil base h : copies base h [] [].
  Proof. split; [reflexivity|]. intros [|i] v w H; discriminate H. Qed.
  Lemma copies_cons base h v w l l' : copy base h v w -> copies base h l l' -> copies base h (v :: l) (w :: l').
  Proof.
    intros A (B & C). split; [cbn [length]; rewrite B; reflexivity|]. intros [|i] v' w' H1 H2; cbn [nth_error] in H1, H2.
    - apply Some_inj in H1. apply Some_inj in H2. subst. exact A.
    - eapply C; eassumption.
  Qed.
  Lemma copies_grow base base' h h' l l' : copies base h l l' -> (base' <= base)%nat -> grows h h' -> copies base' h' l l'.
  Proof.
    intros (A & B) L G. split; [exact A|]. intros i v w H1 H2. eapply copy_weaken; [exact (B i v w H1 H2)|exact L|].
    intros n o _ H. exact (grows_nth _ _ _ _ G H).
  Qed.
  Lemma copy_grow base base' h h' v w : copy base h v w -> (base' <= base)%nat -> grows h h' -> copy base' h' v w.
  Proof. intros A L G. eapply copy_weaken; [exact A|exact L|]. intros n o _ H. exact (grows_nth _ _ _ _ G H). Qed.
  Lemma chain_read e fuel st l xs st2 : chain e st l xs st2 -> (forall v, In v l -> steady e v) -> (forall x, In x xs -> (depth (reparse x) <= fuel)%nat) ->
    forall mr ds, reads e mr -> knows st ds ->
    exists ws mr' ds', des_entries (desf fuel) (Some mr) (map reparse xs) ds = Ok (ws, mr', ds') /\ knows st2 ds' /\ grows (d_heap ds) (d_heap ds') /\
      copies (length (d_heap ds)) (d_heap ds') l ws.
  Proof.
    induction 1 as [st|st v l x xs st1 st2 R C IH]; intros Sd D mr ds Hr Hk; cbn [map des_entries].
    - exists [], (Some mr), ds. split; [reflexivity|]. split; [exact Hk|]. split; [apply grows_refl|apply copies_nil].
    - destruct (R mr ds fuel Hr Hk (D x (or_introl eq_refl))) as (w & mr1 & ds1 & E1 & K1 & R1 & G1 & C1). rewrite E1. cbn [bind].
      destruct (IH (fun u Hu => Sd u (or_intror Hu)) (fun u Hu => D u (or_intror Hu)) mr1 ds1 (R1 (Sd v (or_introl eq_refl))) K1) as (ws & mr2 & ds2 & E2 & K2 & G2 & C2).
      rewrite E2. cbn [bind]. exists (w :: ws), mr2, ds2. split; [reflexivity|]. split; [exact K2|]. split; [exact (grows_trans _ _ _ G1 G2)|].
      apply copies_cons; [exact (copy_grow _ _ _ _ _ _ C1 (le_n _) G2)|].
      eapply copies_grow; [exact C2|exact (grows_length _ _ G1)|apply grows_refl].
  Qed.
  Lemma child_depth t a s cs c e : In c cs -> In e (x_children c) -> (depth e < pred (depth (Elem t a s cs)))%nat.
  Proof.
    intros H1 H2. pose proof (depth_child c e H2) as A. pose proof (depth_child (Elem t a s cs) c H1) as B.
    destruct (depth (Elem t a s cs)) as [|k]; [inversion B|]. cbn [pred]. eapply Nat.lt_le_trans; [exact A|]. apply le_S_n. exact B.
  Qed.
  Lemma tn_tag_other x t : (x_tag x = lit "TN" \/ x_tag x = lit "TNRef") -> t <> lit "TN" -> t <> lit "TNRef" -> str_eqb (x_tag (reparse x)) t = false.
  Proof. intros H A B. rewrite reparse_tag. apply str_eqb_neq. destruct H as [-> | ->]; congruence. Qed.
  Lemma entries_found a tn xs t : (x_tag tn = lit "TN" \/ x_tag tn = lit "TNRef") -> t <> lit "TN" -> t <> lit "TNRef" ->
    entries_of t (Elem (lit "Obj") a None (map reparse [tn; Elem t [] None xs])) = map reparse xs.
  Proof.
    intros H A B. unfold entries_of, child, find_first. cbn [map reparse find_all x_children filter].
    fold (reparse tn). rewrite (tn_tag_other tn t H A B). cbn [x_tag]. rewrite str_eqb_refl. reflexivity.
  Qed.
  Lemma untyped_one t xs : t <> lit "TN" -> t <> lit "TNRef" -> untyped (map reparse [Elem t [] None xs]).
  Proof. intros A B. constructor; [split; assumption|constructor]. Qed.
  Lemma list_settles e ts name opt l : coded canon ts -> m_kind e = KPlain -> m_optional e = false ->
    (forall v, In v l -> v <> VNone \/ m_object e = None) -> (forall v, In v l -> settles e v) ->
    settles (Meta (KList e ts) (lit "LST") name opt None) (VList l).
  Proof.
    intros Ct Ke Oe Nn H. set (m := Meta (KList e ts) (lit "LST") name opt None).
    assert (K : exists f0, forall f, (f0 <= f)%nat -> Forall (goes f e) l).
    { apply bound_all. apply Forall_forall. exact H. }
    destruct K as (f0 & K). exists (S f0). intros [|fuel] L; [inversion L|]. apply le_S_n in L. intros st S.
    rewrite ser_S. cbn [is_vxml]. change (tagged heap (VList l) m) with (lit "LST", VList l). cbv beta iota zeta.
    change (ser_with ci show classes heap (serf fuel) (lit "LST") (VList l) m st) with
      (do '(x, m2, st1) <- (do '(x, e', st1) <- ser_list (serf fuel) (lit "LST") true (e, ts) l st; Ok (x, with_entry e' m, st1)); Ok (Some (named m x), m2, st1)).
    unfold ser_list. destruct (take_id st) as [id st0] eqn:T. cbn [snd fst].
    assert (S0 : sane st0) by (pose proof (take_sane st S) as Q; rewrite T in Q; exact Q).
    assert (Kn : forall ds, knows st ds -> knows st0 ds) by (intros ds Q; apply (proj2 (knows_take st ds)) in Q; rewrite T in Q; exact Q).
    destruct (tn_written ts st0 Ct S0) as (tn & st1 & E1 & S1 & Tg & Dp & Rd). rewrite E1. cbn [bind].
    assert (G : forall v, In v l -> goes fuel e v) by (intros v Hv; specialize (K fuel L); rewrite Forall_forall in K; exact (K v Hv)).
    destruct (entries_go fuel e l Oe G st1 S1) as (xs & st2 & E2 & S2 & C). rewrite E2. cbn [bind].
    do 3 eexists. split; [reflexivity|]. split; [reflexivity|]. split; [exact S2|]. split; [apply oattr_name|]. split.
    - right. split; [discriminate|]. right. rewrite named_tag. left. reflexivity.
    - intros mr ds fuel' Hr Hk Hd. change (reads m mr) with (mr = m) in Hr. subst mr. rewrite reparse_obj in *. 
      destruct fuel' as [|fuel']; [exfalso; inversion Hd|].
      destruct (Rd (oattr m id) None (map reparse [Elem (lit "LST") [] None xs]) ds (untyped_one (lit "LST") xs ltac:(discriminate) ltac:(discriminate)) (Kn _ Hk)) as (ds1 & G1 & K1 & H1).
      change (reparse tn :: map reparse [Elem (lit "LST") [] None xs]) with (map reparse [tn; Elem (lit "LST") [] None xs]) in G1.
      destruct (chain_read e fuel' st1 l xs st2 C) with (mr := e) (ds := ds1) as (ws & mr' & ds2 & E3 & K3 & G3 & C3).
      { intros v Hv. split; [exact Ke|exact (Nn v Hv)]. }
      { intros x Hx. pose proof (child_depth (lit "Obj") (oattr m id) None (map reparse [tn; Elem (lit "LST") [] None xs]) (reparse (Elem (lit "LST") [] None xs)) (reparse x)
          (or_intror (or_introl eq_refl)) (in_map reparse _ _ Hx)) as Q. lia. }
      { apply reads_refl. }
      { exact K1. }
      exists (VList ws). eexists. exists (obj_put (dec id) (VList ws) ds2). split; [|split; [exact K3|split; [|split]]].
      + eapply des_given; [reflexivity|exact G1|].
        match goal with |- des_struct _ _ _ ?X _ _ = _ => change (des_struct xml_text classes (desf fuel') X (next_meta X m) ds1) with (des_lst (desf fuel') X m ds1) end.
        unfold des_lst. rewrite (entries_found _ _ _ _ Tg) by discriminate. change (list_info m) with (Some (e, ts)). cbv iota. cbn [fst].
        rewrite E3. cbn [bind]. reflexivity.
      + intros (Q & _). discriminate Q.
      + change (d_heap (obj_put (dec id) (VList ws) ds2)) with (d_heap ds2). rewrite <- H1. exact G3.
      + change (d_heap (obj_put (dec id) (VList ws) ds2)) with (d_heap ds2). rewrite <- H1. destruct C3 as (C3 & C4). apply co_list; [exact C3|exact C4].
  Qed.

  Lemma lone_entries fuel l : Forall lone l -> forall st, exists xs, ser_entries (serf (S fuel)) true any_meta l st = Ok (xs, any_meta, st) /\ Forall2 leafy xs l.
  Proof.
    induction 1 as [|v l B Hl IH]; intros st; cbn [ser_entries]; [exists []; split; [reflexivity|constructor]|].
    destruct (lone_ser v None fuel st B) as (x & m' & E & K & _ & Lf). change (Meta KPlain star None false None) with any_meta in E. rewrite E. cbn [bind].
    rewrite K. change (set_kind KPlain any_meta) with any_meta. destruct (IH st) as (xs & E2 & F). rewrite E2. cbn [bind].
    exists (x :: xs). split; [reflexivity|constructor; assumption].
  Qed.
  Lemma leafy_entries fuel xs l : Forall2 leafy xs l -> forall mr ds, exists mr', des_entries (desf (S fuel)) (Some mr) (map reparse xs) ds = Ok (l, mr', ds).
  Proof.
    induction 1 as [|x v xs l Lf F IH]; intros mr ds; cbn [map des_entries]; [eexists; reflexivity|].
    rewrite (leaf_des x v fuel mr ds Lf). cbn [bind]. destruct (IH (next_meta (reparse x) mr) ds) as (mr' & E). rewrite E. cbn [bind]. eexists. reflexivity.
  Qed.
  Lemma lone_copies l base h : Forall lone l -> copy base h (VList l) (VList l).
  Proof.
    intros F. apply co_list; [reflexivity|]. intros i v w H1 H2. rewrite H1 in H2. apply Some_inj in H2. subst w.
    apply lone_copy. rewrite Forall_forall in F. apply F. eapply nth_error_In. exact H1.
  Qed.
  Lemma members_settles name opt l : coded canon list_names -> Forall lone l -> settles (Meta KPlain star name opt None) (VList l).
  Proof.
    intros Ct F. set (m := Meta KPlain star name opt None). exists 2%nat. intros [|[|fuel]] L; [inversion L|inversion L as [|? Q]; inversion Q|]. intros st S.
    rewrite ser_S. cbn [is_vxml]. change (tagged heap (VList l) m) with (lit "LST", VList l). cbv beta iota zeta.
    change (ser_with ci show classes heap (serf (Datatypes.S fuel)) (lit "LST") (VList l) m st) with
      (do '(x, m2, st1) <- (do '(x, _, st1) <- ser_list (serf (Datatypes.S fuel)) (lit "LST") true (any_meta, list_names) l st; Ok (x, set_tag (lit "LST") m, st1)); Ok (Some (named m x), m2, st1)).
    unfold ser_list. destruct (take_id st) as [id st0] eqn:T. cbn [snd fst].
    assert (S0 : sane st0) by (pose proof (take_sane st S) as Q; rewrite T in Q; exact Q).
    assert (Kn : forall ds, knows st ds -> knows st0 ds) by (intros ds Q; apply (proj2 (knows_take st ds)) in Q; rewrite T in Q; exact Q).
    destruct (tn_written list_names st0 Ct S0) as (tn & st1 & E1 & S1 & Tg & Dp & Rd). rewrite E1. cbn [bind].
    destruct (lone_entries fuel l F st1) as (xs & E2 & Fx). rewrite E2. cbn [bind].
    do 3 eexists. split; [reflexivity|]. split; [reflexivity|]. split; [exact S1|]. split; [apply oattr_name|]. split.
    - right. split; [discriminate|]. left. reflexivity.
    - intros mr ds fuel' Hr Hk Hd. change (reads m mr) with (is_plain mr = true /\ m_object mr = None) in Hr. rewrite reparse_obj in *.
      destruct fuel' as [|fuel']; [exfalso; inversion Hd|].
      destruct (Rd (oattr m id) None (map reparse [Elem (lit "LST") [] None xs]) ds (untyped_one (lit "LST") xs ltac:(discriminate) ltac:(discriminate)) (Kn _ Hk)) as (ds1 & G1 & K1 & H1).
      change (reparse tn :: map reparse [Elem (lit "LST") [] None xs]) with (map reparse [tn; Elem (lit "LST") [] None xs]) in G1.
      assert (D : exists mr', des_entries (desf fuel') (Some generic_meta) (map reparse xs) ds1 = Ok (l, mr', ds1)).
      { destruct fuel' as [|fuel']; [|apply leafy_entries; exact Fx]. exfalso.
        pose proof (depth_child (Elem (lit "Obj") (oattr m id) None (map reparse [tn; Elem (lit "LST") [] None xs])) (reparse tn) (or_introl eq_refl)) as Q.
        destruct (depth_S (reparse tn)) as (k & Ek). lia. }
      destruct D as (mr' & D).
      exists (VList l). eexists. exists (obj_put (dec id) (VList l) ds1). split; [|split; [exact K1|split; [|split]]].
      + eapply des_known with (cm := list_meta None false generic_meta); [exact Hr|exact G1|discriminate|vm_compute; reflexivity|].
        match goal with |- des_struct _ _ _ ?X _ _ = _ => change (des_struct xml_text classes (desf fuel') X (list_meta None false generic_meta) ds1) with (des_lst (desf fuel') X (list_meta None false generic_meta) ds1) end.
        unfold des_lst. rewrite (entries_found _ _ _ _ Tg) by discriminate. change (list_info (list_meta None false generic_meta)) with (Some (generic_meta, list_names)). cbv iota. cbn [fst].
        rewrite D. cbn [bind]. reflexivity.
      + intros _. exact (next_plain _ _ Hr).
      + change (d_heap (obj_put (dec id) (VList l) ds1)) with (d_heap ds1). rewrite H1. apply grows_refl.
      + apply lone_copies. exact F.
  Qed.

  (* ---- dictionaries ---- *)
  Definition value_meta : meta := Meta KPlain star (Some (lit "Value")) false None.
  Definition key_meta : meta := Meta KPlain star (Some (lit "Key")) false None.
  Inductive dchain : sst -> list (value * value) -> list xml -> sst -> Prop :=
  | dc_nil : forall st, dchain st [] [] st
  | dc_cons : forall st k v d x y ens st1 st2, lone k -> leafy x k -> attr_get (lit "N") x = Some (lit "Key") -> attr_get (lit "N") y = Some (lit "Value") ->
      readable st value_meta v y st1 -> dchain st1 d ens st2 -> dchain st ((k, v) :: d) (Elem (lit "En") [] None [x; y] :: ens) st2.
  Lemma pairs_go fuel d : Forall (fun e => lone (fst e)) d -> (forall e, In e d -> goes (S fuel) value_meta (snd e)) ->
    forall st, sane st -> exists ens st2, ser_pairs (serf (S fuel)) key_meta value_meta d st = Ok (ens, key_meta, value_meta, st2) /\ sane st2 /\ dchain st d ens st2.
  Proof.
    induction d as [|[k v] d IH]; intros F G st S; cbn [ser_pairs].
    - exists [], st. split; [reflexivity|]. split; [exact S|constructor].
    - destruct (lone_ser k (Some (lit "Key")) fuel st (Forall_inv F)) as (x & km & E & K & Nk & Lf). fold key_meta in E. rewrite E. cbn [bind]. rewrite K.
      destruct (G (k, v) (or_introl eq_refl) st S) as (oy & vm & st1 & E1 & K1 & S1 & W). cbn [snd] in E1, W. rewrite E1. cbn [bind]. rewrite K1, set_same_kind.
      change (set_kind KPlain key_meta) with key_meta.
      destruct (IH (Forall_inv_tail F) (fun e He => G e (or_intror He)) st1 S1) as (ens & st2 & E2 & S2 & C). rewrite E2. cbn [bind].
      destruct oy as [y|]; [|destruct W as (_ & W & _); discriminate W]. destruct W as (Ny & _ & R).
      eexists. exists st2. split; [reflexivity|]. split; [exact S2|]. cbn [opt_list app]. econstructor; try eassumption. exact (Forall_inv F).
  Qed.
  Lemma found_parts x y : attr_get (lit "N") x = Some (lit "Key") -> attr_get (lit "N") y = Some (lit "Value") ->
    find_in [] star (Some (lit "Key")) (reparse (Elem (lit "En") [] None [x; y])) = Some (reparse x) /\
    find_in [] star (Some (lit "Value")) (reparse (Elem (lit "En") [] None [x; y])) = Some (reparse y).
  Proof.
    intros Hx Hy. unfold find_in. cbn [find_all reparse map flat_map x_children app find]. unfold matches.
    rewrite !reparse_attr, Hx, Hy. split; reflexivity.
  Qed.
  Lemma dchain_read fuel st d ens st2 : dchain st d ens st2 -> distinct_keys d -> (forall e, In e ens -> (depth (reparse e) <= S fuel)%nat) ->
    forall acc ds, Forall (fun e => Forall (fun a => key_eqb (fst e) (fst a) = false) acc) d -> knows st ds ->
    exists d' ds', des_pairs (desf fuel) (map reparse ens) acc ds = Ok (acc ++ d', ds') /\ knows st2 ds' /\ grows (d_heap ds) (d_heap ds') /\
      map fst d = map fst d' /\ copies (length (d_heap ds)) (d_heap ds') (map snd d) (map snd d').
  Proof.
    induction 1 as [st|st k v d x y ens st1 st2 B Lf Nx Ny R C IH]; intros Dk Dp acc ds Ha Hk.
    - exists [], ds. cbn [map des_pairs]. rewrite app_nil_r. split; [reflexivity|]. split; [exact Hk|]. split; [apply grows_refl|]. split; [reflexivity|apply copies_nil].
    - cbn [map]. cbn [des_pairs]. destruct (found_parts x y Nx Ny) as (Fx & Fy). unfold des_part. rewrite Fx, Fy.
      assert (Dxy : (depth (reparse x) <= fuel)%nat /\ (depth (reparse y) <= fuel)%nat).
      { specialize (Dp _ (or_introl eq_refl)). cbn [reparse map depth fold_right] in Dp. apply le_S_n in Dp. rewrite Nat.max_0_r in Dp. split.
        - eapply Nat.le_trans; [apply Nat.le_max_l|exact Dp].
        - eapply Nat.le_trans; [apply Nat.le_max_r|exact Dp]. }
      destruct Dxy as (Dx & Dy).
      destruct fuel as [|fuel]; [destruct (depth_S (reparse x)) as (j & Ej); rewrite Ej in Dx; inversion Dx|].
      rewrite (leaf_des x k fuel any_meta ds Lf). cbn [bind].
      destruct (R any_meta ds (S fuel) (conj eq_refl eq_refl) Hk Dy) as (w & mr' & ds1 & E1 & K1 & _ & G1 & C1). rewrite E1. cbn [bind].
      rewrite (lone_hash k B). rewrite dict_set_new by exact (Forall_inv Ha). destruct Dk as (Dk1 & Dk2).
      destruct (IH Dk2 (fun e He => Dp e (or_intror He)) (acc ++ [(k, w)]) ds1) as (d' & ds2 & E2 & K2 & G2 & M2 & C2); [|exact K1|].
      { pose proof (Forall_inv_tail Ha) as Ht. clear -Ht Dk1. cbn [fst] in Dk1. rewrite Forall_forall in *. intros e He.
        apply Forall_app. split; [exact (Ht e He)|]. constructor; [exact (Dk1 e He)|constructor]. }
      exists ((k, w) :: d'), ds2. split; [rewrite E2, <- app_assoc; reflexivity|]. split; [exact K2|]. split; [exact (grows_trans _ _ _ G1 G2)|].
      split; [cbn [map fst]; rewrite M2; reflexivity|]. cbn [map snd]. apply copies_cons; [exact (copy_grow _ _ _ _ _ _ C1 (le_n _) G2)|].
      eapply copies_grow; [exact C2|exact (grows_length _ _ G1)|apply grows_refl].
  Qed.
  Lemma dct_found a tn st d ens st2 : dchain st d ens st2 -> (x_tag tn = lit "TN" \/ x_tag tn = lit "TNRef") ->
    find_all [lit "DCT"; lit "En"] (Elem (lit "Obj") a None (map reparse [tn; Elem (lit "DCT") [] None ens])) = map reparse ens.
  Proof.
    intros C H. cbn [find_all x_children map reparse filter]. fold (reparse tn). rewrite (tn_tag_other tn (lit "DCT") H) by discriminate.
    cbn [x_tag]. change (str_eqb (lit "DCT") (lit "DCT")) with true. cbv iota. cbn [flat_map x_children]. rewrite app_nil_r.
    induction C as [|st k v d x y ens st1 st2 _ _ _ _ _ C IH]; [reflexivity|]. cbn [map filter]. rewrite reparse_tag. cbn [x_tag].
    change (str_eqb (lit "En") (lit "En")) with true. cbv iota. cbn [flat_map app]. f_equal. exact IH.
  Qed.
  Lemma dict_settles name opt d : coded canon dict_names -> Forall (fun e => lone (fst e)) d -> distinct_keys d ->
    (forall e, In e d -> settles value_meta (snd e)) -> settles (Meta KPlain star name opt None) (VDict d).
  Proof.
    intros Ct Fk Dk H. set (m := Meta KPlain star name opt None).
    assert (K : exists f0, forall f, (f0 <= f)%nat -> Forall (fun e => goes f value_meta (snd e)) d).
    { apply (bound_all (fun f e => goes f value_meta (snd e))). apply Forall_forall. exact H. }
    destruct K as (f0 & K). exists (S (S f0)). intros [|[|fuel]] L; [inversion L|inversion L as [|? Q]; inversion Q|]. apply le_S_n in L. intros st S.
    rewrite ser_S. cbn [is_vxml]. change (tagged heap (VDict d) m) with (lit "DCT", VDict d). cbv beta iota zeta.
    change (ser_with ci show classes heap (serf (Datatypes.S fuel)) (lit "DCT") (VDict d) m st) with
      (do '(x, m2, st1) <- ser_dct (serf (Datatypes.S fuel)) (set_tag (lit "DCT") m) (VDict d) st; Ok (Some (named m x), m2, st1)).
    unfold ser_dct. change (m_kind (set_tag (lit "DCT") m)) with KPlain. cbv iota. destruct (take_id st) as [id st0] eqn:T. cbn [bind].
    change [lit "System.Collections.Hashtable"; lit "System.Object"] with dict_names. change (object_meta star (Some (lit "Key"))) with key_meta. change (object_meta star (Some (lit "Value"))) with value_meta.
    assert (S0 : sane st0) by (pose proof (take_sane st S) as Q; rewrite T in Q; exact Q).
    assert (Kn : forall ds, knows st ds -> knows st0 ds) by (intros ds Q; apply (proj2 (knows_take st ds)) in Q; rewrite T in Q; exact Q).
    destruct (tn_written dict_names st0 Ct S0) as (tn & st1 & E1 & S1 & Tg & Dp & Rd). rewrite E1. cbn [bind].
    assert (G : forall e, In e d -> goes (Datatypes.S fuel) value_meta (snd e)).
    { intros e He. specialize (K (Datatypes.S fuel) (Nat.le_trans _ _ _ (Nat.le_succ_diag_r f0) L)). rewrite Forall_forall in K. exact (K e He). }
    destruct (pairs_go fuel d Fk G st1 S1) as (ens & st2 & E2 & S2 & C). rewrite E2. cbn [bind].
    do 3 eexists. split; [reflexivity|]. split; [reflexivity|]. split; [exact S2|]. split; [apply oattr_name|]. split.
    - right. split; [discriminate|]. left. reflexivity.
    - intros mr ds fuel' Hr Hk Hd. change (reads m mr) with (is_plain mr = true /\ m_object mr = None) in Hr. rewrite reparse_obj in *.
      destruct fuel' as [|fuel']; [exfalso; inversion Hd|].
      destruct (Rd (oattr m id) None (map reparse [Elem (lit "DCT") [] None ens]) ds (untyped_one (lit "DCT") ens ltac:(discriminate) ltac:(discriminate)) (Kn _ Hk)) as (ds1 & G1 & K1 & H1).
      change (reparse tn :: map reparse [Elem (lit "DCT") [] None ens]) with (map reparse [tn; Elem (lit "DCT") [] None ens]) in G1.
      destruct (dchain_read fuel' st1 d ens st2 C Dk) with (acc := @nil (value * value)) (ds := ds1) as (d' & ds2 & E3 & K3 & G3 & M3 & C3).
      { intros x Hx. pose proof (child_depth (lit "Obj") (oattr m id) None (map reparse [tn; Elem (lit "DCT") [] None ens]) (reparse (Elem (lit "DCT") [] None ens)) (reparse x)
          (or_intror (or_introl eq_refl)) (in_map reparse _ _ Hx)) as Q. lia. }
      { apply Forall_forall. intros e _. constructor. }
      { exact K1. }
      exists (VDict d'). eexists. exists (obj_put (dec id) (VDict d') ds2). split; [|split; [exact K3|split; [|split]]].
      + eapply des_known with (cm := dict_meta None false); [exact Hr|exact G1|discriminate|vm_compute; reflexivity|].
        match goal with |- des_struct _ _ _ ?X _ _ = _ => change (des_struct xml_text classes (desf fuel') X (dict_meta None false) ds1) with (do '(v, s) <- des_dct (desf fuel') X ds1; Ok (v, dict_meta None false, s)) end.
        unfold des_dct. rewrite (dct_found _ _ _ _ _ _ C Tg). rewrite E3. cbn [bind app]. reflexivity.
      + intros _. exact (next_plain _ _ Hr).
      + change (d_heap (obj_put (dec id) (VDict d') ds2)) with (d_heap ds2). rewrite <- H1. exact G3.
      + change (d_heap (obj_put (dec id) (VDict d') ds2)) with (d_heap ds2). rewrite <- H1. destruct C3 as (C3 & C4). apply co_dict; [exact M3|exact C4].
  Qed.
  Lemma dictmeta_settles ts name opt d : coded canon ts -> Forall (fun e => lone (fst e)) d -> distinct_keys d ->
    (forall e, In e d -> settles value_meta (snd e)) -> settles (Meta (KDict key_meta value_meta ts) (lit "DCT") name opt None) (VDict d).
  Proof.
    intros Ct Fk Dk H. set (m := Meta (KDict key_meta value_meta ts) (lit "DCT") name opt None).
    assert (K : exists f0, forall f, (f0 <= f)%nat -> Forall (fun e => goes f value_meta (snd e)) d).
    { apply (bound_all (fun f e => goes f value_meta (snd e))). apply Forall_forall. exact H. }
    destruct K as (f0 & K). exists (S (S f0)). intros [|[|fuel]] L; [inversion L|inversion L as [|? Q]; inversion Q|]. apply le_S_n in L. intros st S.
    rewrite ser_S. cbn [is_vxml]. change (tagged heap (VDict d) m) with (lit "DCT", VDict d). cbv beta iota zeta.
    change (ser_with ci show classes heap (serf (Datatypes.S fuel)) (lit "DCT") (VDict d) m st) with
      (do '(x, m2, st1) <- ser_dct (serf (Datatypes.S fuel)) (set_tag (lit "DCT") m) (VDict d) st; Ok (Some (named m x), m2, st1)).
    unfold ser_dct. change (m_kind (set_tag (lit "DCT") m)) with (KDict key_meta value_meta ts). cbv iota. destruct (take_id st) as [id st0] eqn:T. cbn [bind].
    assert (S0 : sane st0) by (pose proof (take_sane st S) as Q; rewrite T in Q; exact Q).
    assert (Kn : forall ds, knows st ds -> knows st0 ds) by (intros ds Q; apply (proj2 (knows_take st ds)) in Q; rewrite T in Q; exact Q).
    destruct (tn_written ts st0 Ct S0) as (tn & st1 & E1 & S1 & Tg & Dp & Rd). rewrite E1. cbn [bind].
    assert (G : forall e, In e d -> goes (Datatypes.S fuel) value_meta (snd e)).
    { intros e He. specialize (K (Datatypes.S fuel) (Nat.le_trans _ _ _ (Nat.le_succ_diag_r f0) L)). rewrite Forall_forall in K. exact (K e He). }
    destruct (pairs_go fuel d Fk G st1 S1) as (ens & st2 & E2 & S2 & C). rewrite E2. cbn [bind].
    do 3 eexists. split; [reflexivity|]. split; [reflexivity|]. split; [exact S2|]. split; [apply oattr_name|]. split.
    - right. split; [discriminate|]. right. rewrite named_tag. left. reflexivity.
    - intros mr ds fuel' Hr Hk Hd. change (reads m mr) with (mr = m) in Hr. subst mr. rewrite reparse_obj in *.
      destruct fuel' as [|fuel']; [exfalso; inversion Hd|].
      destruct (Rd (oattr m id) None (map reparse [Elem (lit "DCT") [] None ens]) ds (untyped_one (lit "DCT") ens ltac:(discriminate) ltac:(discriminate)) (Kn _ Hk)) as (ds1 & G1 & K1 & H1).
      change (reparse tn :: map reparse [Elem (lit "DCT") [] None ens]) with (map reparse [tn; Elem (lit "DCT") [] None ens]) in G1.
      destruct (dchain_read fuel' st1 d ens st2 C Dk) with (acc := @nil (value * value)) (ds := ds1) as (d' & ds2 & E3 & K3 & G3 & M3 & C3).
      { intros x Hx. pose proof (child_depth (lit "Obj") (oattr m id) None (map reparse [tn; Elem (lit "DCT") [] None ens]) (reparse (Elem (lit "DCT") [] None ens)) (reparse x)
          (or_intror (or_introl eq_refl)) (in_map reparse _ _ Hx)) as Q. lia. }
      { apply Forall_forall. intros e _. constructor. }
      { exact K1. }
      exists (VDict d'). eexists. exists (obj_put (dec id) (VDict d') ds2). split; [|split; [exact K3|split; [|split]]].
      + eapply des_given; [reflexivity|exact G1|].
        match goal with |- des_struct _ _ _ ?X _ _ = _ => change (des_struct xml_text classes (desf fuel') X (next_meta X m) ds1) with (do '(v, s) <- des_dct (desf fuel') X ds1; Ok (v, m, s)) end.
        unfold des_dct. rewrite (dct_found _ _ _ _ _ _ C Tg). rewrite E3. cbn [bind app]. reflexivity.
      + intros (Q & _). discriminate Q.
      + change (d_heap (obj_put (dec id) (VDict d') ds2)) with (d_heap ds2). rewrite <- H1. exact G3.
      + change (d_heap (obj_put (dec id) (VDict d') ds2)) with (d_heap ds2). rewrite <- H1. destruct C3 as (C3 & C4). apply co_dict; [exact M3|exact C4].
  Qed.
End Cls.
