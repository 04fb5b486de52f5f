(* C70: what the serializer writes is of the form of its metadata. *)
From Verif Require Import Base BaseProofs Lit NumModel TextModel MsgModel XmlModel SerModel SerProofs FormSpec FormProofs.
Local Open Scope list_scope.

(* ---- metadata of a form ---- *)
Fixpoint matches (f : form) (m : meta) : Prop :=
  match f with
  | FText tag => m_kind m = KPlain /\ m_tag m = lit tag
  | FClass c => m_kind m = KPlain /\ (m_tag m = lit "Obj" \/ m_tag m = star)
  | FAny => m_kind m = KPlain /\ m_optional m = false
  | FList ts f => m_tag m = lit "LST" /\ ts <> [] /\ exists e, m_kind m = KList e (map lit ts) /\ m_kind e = KPlain /\ m_name e = None /\ m_optional e = false /\ matches f e
  | FDict ts k f => m_tag m = lit "DCT" /\ ts <> [] /\ exists km vm, m_kind m = KDict km vm (map lit ts) /\
      m_kind km = KPlain /\ m_name km = Some (lit "Key") /\ m_optional km = false /\ matches k km /\
      m_kind vm = KPlain /\ m_name vm = Some (lit "Value") /\ m_optional vm = false /\ matches f vm
  end.
Definition row_matches (r : row) (e : list N * meta) : Prop :=
  match r with Row a f name o => fst e = lit a /\ m_name (snd e) = Some (lit name) /\ m_optional (snd e) = o /\ matches f (snd e) end.
Definition described_as (l : layout) (d : cdesc) : Prop :=
  match l with
  | LObject ts ad ex => cd_types d = map lit ts /\ cd_sets d = [] /\ Forall2 row_matches ad (cd_adapted d) /\ Forall2 row_matches ex (cd_extended d)
  | LEnum ty names =>
      cd_types d = map lit [ty; "System.Enum"; "System.ValueType"; "System.Object"]%string /\ cd_sets d = [(lit "value", Meta KPlain (lit "I32") None false None)] /\
      cd_adapted d = [] /\ cd_extended d = [] /\
      forall attrs z v, dict_get str_eqb (lit "value") attrs = Some (VInt z) -> cd_text d attrs = Ok v -> exists s, v = VStr s /\ called names z (serialize_string s)
  end.

Lemma named_plain m tag t c : named m (Elem tag [] t c) = Elem tag (naming (m_name m)) t c.
Proof. unfold named. destruct (m_name m); reflexivity. Qed.
Lemma named_obj m id c : named m (obj_elem id c) = Elem (lit "Obj") ((lit "RefId", dec id) :: naming (m_name m)) None c.
Proof. unfold named. destruct (m_name m); reflexivity. Qed.
Lemma attr_set k v x : attr_get k (set_attr k v x) = Some v.
Proof. destruct x as [t a s c]. unfold attr_get, set_attr. cbn [x_attrib]. apply (dict_get_set_same str_eqb str_eqb_spec). Qed.
Lemma named_attr m x : attr_get (lit "N") (named m x) = m_name m \/ m_name m = None.
Proof. unfold named. destruct (m_name m) as [n|]; [left; apply attr_set|right; reflexivity]. Qed.
Lemma typed_full ts st xs st1 : create_tn_if (map lit ts) st = Ok (xs, st1) -> typed ts xs.
Proof.
  unfold create_tn_if. destruct ts as [|t ts]; cbn [map]; intros H; [apply Ok_pair_inj in H; destruct H as (<- & _); constructor|].
  apply bind_ok in H. destruct H as ((x & st2) & H1 & H). apply Ok_pair_inj in H. destruct H as (<- & _). unfold create_tn in H1.
  destruct (dict_get str_eqb (lit t) (s_tn st)); apply Ok_pair_inj in H1; destruct H1 as (<- & _); [apply ty_same; discriminate|].
  change (lit t :: map lit ts) with (map lit (t :: ts)). rewrite map_map. apply (ty_full (t :: ts)). discriminate.
Qed.
Lemma typed_one ts st x st1 : ts <> [] -> create_tn (map lit ts) st = Ok (x, st1) -> typed ts [x].
Proof.
  intros Ht H. destruct ts as [|t ts]; [contradiction|]. apply (typed_full (t :: ts) st [x] st1). unfold create_tn_if. cbn [map] in *. rewrite H. reflexivity.
Qed.

Section Write.
  Context (ci : option cipher) (show : value -> list N) (classes : list N -> option cdesc) (heap : list hobj).
  Context (Table : Forall (fun e => exists d, classes (lit (fst e)) = Some d /\ described_as (snd e) d) forms).
  Context (Good : in_form ci heap).
  Notation generics := (generics heap).

  (* what is told of metadata m *)
  Definition outcome (f : form) (v : value) (m : meta) (ox : option xml) : Prop :=
    (ox = None /\ v = VNone /\ m_optional m = true) \/ (exists x, ox = Some x /\ tells ci heap f v (m_name m) x).

  Lemma text_written tag v t m : shows ci tag v t -> existsb (str_eqb (lit tag)) known_tags = true /\ pack_text ci show m (lit tag) v = Some (Ok t) /\ v <> VNone /\ (forall x, v <> VXml x).
  Proof.
    intros H. destruct H as [s|tag z H| | |s|c|b|s t H]; try (split; [reflexivity|]; split; [reflexivity|]; split; [discriminate|intros x; discriminate]).
    - cbn [In] in H. destruct H as [<-|[<-|[<-|[]]]]; (split; [reflexivity|]; split; [reflexivity|]; split; [discriminate|intros x; discriminate]).
    - split; [reflexivity|]. split; [|split; [discriminate|intros x; discriminate]].
      transitivity (Some (serialize_secure_string ci s)); [reflexivity|]. rewrite H. reflexivity.
  Qed.

  Section Step.
    Context (rec : value -> meta -> sst -> res (option xml * meta * sst)).
    Context (Hg : forall v m st ox m' st', rec v m st = Ok (ox, m', st') -> generics st -> generics st').
    Context (Hk : forall v m st ox m' st', rec v m st = Ok (ox, m', st') -> m_kind m = KPlain -> m_kind m' = KPlain).
    Context (Hf : forall f v m st ox m' st', rec v m st = Ok (ox, m', st') -> generics st -> matches f m -> suits ci heap f v -> outcome f v m ox).

    Lemma rows_told attrs rows props : Forall2 row_matches rows props -> Forall (suited ci heap attrs) rows -> forall st xs st1, ser_attrs rec attrs props st = Ok (xs, st1) -> generics st ->
      tell_rows ci heap attrs rows xs.
    Proof.
      induction 1 as [|[a f name o] (a', m) rows props M _ IH]; intros S st xs st1 H G; cbn [ser_attrs] in H; [apply Ok_pair_inj in H; destruct H as (<- & _); constructor|].
      destruct M as (Ma & Mn & Mo & Mf). cbn [fst snd] in *. subst a'. destruct (dict_get str_eqb (lit a) attrs) as [v|] eqn:Ea; [|discriminate H].
      apply bind_ok in H. destruct H as ((ys & st2) & H1 & H). apply bind_ok in H. destruct H as ((zs & st3) & H2 & H). apply Ok_pair_inj in H. destruct H as (<- & _).
      pose proof (create_generics heap rec Hg _ _ _ _ _ _ H1 G) as G2. specialize (IH (Forall_inv_tail S) _ _ _ H2 G2).
      pose proof (Forall_inv S _ Ea) as Sv. cbv beta in Sv. unfold create_obj in H1.
      destruct (match v with VObj n => find_ref n (s_objs st) | _ => None end) as [id|] eqn:F.
      - apply Ok_pair_inj in H1. destruct H1 as (<- & _). destruct v; try discriminate F. apply find_ref_in in F.
        unfold FormProofs.generics in G. rewrite Forall_forall in G. destruct (G _ F) as (g & Hn). cbn [snd] in Hn.
        inversion Sv as [|? ? ? Sh| ? ? at' _ Hc| | |]; subst; [inversion Sh|congruence|destruct H as [H|H]; discriminate H|]. cbn [app]. eapply tr_again; eassumption.
      - apply bind_ok in H1. destruct H1 as (((x & m1) & st4) & H1 & E). apply Ok_pair_inj in E. destruct E as (<- & _).
        destruct (Hf f v m st x m1 st4 H1 G Mf Sv) as [(-> & -> & O)|(y & -> & T)]; cbn [opt_list app].
        + rewrite <- Mo, O. eapply tr_out; eassumption.
        + rewrite Mn in T. eapply tr_in; eassumption.
    Qed.
    Lemma group_told tag attrs rows props st xs st1 : Forall2 row_matches rows props -> Forall (suited ci heap attrs) rows -> ser_group rec (lit tag) attrs props st = Ok (xs, st1) -> generics st ->
      exists es, xs = group tag rows es /\ tell_rows ci heap attrs rows es.
    Proof.
      intros M S H G. unfold ser_group in H. destruct M as [|r e rows props M1 M].
      - apply Ok_pair_inj in H. destruct H as (<- & _). exists []. split; [reflexivity|constructor].
      - apply bind_ok in H. destruct H as ((ys & st2) & H1 & H). apply Ok_pair_inj in H. destruct H as (<- & _). exists ys. split; [reflexivity|].
        exact (rows_told attrs (r :: rows) (e :: props) (Forall2_cons _ _ M1 M) S _ _ _ H1 G).
    Qed.
    Lemma object_told c n attrs m st x st1 : In c (map fst forms) -> nth_error heap n = Some (HCls (lit c) attrs) -> ser_obj classes heap rec (VObj n) st = Ok (x, st1) -> generics st ->
      tells ci heap (FClass c) (VObj n) (m_name m) (named m x).
    Proof.
      intros Hc Hn H G. apply in_map_iff in Hc. destruct Hc as ((c', l) & E & Hl). cbn [fst] in E. subst c'.
      pose proof Table as T. rewrite Forall_forall in T. destruct (T _ Hl) as (d & Hd & D). cbn [fst snd] in *. destruct (Good n c attrs Hn) as (Go & Ge).
      unfold ser_obj in H. destruct (take_id st) as (id & st0) eqn:Et. pose proof (take_generics heap _ _ _ Et G) as G0. rewrite Hn, Hd in H.
      apply bind_ok in H. destruct H as ((tn & st2) & H1 & H). apply bind_ok in H. destruct H as (t & Ht & H). apply bind_ok in H. destruct H as (ts & Hts & H).
      apply bind_ok in H. destruct H as ((sets & st3) & H2 & H). apply bind_ok in H. destruct H as ((ms & st4) & H3 & H). apply bind_ok in H. destruct H as ((ps & st5) & H4 & H).
      apply Ok_pair_inj in H. destruct H as (<- & _). pose proof (tn_if_generics heap _ _ _ _ H1 G0) as G2. pose proof (attrs_generics heap rec Hg _ _ _ _ _ H2 G2) as G3.
      pose proof (group_generics heap rec Hg _ _ _ _ _ _ H3 G3) as G4. rewrite named_obj.
      destruct l as [ty names|types ad ex].
      - destruct D as (Dt & Ds & Da & De & Dx). rewrite Dt in H1. rewrite Ds in H2. rewrite De in H3. rewrite Da in H4.
        apply Ok_pair_inj in H3. destruct H3 as (<- & _). apply Ok_pair_inj in H4. destruct H4 as (<- & _).
        cbn [ser_attrs] in H2. destruct (dict_get str_eqb (lit "value") attrs) as [v|] eqn:Ev; [|discriminate H2]. destruct (Ge ty names Hl v eq_refl) as (z & ->).
        destruct (Dx attrs z t Ev Ht) as (s & -> & Cl). cbn [to_string_elem unicode_of bind] in Hts. apply Ok_inj in Hts. subst ts.
        apply bind_ok in H2. destruct H2 as ((ys & st6) & H2 & H). apply bind_ok in H. destruct H as ((zs & st7) & E & H). apply Ok_pair_inj in E. destruct E as (<- & _). apply Ok_pair_inj in H. destruct H as (<- & _).
        unfold create_obj in H2. apply bind_ok in H2. destruct H2 as (((x & m1) & st8) & H2 & E). apply Ok_pair_inj in E. destruct E as (<- & _).
        assert (Sz : shows ci "I32" (VInt z) (py_str z)) by (constructor; left; reflexivity).
        destruct (Hf (FText "I32") (VInt z) _ _ _ _ _ H2 G2 (conj eq_refl eq_refl) (su_text ci heap "I32"%string (VInt z) _ Sz)) as [(_ & E & _)|(y & -> & Ty)]; [discriminate E|].
        inversion Ty as [|? ? t0 ? Sh0| | | | |]; subst. inversion Sh0; subst. cbn [opt_list app m_name naming] in *. eapply te_enum; eauto. exact (typed_full _ _ _ _ H1).
      - destruct D as (Dt & Ds & Da & De). rewrite Dt in H1. rewrite Ds in H2. apply Ok_pair_inj in H2. destruct H2 as (<- & <-). destruct (Go types ad ex Hl) as (Sa & Se).
        destruct (group_told "MS" attrs ex _ _ _ _ De Se H3 G2) as (es & -> & Te). destruct (group_told "Props" attrs ad _ _ _ _ Da Sa H4 G4) as (qs & -> & Tq). cbn [app].
        eapply te_object; try eassumption; [exact (typed_full _ _ _ _ H1)|]. unfold texts. destruct t; cbn [to_string_elem] in Hts;
          try (apply bind_ok in Hts; destruct Hts as (s1 & _ & Hts); apply Ok_inj in Hts; right; eexists; symmetry; exact Hts). apply Ok_inj in Hts. left. symmetry. exact Hts.
    Qed.
    Lemma matches_kind f m m' : m_kind m = KPlain -> m_kind m' = KPlain -> matches f m -> matches f (set_kind (m_kind m') m).
    Proof. intros E E' M. rewrite E', <- E. destruct m; exact M. Qed.
    Lemma entries_told f vs : suit_all ci heap f vs -> forall m st xs m' st1, ser_entries rec true m vs st = Ok (xs, m', st1) -> generics st ->
      m_kind m = KPlain -> m_name m = None -> m_optional m = false -> matches f m -> tell_all ci heap f vs xs.
    Proof.
      induction 1 as [f|f v vs Sv S IH]; intros m st xs m' st1 H G K1 K2 K3 M; cbn [ser_entries] in H; [apply Ok_pair_inj in H; destruct H as (H & _); apply pair_inj in H; destruct H as (<- & _); constructor|].
      apply bind_ok in H. destruct H as (((x & m1) & st2) & H1 & H). apply bind_ok in H. destruct H as (((zs & m2) & st3) & H2 & H). apply Ok_pair_inj in H. destruct H as (H & _). apply pair_inj in H. destruct H as (<- & _).
      destruct (Hf f v m _ _ _ _ H1 G M Sv) as [(_ & _ & O)|(y & -> & T)]; [congruence|]. rewrite K2 in T. cbn [opt_list app]. constructor; [exact T|].
      pose proof (Hk _ _ _ _ _ _ H1 K1) as K1'. destruct m as [k tg nm op ob]. cbn [m_kind m_name m_optional set_kind] in *.
      eapply IH; [exact H2|exact (Hg _ _ _ _ _ _ H1 G)|exact K1'|exact K2|exact K3|]. exact (matches_kind f (Meta k tg nm op ob) m1 K1 K1' M).
    Qed.
    Lemma pairs_told k f l : suit_pairs ci heap k f l -> forall km vm st xs km' vm' st1, ser_pairs rec km vm l st = Ok (xs, km', vm', st1) -> generics st ->
      m_kind km = KPlain -> m_name km = Some (lit "Key") -> m_optional km = false -> matches k km ->
      m_kind vm = KPlain -> m_name vm = Some (lit "Value") -> m_optional vm = false -> matches f vm -> tell_pairs ci heap k f l xs.
    Proof.
      induction 1 as [k f|k f a v l Sa Sv S IH]; intros km vm st xs km' vm' st1 H G K1 K2 K3 K4 V1 V2 V3 V4; cbn [ser_pairs] in H.
      { apply Ok_pair_inj in H. destruct H as (H & _). apply pair_inj in H. destruct H as (H & _). apply pair_inj in H. destruct H as (<- & _). constructor. }
      apply bind_ok in H. destruct H as (((x & m1) & st2) & H1 & H). apply bind_ok in H. destruct H as (((y & m2) & st3) & H2 & H). apply bind_ok in H. destruct H as ((((us & m3) & m4) & st4) & H3 & H).
      apply Ok_pair_inj in H. destruct H as (H & _). apply pair_inj in H. destruct H as (H & _). apply pair_inj in H. destruct H as (<- & _).
      pose proof (Hg _ _ _ _ _ _ H1 G) as G2. pose proof (Hg _ _ _ _ _ _ H2 G2) as G3. pose proof (Hk _ _ _ _ _ _ H1 K1) as K1'. pose proof (Hk _ _ _ _ _ _ H2 V1) as V1'.
      destruct (Hf k a km _ _ _ _ H1 G K4 Sa) as [(_ & _ & O)|(x0 & -> & Tx)]; [congruence|]. destruct (Hf f v vm _ _ _ _ H2 G2 V4 Sv) as [(_ & _ & O)|(y0 & -> & Ty)]; [congruence|].
      rewrite K2 in Tx. rewrite V2 in Ty. cbn [opt_list app]. constructor; [exact Tx|exact Ty|].
      destruct km as [kk kt kn ko kb], vm as [vk vt vn vo vb]. cbn [m_kind m_name m_optional set_kind] in *.
      eapply IH; [exact H3|exact G3|exact K1'|exact K2|exact K3| |exact V1'|exact V2|exact V3|].
      - exact (matches_kind k (Meta kk kt kn ko kb) m1 K1 K1' K4).
      - exact (matches_kind f (Meta vk vt vn vo vb) m2 V1 V1' V4).
    Qed.
  End Step.

  Lemma plain_kept fuel : forall v m st ox m' st', ser ci show classes heap fuel v m st = Ok (ox, m', st') -> m_kind m = KPlain -> m_kind m' = KPlain.
  Proof.
    destruct fuel as [|fuel]; intros v m st ox m' st' H K; [discriminate H|]. cbn [ser] in H.
    assert (Kt : forall t, m_kind (set_tag t m) = KPlain) by (intros t; destruct m; exact K).
    assert (KK : forall t v1, (if negb (existsb (str_eqb t) known_tags) then Err KeyError
      else match v1 with
        | VNone => if m_optional m then Ok (None, set_tag t m, st) else Ok (Some (named m (Elem (lit "Nil") [] None [])), set_tag t m, st)
        | _ => match pack_text ci show (set_tag t m) t v1 with
               | Some r => do s <- r; Ok (Some (named m (Elem t [] (Some s) [])), set_tag t m, st)
               | None => do '(x, m2, st1) <- pack_struct classes heap (ser ci show classes heap fuel) t (set_tag t m) v1 st; Ok (Some (named m x), m2, st1)
               end
        end) = Ok (ox, m', st') -> m_kind m' = KPlain).
    { intros t v1 E. specialize (Kt t). revert E Kt. generalize (set_tag t m). intros mt E Kt. destruct (negb (existsb (str_eqb t) known_tags)); [discriminate E|].
      assert (K' : match pack_text ci show mt t v1 with
               | Some r => do s <- r; Ok (Some (named m (Elem t [] (Some s) [])), mt, st)
               | None => do '(x, m2, st1) <- pack_struct classes heap (ser ci show classes heap fuel) t mt v1 st; Ok (Some (named m x), m2, st1)
               end = Ok (ox, m', st') -> m_kind m' = KPlain).
      { clear E. intros E. destruct (pack_text ci show mt t v1) as [r|].
        - apply bind_ok in E. destruct E as (s & _ & E). apply Ok_pair_inj in E. destruct E as (E & _). apply pair_inj in E. destruct E as (_ & <-). exact Kt.
        - apply bind_ok in E. destruct E as (((x & m2) & st1) & H1 & E). apply Ok_pair_inj in E. destruct E as (E & _). apply pair_inj in E. destruct E as (_ & <-). clear -H1 Kt.
          unfold pack_struct in H1. repeat match type of H1 with (if ?b then _ else _) = _ => destruct b end; try discriminate H1.
          + apply bind_ok in H1. destruct H1 as ((y & st2) & _ & E). apply Ok_pair_inj in E. destruct E as (E & _). apply pair_inj in E. destruct E as (_ & <-). exact Kt.
          + apply bind_ok in H1. destruct H1 as ((y & st2) & _ & E). apply Ok_pair_inj in E. destruct E as (E & _). apply pair_inj in E. destruct E as (_ & <-). exact Kt.
          + unfold ser_lst, list_info in H1. rewrite Kt in H1. apply bind_ok in H1. destruct H1 as (vs & _ & H1). apply bind_ok in H1. destruct H1 as (((y & e) & st2) & _ & E). apply Ok_pair_inj in E. destruct E as (E & _). apply pair_inj in E. destruct E as (_ & <-). exact Kt.
          + unfold ser_lst, list_info in H1. rewrite Kt in H1. apply bind_ok in H1. destruct H1 as (vs & _ & H1). apply bind_ok in H1. destruct H1 as (((y & e) & st2) & _ & E). apply Ok_pair_inj in E. destruct E as (E & _). apply pair_inj in E. destruct E as (_ & <-). exact Kt.
          + unfold ser_que in H1. destruct v1; try discriminate H1. rewrite Kt in H1. apply bind_ok in H1. destruct H1 as (((y & e) & st2) & _ & E). apply Ok_pair_inj in E. destruct E as (E & _). apply pair_inj in E. destruct E as (_ & <-). exact Kt.
          + unfold ser_stk, list_info in H1. rewrite Kt in H1. discriminate H1.
          + unfold ser_dct in H1. rewrite Kt in H1. destruct (take_id st) as (id & st0). apply bind_ok in H1. destruct H1 as (d & _ & H1). apply bind_ok in H1. destruct H1 as ((tn & st2) & _ & H1).
            apply bind_ok in H1. destruct H1 as ((((xs & km') & vm') & st3) & _ & E). apply Ok_pair_inj in E. destruct E as (E & _). apply pair_inj in E. destruct E as (_ & <-). exact Kt. }
      destruct v1; try exact (K' E). destruct (m_optional m); apply Ok_pair_inj in E; destruct E as (E & _); apply pair_inj in E; destruct E as (_ & <-); exact Kt. }
    destruct v; try (match type of H with (let '(_, _) := ?p in _) = _ => destruct p as (t, v1) end; exact (KK t v1 H)).
    apply Ok_pair_inj in H. destruct H as (E & _). apply pair_inj in E. destruct E as (_ & <-). exact K.
  Qed.

  Lemma nothing_told fuel m st ox m' st' f : ser ci show classes heap fuel VNone m st = Ok (ox, m', st') -> outcome f VNone m ox.
  Proof.
    destruct fuel as [|fuel]; intros H; [discriminate H|]. cbn [ser] in H.
    assert (K : forall t, (if negb (existsb (str_eqb t) known_tags) then Err KeyError
      else if m_optional m then Ok (None, set_tag t m, st) else Ok (Some (named m (Elem (lit "Nil") [] None [])), set_tag t m, st)) = Ok (ox, m', st') -> outcome f VNone m ox).
    { intros t E. destruct (negb (existsb (str_eqb t) known_tags)); [discriminate E|]. destruct (m_optional m) eqn:O; apply Ok_pair_inj in E; destruct E as (E & _); apply pair_inj in E; destruct E as (<- & _).
      - left. auto.
      - right. eexists. split; [reflexivity|]. rewrite named_plain. constructor. }
    destruct (str_eqb (m_tag m) star); [exact (K (tag_of_value heap VNone) H)|exact (K (m_tag m) H)].
  Qed.

  (* what is written under metadata with a name has that name *)
  Lemma any_told fuel v m st ox m' st' : ser ci show classes heap fuel v m st = Ok (ox, m', st') -> m_optional m = false -> outcome FAny v m ox.
  Proof.
    intros H O. assert (V : v = VNone \/ v <> VNone) by (destruct v; try (right; discriminate); left; reflexivity). destruct V as [->|V]; [exact (nothing_told _ _ _ _ _ _ FAny H)|].
    destruct fuel as [|fuel]; [discriminate H|].
    assert (N1 : exists x, ox = Some (named m x)).
    { cbn [ser] in H. assert (K : forall t v1, (if negb (existsb (str_eqb t) known_tags) then Err KeyError
      else match v1 with
        | VNone => if m_optional m then Ok (None, set_tag t m, st) else Ok (Some (named m (Elem (lit "Nil") [] None [])), set_tag t m, st)
        | _ => match pack_text ci show (set_tag t m) t v1 with
               | Some r => do s <- r; Ok (Some (named m (Elem t [] (Some s) [])), set_tag t m, st)
               | None => do '(x, m2, st1) <- pack_struct classes heap (ser ci show classes heap fuel) t (set_tag t m) v1 st; Ok (Some (named m x), m2, st1)
               end
        end) = Ok (ox, m', st') -> exists x, ox = Some (named m x)).
      { intros t v1 E. destruct (negb (existsb (str_eqb t) known_tags)); [discriminate E|].
        assert (K' : match pack_text ci show (set_tag t m) t v1 with
               | Some r => do s <- r; Ok (Some (named m (Elem t [] (Some s) [])), set_tag t m, st)
               | None => do '(x, m2, st1) <- pack_struct classes heap (ser ci show classes heap fuel) t (set_tag t m) v1 st; Ok (Some (named m x), m2, st1)
               end = Ok (ox, m', st') -> exists x, ox = Some (named m x)).
        { clear E. intros E. destruct (pack_text ci show (set_tag t m) t v1) as [r|].
          - apply bind_ok in E. destruct E as (s & _ & E). apply Ok_pair_inj in E. destruct E as (E & _). apply pair_inj in E. destruct E as (<- & _). eauto.
          - apply bind_ok in E. destruct E as (((x & m2) & st1) & _ & E). apply Ok_pair_inj in E. destruct E as (E & _). apply pair_inj in E. destruct E as (<- & _). eauto. }
        destruct v1; try exact (K' E). rewrite O in E. apply Ok_pair_inj in E; destruct E as (E & _); apply pair_inj in E; destruct E as (<- & _); eauto. }
      destruct v; try (match type of H with (let '(_, _) := ?p in _) = _ => destruct p as (t, v1) end; exact (K t v1 H)).
      apply Ok_pair_inj in H. destruct H as (E & _). apply pair_inj in E. destruct E as (<- & _). eauto. }
    destruct N1 as (x & ->). right. eexists. split; [reflexivity|]. constructor. apply named_attr.
  Qed.

  (* ---- every value of a form is told in it ---- *)
  Lemma ser_told fuel : forall f v m st ox m' st', ser ci show classes heap fuel v m st = Ok (ox, m', st') -> generics st -> matches f m -> suits ci heap f v -> outcome f v m ox.
  Proof.
    induction fuel as [|fuel IH]; intros f v m st ox m' st' H G M S; [discriminate H|].
    pose proof (ser_generics ci show classes heap fuel) as Hg. pose proof (plain_kept fuel) as Hk.
    assert (V : v = VNone \/ v <> VNone) by (destruct v; try (right; discriminate); left; reflexivity). destruct V as [->|V]; [exact (nothing_told _ _ _ _ _ _ f H)|].
    destruct S as [f|tag v t Sh|c n attrs Hc Hn|ts f vs Sa|ts k f v l El Sp|v].
    - contradiction.
    - destruct M as (_ & Mt). destruct (text_written tag v t (set_tag (lit tag) m) Sh) as (Kt & Pt & _ & Vx). cbn [ser] in H.
      assert (Ns : str_eqb (lit tag) star = false) by (destruct Sh as [s|tag z Hi| | |s|c|b|s t Hs]; try reflexivity; cbn [In] in Hi; destruct Hi as [<-|[<-|[<-|[]]]]; reflexivity).
      rewrite Mt, Ns in H. rewrite Kt in H. cbn [negb] in H. rewrite Pt in H. right.
      destruct v; try contradiction; try (exfalso; exact (Vx _ eq_refl)); cbn [bind] in H; apply Ok_pair_inj in H; destruct H as (H & _); apply pair_inj in H; destruct H as (<- & _);
        (eexists; split; [reflexivity|]; rewrite named_plain; constructor; exact Sh).
    - destruct M as (_ & Mt). cbn [ser] in H.
      assert (E : (do '(x, m2, st1) <- pack_struct classes heap (ser ci show classes heap fuel) (lit "Obj") (set_tag (lit "Obj") m) (VObj n) st; Ok (Some (named m x), m2, st1)) = Ok (ox, m', st')).
      { destruct Mt as [Mt|Mt]; rewrite Mt in H.
        - exact H.
        - cbn [tag_of_value] in H. rewrite Hn in H. exact H. }
      clear H. apply bind_ok in E. destruct E as (((x & m2) & st1) & H & E). apply Ok_pair_inj in E. destruct E as (E & _). apply pair_inj in E. destruct E as (<- & _).
      unfold pack_struct in H. rewrite str_eqb_refl in H. apply bind_ok in H. destruct H as ((y & st2) & H & E). apply Ok_pair_inj in E. destruct E as (E & _). apply pair_inj in E. destruct E as (<- & _).
      right. eexists. split; [reflexivity|]. exact (object_told _ Hg IH c n attrs m st _ _ Hc Hn H G).
    - destruct M as (Mt & Ht & e & Mk & E1 & E2 & E3 & Me). cbn [ser] in H. rewrite Mt in H.
      assert (E : (do '(x, m2, st1) <- ser_lst (ser ci show classes heap fuel) (lit "LST") (set_tag (lit "LST") m) (VList vs) st; Ok (Some (named m x), m2, st1)) = Ok (ox, m', st')) by exact H.
      clear H. apply bind_ok in E. destruct E as (((x & m2) & st1) & H & E). apply Ok_pair_inj in E. destruct E as (E & _). apply pair_inj in E. destruct E as (<- & _).
      unfold ser_lst in H. cbn [iterate bind] in H. unfold list_info in H. replace (m_kind (set_tag (lit "LST") m)) with (m_kind m) in H by (destruct m; reflexivity). rewrite Mk in H.
      apply bind_ok in H. destruct H as (((y & e') & st2) & H & E). apply Ok_pair_inj in E. destruct E as (E & _). apply pair_inj in E. destruct E as (<- & _).
      unfold ser_list in H. destruct (take_id st) as (id & st0) eqn:Et. pose proof (take_generics heap _ _ _ Et G) as G0. cbn [fst snd] in H.
      apply bind_ok in H. destruct H as ((tn & st3) & H1 & H). apply bind_ok in H. destruct H as (((xs & e2) & st4) & H2 & H). apply Ok_pair_inj in H. destruct H as (E & _). apply pair_inj in E. destruct E as (<- & _).
      right. eexists. split; [reflexivity|]. rewrite named_obj. apply (te_list ci heap ts f vs xs (m_name m) id [tn] (typed_one ts _ _ _ Ht H1)).
      exact (entries_told _ Hg Hk IH f vs Sa e _ _ _ _ H2 (tn_generics heap _ _ _ _ H1 G0) E1 E2 E3 Me).
    - destruct M as (Mt & Ht & km & vm & Mk & K1 & K2 & K3 & Kk & V1 & V2 & V3 & Vv).
      assert (E : (do '(x, m2, st1) <- ser_dct (ser ci show classes heap fuel) (set_tag (lit "DCT") m) v st; Ok (Some (named m x), m2, st1)) = Ok (ox, m', st')).
      { cbn [ser] in H. rewrite Mt in H. destruct El as [-> | ->]; exact H. }
      clear H. apply bind_ok in E. destruct E as (((x & m2) & st1) & H & E). apply Ok_pair_inj in E. destruct E as (E & _). apply pair_inj in E. destruct E as (<- & _).
      unfold ser_dct in H. replace (m_kind (set_tag (lit "DCT") m)) with (m_kind m) in H by (destruct m; reflexivity). rewrite Mk in H.
      destruct (take_id st) as (id & st0) eqn:Et. pose proof (take_generics heap _ _ _ Et G) as G0. replace (match v with VDict d | VTuple d => Ok d | _ => Err AttributeError end) with (Ok l) in H by (destruct El as [-> | ->]; reflexivity).
      cbn [bind] in H. apply bind_ok in H. destruct H as ((tn & st3) & H1 & H). apply bind_ok in H. destruct H as ((((xs & km') & vm') & st4) & H2 & H). apply Ok_pair_inj in H. destruct H as (E & _). apply pair_inj in E. destruct E as (<- & _).
      right. eexists. split; [reflexivity|]. rewrite named_obj. apply (te_dict ci heap ts k f v l xs (m_name m) id [tn] El (typed_one ts _ _ _ Ht H1)).
      exact (pairs_told _ Hg Hk IH k f l Sp km vm _ _ _ _ _ H2 (tn_generics heap _ _ _ _ H1 G0) K1 K2 K3 Kk V1 V2 V3 Vv).
    - exact (any_told _ _ _ _ _ _ _ H (proj2 M)).
  Qed.
End Write.
