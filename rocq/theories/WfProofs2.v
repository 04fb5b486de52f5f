(* What the serializer writes is well-formed: the serializer. *)
From Verif Require Import Base BaseProofs Lit NumModel NumProofs TextModel TextSpec TextProofs Utf8Model MsgModel MsgSpec XmlModel SerModel SerProofs XtModel XtSpec XtProofs XtProofs3 ClsSpec WfSpec WfProofs.
Local Open Scope list_scope.

Section Writer.
  Context (ci : option cipher) (show : value -> list N) (classes : list N -> option cdesc) (heap : list hobj) (R : nat -> Prop).
  Context (Hh : clean_heap show classes heap R).
  Notation strict := (strict show R).
  Notation loose := (loose show R).

  (* ---- texts ---- *)
  Lemma str_of_raw v : strict v -> raw (str_of show v).
  Proof.
    intros H. destruct H as [|b|z|g G|t T|s S|b B1 B2|l L1 L2|l L1 L2|d D1 D2 D3|d D1 D2 D3|n N1 N2|t v T1 T2|x X1 X2 X3]; cbn [str_of]; try assumption.
    - apply visible_raw. repeat constructor; discriminate.
    - apply visible_raw. destruct b; repeat constructor; discriminate.
    - apply int_raw.
    - apply guid_raw. exact G.
  Qed.
  Lemma unicode_said v s : strict v -> unicode_of v = Ok s -> said s.
  Proof.
    intros H E. destruct H as [|b|z|g G|t T|s' S|b B1 B2|l L1 L2|l L1 L2|d D1 D2 D3|d D1 D2 D3|n N1 N2|t v T1 T2|x X1 X2 X3]; cbn [unicode_of] in E; try discriminate E.
    - apply Ok_inj in E. subst s. apply raw_said, visible_raw. repeat constructor; discriminate.
    - apply Ok_inj in E. subst s'. apply raw_said. exact S.
    - exact (B1 s E).
  Qed.
  Lemma b64_fine b : raw (b64encode b). Proof. apply visible_raw. exact (b64_raw _ b (le_n _)). Qed.
  Lemma secret_raw s t : serialize_secure_string ci s = Ok t -> raw t.
  Proof.
    unfold serialize_secure_string. intros H. destruct ci as [c|]; [|discriminate H]. apply bind_ok in H. destruct H as (b & _ & H). apply Ok_inj in H. subst t. apply b64_fine.
  Qed.
  Lemma pack_raw m tag v s : loose m v -> m_tag m = tag -> pack_text ci show m tag v = Some (Ok s) -> raw s.
  Proof.
    intros L T. unfold pack_text.
    destruct (tag_in tag ["S"; "URI"; "XD"; "SBK"]%string) eqn:E1.
    { intros H. apply Some_inj in H. apply bind_ok in H. destruct H as (u & E & H). apply Ok_inj in H. subst s. apply string_raw.
      destruct L as [m v S|m s S I|m s I|m b I|m t v I L|m e l I M L|m km vm d I M L1 L2|m n I Rn]; cbn [unicode_of] in E; try discriminate E.
      - exact (unicode_said v u S E).
      - apply Ok_inj in E. subst u. exact S.
      - exfalso. rewrite T in I. destruct I as [<- |[<- |[]]]; discriminate E1.
      - exfalso. rewrite T in I. destruct I as [<- |[<- |[<- |[]]]]; discriminate E1. }
    destruct (str_eqb tag (lit "ToString")) eqn:E2; [discriminate|].
    destruct (str_eqb tag (lit "C")) eqn:E3.
    { intros H. apply Some_inj in H. destruct v as [| | | |[|c [|? ?]]| | | | | | | | |]; try discriminate H. apply Ok_inj in H. subst s. apply dec_raw. }
    assert (St : forall l, tag_in tag l = true -> (forall x, In x l -> ~ In (lit x) (map lit ["*"; "S"; "URI"; "XD"; "SBK"; "C"; "SS"; "BA"; "LST"; "IE"; "DCT"; "Obj"; "ObjDynamic"]%string)) -> strict v).
    { intros l Hl Hn. unfold tag_in in Hl. apply existsb_exists in Hl. destruct Hl as (x & Hx & Ex). apply str_eqb_spec in Ex. specialize (Hn x Hx). rewrite <- Ex, <- T in Hn.
      destruct L as [m v S|m s' S I|m s' I|m b I|m t v I L|m e l' I M L|m km vm d I M L1 L2|m n I Rn]; [exact S| | | | | | |]; exfalso; apply Hn;
        try (rewrite I; left; reflexivity); cbn [map In] in I |- *; tauto. }
    destruct (str_eqb tag (lit "B")) eqn:E4.
    { intros H. apply Some_inj in H. apply Ok_inj in H. subst s. apply lower_raw, str_of_raw. apply (St ["B"]%string); [unfold tag_in; cbn [existsb]; rewrite E4; reflexivity|].
      intros x [<- |[]]. vm_compute. intuition discriminate. }
    destruct (str_eqb tag (lit "DT")) eqn:E5; [destruct (m_name m); discriminate|].
    destruct (str_eqb tag (lit "BA")) eqn:E6.
    { intros H. apply Some_inj in H. destruct v; try discriminate H. apply Ok_inj in H. subst s. apply b64_fine. }
    destruct (str_eqb tag (lit "SS")) eqn:E7.
    { intros H. apply Some_inj in H. destruct v; try (destruct ci; discriminate H).
      - exact (secret_raw _ _ H).
      - destruct ci as [c|]; [|discriminate H]. apply Ok_inj in H. subst s. apply b64_fine. }
    match goal with |- (if tag_in tag ?l then _ else _) = _ -> _ => destruct (tag_in tag l) eqn:E8; [|discriminate] end.
    intros H. apply Some_inj in H. apply Ok_inj in H. subst s. apply str_of_raw. eapply St; [exact E8|].
    intros x Hx. repeat (destruct Hx as [<- |Hx]; [vm_compute; intuition discriminate|]). destruct Hx.
  Qed.

  Section Step.
    Context (rec : value -> meta -> sst -> res (option xml * meta * sst)).
    Context (Hrec : forall v m st ox m' st', tidy m -> loose m v -> rec v m st = Ok (ox, m', st') ->
      Forall safe (opt_list ox) /\ tidy m' /\ simk (m_kind m) (m_kind m')).

    Lemma create_safe v key om st xs st' : (forall k, key = Some k -> Forall xml_char k) ->
      (match om with Some m => tidy m /\ loose m v | None => loose any_meta v end) ->
      create_obj rec v key om st = Ok (xs, st') -> Forall safe xs.
    Proof.
      intros Hk Hm H. unfold create_obj in H. destruct (match v with VObj n => find_ref n (s_objs st) | _ => None end) as [id|].
      - apply Ok_pair_inj in H. destruct H as (<- & _). constructor; [|constructor].
        assert (Q : safe (Elem (lit "Ref") [(refid, dec id)] None [])) by (apply safe_id; [reflexivity|constructor]).
        destruct key as [k|]; [|exact Q]. apply safe_set; [apply nc; reflexivity|discriminate|exact (Hk k eq_refl)|exact Q].
      - apply bind_ok in H. destruct H as ([[x m'] st1] & H & K). apply Ok_pair_inj in K. destruct K as (<- & _).
        destruct om as [m|].
        + exact (proj1 (Hrec _ _ _ _ _ _ (proj1 Hm) (proj2 Hm) H)).
        + refine (proj1 (Hrec _ _ _ _ _ _ _ (loose_other _ _ _ _ Hm) H)). constructor; [exact Hk|exact I|constructor].
    Qed.
    Lemma attrs_safe attrs props : (forall a m v, In (a, m) props -> dict_get str_eqb a attrs = Some v -> tidy m /\ loose m v) ->
      forall st xs st', ser_attrs rec attrs props st = Ok (xs, st') -> Forall safe xs.
    Proof.
      induction props as [|[a m] props IH]; intros G st xs st' H; cbn [ser_attrs] in H.
      - apply Ok_pair_inj in H. destruct H as (<- & _). constructor.
      - destruct (dict_get str_eqb a attrs) as [v|] eqn:E; [|discriminate H].
        apply bind_ok in H. destruct H as ([ys st1] & H1 & H). apply bind_ok in H. destruct H as ([zs st2] & H2 & H). apply Ok_pair_inj in H. destruct H as (<- & _).
        apply Forall_app. split; [|eapply IH; [|exact H2]; intros a' m' v' Hi; apply G; right; exact Hi].
        refine (create_safe _ _ _ _ _ _ _ _ H1); [discriminate|]. apply (G a m v); [left; reflexivity|exact E].
    Qed.
    Lemma group_safe t attrs props st xs st' : ncname t = true -> (forall a m v, In (a, m) props -> dict_get str_eqb a attrs = Some v -> tidy m /\ loose m v) ->
      ser_group rec t attrs props st = Ok (xs, st') -> Forall safe xs.
    Proof.
      intros T G H. unfold ser_group in H. destruct props as [|p props].
      - apply Ok_pair_inj in H. destruct H as (<- & _). constructor.
      - apply bind_ok in H. destruct H as ([ys st1] & H1 & H). apply Ok_pair_inj in H. destruct H as (<- & _). constructor; [|constructor].
        apply safe_box; [exact T|]. exact (attrs_safe _ _ G _ _ _ H1).
    Qed.
    Lemma object_of v m : loose m v -> forall n, v = VObj n -> R n.
    Proof.
      intros L n E. destruct L as [m v S|m s S I|m s I|m b I|m t v I L|m e l I M L|m km vm d I M L1 L2|m n' I Rn]; try discriminate E.
      - subst v. inversion S; assumption.
      - injection E as ->. exact Rn.
    Qed.
    Lemma obj_safe v m st x st' : loose m v -> ser_obj classes heap rec v st = Ok (x, st') -> safe x.
    Proof.
      intros L H. unfold ser_obj in H. destruct (take_id st) as [id st0]. destruct v as [| | | | | | | | | | |n| |]; try discriminate H.
      pose proof (object_of _ _ L n eq_refl) as Rn.
      destruct (nth_error heap n) as [[g|c attrs]|] eqn:E; [| |discriminate H].
      - apply Ok_pair_inj in H. destruct H as (<- & _). apply safe_id; [reflexivity|constructor].
      - destruct (classes c) as [d|] eqn:Ec; [|discriminate H]. destruct (Hh n _ Rn E d Ec) as (Ht & Hx & Ha).
        apply bind_ok in H. destruct H as ([tn st1] & H1 & H). apply bind_ok in H. destruct H as (t & H2 & H). apply bind_ok in H. destruct H as (ts & H3 & H).
        apply bind_ok in H. destruct H as ([sets st2] & H4 & H). apply bind_ok in H. destruct H as ([ms st3] & H5 & H). apply bind_ok in H. destruct H as ([ps st4] & H6 & H).
        apply Ok_pair_inj in H. destruct H as (<- & _). apply safe_id; [reflexivity|].
        repeat (apply Forall_app; split).
        + exact (tn_if_safe _ _ _ _ Ht H1).
        + exact (to_string_safe _ _ (Hx t H2) H3).
        + refine (attrs_safe _ _ _ _ _ _ H4). intros a m' v' Hi. apply Ha. unfold attributes. apply in_or_app. left. exact Hi.
        + refine (group_safe (lit "MS") _ _ _ _ _ eq_refl _ H5). intros a m' v' Hi. apply Ha. unfold attributes. apply in_or_app. right. apply in_or_app. right. exact Hi.
        + refine (group_safe (lit "Props") _ _ _ _ _ eq_refl _ H6). intros a m' v' Hi. apply Ha. unfold attributes. apply in_or_app. right. apply in_or_app. left. exact Hi.
    Qed.
    Lemma values_safe vs : (forall v, In v vs -> loose any_meta v) -> forall st xs st', ser_values rec vs st = Ok (xs, st') -> Forall safe xs.
    Proof.
      induction vs as [|v vs IH]; intros G st xs st' H; cbn [ser_values] in H.
      - apply Ok_pair_inj in H. destruct H as (<- & _). constructor.
      - apply bind_ok in H. destruct H as ([ys st1] & H1 & H). apply bind_ok in H. destruct H as ([zs st2] & H2 & H). apply Ok_pair_inj in H. destruct H as (<- & _).
        apply Forall_app. split; [|eapply IH; [|exact H2]; intros v' Hi; apply G; right; exact Hi].
        refine (create_safe _ _ None _ _ _ _ _ H1); [discriminate|]. apply G. left. reflexivity.
    Qed.
    Lemma named_safe ps : (forall k v, In (k, v) ps -> Forall xml_char k /\ loose any_meta v) -> forall st xs st', ser_named rec ps st = Ok (xs, st') -> Forall safe xs.
    Proof.
      induction ps as [|[k v] ps IH]; intros G st xs st' H; cbn [ser_named] in H.
      - apply Ok_pair_inj in H. destruct H as (<- & _). constructor.
      - apply bind_ok in H. destruct H as ([ys st1] & H1 & H). apply bind_ok in H. destruct H as ([zs st2] & H2 & H). apply Ok_pair_inj in H. destruct H as (<- & _).
        apply Forall_app. split; [|eapply IH; [|exact H2]; intros k' v' Hi; apply G; right; exact Hi].
        destruct (G k v (or_introl eq_refl)) as (G1 & G2). refine (create_safe _ _ None _ _ _ _ G2 H1). intros k' E. apply Some_inj in E. subst k'. exact G1.
    Qed.
    Lemma insert_in {A} (e : list N * A) l x : In x (insert_key e l) -> x = e \/ In x l.
    Proof.
      induction l as [|f l IH]; cbn [insert_key].
      - intros [<- |[]]. left. reflexivity.
      - destruct (SerModel.str_leb (fst e) (fst f)).
        + intros [<- |H]; [left; reflexivity|right; exact H].
        + intros [<- |H]; [right; left; reflexivity|]. destruct (IH H); [left|right; right]; assumption.
    Qed.
    Lemma sort_in {A} (l : list (list N * A)) x : In x (sort_keys l) -> In x l.
    Proof. induction l as [|f l IH]; [intros []|]. intros H. apply insert_in in H. destruct H as [-> |H]; [left; reflexivity|right; apply IH; exact H]. Qed.
    Lemma props_safe t ps st xs st' : ncname t = true -> (forall k v, In (k, v) ps -> Forall xml_char k /\ loose any_meta v) ->
      ser_props rec t ps st = Ok (xs, st') -> Forall safe xs.
    Proof.
      intros T G H. unfold ser_props in H. destruct ps as [|p ps].
      - apply Ok_pair_inj in H. destruct H as (<- & _). constructor.
      - apply bind_ok in H. destruct H as ([ys st1] & H1 & H). apply Ok_pair_inj in H. destruct H as (<- & _). constructor; [|constructor].
        apply safe_box; [exact T|]. refine (named_safe _ _ _ _ _ H1). intros k v Hi. apply G. apply sort_in. exact Hi.
    Qed.
    Lemma dynamic_safe v m st x st' : loose m v -> ser_dynamic heap rec v st = Ok (x, st') -> safe x.
    Proof.
      intros L H. unfold ser_dynamic in H. destruct (take_id st) as [id st0]. destruct v as [| | | | | | | | | | |n| |]; try discriminate H.
      pose proof (object_of _ _ L n eq_refl) as Rn.
      destruct (nth_error heap n) as [[g|c attrs]|] eqn:E; [|discriminate H|discriminate H].
      destruct (Hh n _ Rn E) as (Ht & Hx & Hs & Ha).
      apply bind_ok in H. destruct H as ([tn st1] & H1 & H). apply bind_ok in H. destruct H as (ts & H3 & H).
      apply bind_ok in H. destruct H as ([sets st2] & H4 & H). apply bind_ok in H. destruct H as ([ms st3] & H5 & H). apply bind_ok in H. destruct H as ([ps st4] & H6 & H).
      apply Ok_pair_inj in H. destruct H as (<- & _). apply safe_id; [reflexivity|].
      repeat (apply Forall_app; split).
      + exact (tn_if_safe _ _ _ _ Ht H1).
      + exact (to_string_safe _ _ Hx H3).
      + exact (values_safe _ Hs _ _ _ H4).
      + refine (props_safe (lit "MS") _ _ _ _ eq_refl _ H5). intros k v Hi. apply Ha. apply in_or_app. left. exact Hi.
      + refine (props_safe (lit "Props") _ _ _ _ eq_refl _ H6). intros k v Hi. apply Ha. apply in_or_app. right. exact Hi.
    Qed.
    (* members, each with its copy of the metadata *)
    Lemma copied_safe vs : forall m st xs m' st', tidy m -> (forall v, In v vs -> loose m v) -> ser_entries rec true m vs st = Ok (xs, m', st') ->
      Forall safe xs /\ tidy m' /\ m_tag m' = m_tag m /\ simk (m_kind m) (m_kind m').
    Proof.
      induction vs as [|v vs IH]; intros m st xs m' st' T G H; cbn [ser_entries] in H.
      - apply Ok_pair_inj in H. destruct H as (H & _). apply pair_inj in H. destruct H as (<- & <-). split; [constructor|]. split; [exact T|]. split; [reflexivity|apply simk_refl].
      - apply bind_ok in H. destruct H as ([[x m1] st1] & H1 & H). apply bind_ok in H. destruct H as ([[ys m2] st2] & H2 & H).
        apply Ok_pair_inj in H. destruct H as (H & _). apply pair_inj in H. destruct H as (<- & <-).
        destruct (Hrec _ _ _ _ _ _ T (G v (or_introl eq_refl)) H1) as (S1 & T1 & K1).
        destruct (fun G' => IH _ _ _ _ _ (tidy_set _ _ T (tidy_kind_of _ T1) K1) G' H2) as (S2 & T2 & E2 & K2).
        { intros w Hw. apply (loose_sim show R _ _ (G w (or_intror Hw))); [rewrite m_tag_set_kind; reflexivity|rewrite m_kind_set; exact K1]. }
        split; [apply Forall_app; split; assumption|]. split; [exact T2|]. split; [rewrite E2; apply m_tag_set_kind|].
        eapply simk_trans; [exact K1|]. rewrite m_kind_set in K2. exact K2.
    Qed.
    (* members that share it *)
    Lemma shared_safe vs : forall m st xs m' st', tidy m -> (forall v, In v vs -> strict v) -> ser_entries rec false m vs st = Ok (xs, m', st') ->
      Forall safe xs /\ tidy m'.
    Proof.
      induction vs as [|v vs IH]; intros m st xs m' st' T G H; cbn [ser_entries] in H.
      - apply Ok_pair_inj in H. destruct H as (H & _). apply pair_inj in H. destruct H as (<- & <-). split; [constructor|exact T].
      - apply bind_ok in H. destruct H as ([[x m1] st1] & H1 & H). apply bind_ok in H. destruct H as ([[ys m2] st2] & H2 & H).
        apply Ok_pair_inj in H. destruct H as (H & _). apply pair_inj in H. destruct H as (<- & <-).
        destruct (Hrec _ _ _ _ _ _ T (lo_strict _ _ _ _ (G v (or_introl eq_refl))) H1) as (S1 & T1 & K1).
        destruct (IH _ _ _ _ _ T1 (fun w Hw => G w (or_intror Hw)) H2) as (S2 & T2). split; [apply Forall_app; split; assumption|exact T2].
    Qed.
    Lemma list_safe tag (copied : bool) e ts vs st x e' st' : ncname tag = true -> tidy e -> Forall raw ts ->
      (if copied then forall v, In v vs -> loose e v else forall v, In v vs -> strict v) ->
      ser_list rec tag copied (e, ts) vs st = Ok (x, e', st') -> safe x /\ tidy e' /\ (copied = true -> m_tag e' = m_tag e /\ simk (m_kind e) (m_kind e')).
    Proof.
      intros N T F G H. unfold ser_list in H. destruct (take_id st) as [id st0]. cbn [fst snd] in H.
      apply bind_ok in H. destruct H as ([tn st1] & H1 & H). apply bind_ok in H. destruct H as ([[xs e2] st2] & H2 & H).
      apply Ok_pair_inj in H. destruct H as (H & _). apply pair_inj in H. destruct H as (<- & <-).
      assert (Q : Forall safe xs /\ tidy e2 /\ (copied = true -> m_tag e2 = m_tag e /\ simk (m_kind e) (m_kind e2))).
      { destruct copied.
        - destruct (copied_safe _ _ _ _ _ _ T G H2) as (A & B & C). split; [exact A|]. split; [exact B|]. intros _. exact C.
        - destruct (shared_safe _ _ _ _ _ _ T G H2) as (A & B). split; [exact A|]. split; [exact B|]. discriminate. }
      destruct Q as (A & B). split; [|exact B]. apply safe_id; [reflexivity|].
      constructor; [exact (tn_safe _ _ _ _ F H1)|]. constructor; [|constructor]. apply safe_box; assumption.
    Qed.
    Lemma any_tidy : tidy any_meta. Proof. constructor; [discriminate|exact I|constructor]. Qed.
    Lemma lits_raw l : forallb (forallb (fun c => N.leb 32 c && N.leb c 126)%bool) (map lit l) = true -> Forall raw (map lit l).
    Proof.
      intros H. apply Forall_forall. intros s Hs. rewrite forallb_forall in H. specialize (H s Hs). apply visible_raw. apply Forall_forall. intros c Hc.
      rewrite forallb_forall in H. specialize (H c Hc). apply andb_true_iff in H. destruct H as (A & B). apply N.leb_le in A. apply N.leb_le in B. split; assumption.
    Qed.
    (* a value that a list is made of *)
    Lemma iterate_fine m v vs : loose m v -> In (m_tag m) (map lit ["LST"; "IE"]%string) -> iterate v = Ok vs ->
      (forall w, In w vs -> strict w) \/ exists e, member_meta m e /\ forall w, In w vs -> loose e w.
    Proof.
      intros L I H. destruct L as [m v S|m s S T|m s T|m b T|m t v T L|m e l T M L|m km vm d T M L1 L2|m n T Rn]; cbn [iterate] in H; try discriminate H.
      - left. destruct S as [|b|z|g G|t T|s S|b B1 B2|l L1 L2|l L1 L2|d D1 D2 D3|d D1 D2 D3|n N1 N2|t v T1 T2|x X1 X2 X3]; cbn [iterate] in H; try discriminate H; apply Ok_inj in H; subst vs.
        + intros w Hw. apply in_map_iff in Hw. destruct Hw as (c & <- & Hc). apply st_str. exact (raw_one s c S Hc).
        + intros w Hw. apply in_map_iff in Hw. destruct Hw as (c & <- & Hc). apply st_int.
        + exact L2.
        + intros w Hw. apply in_map_iff in Hw. destruct Hw as ([k v] & <- & Hc). exact (D2 k v Hc).
      - exfalso. cbn [map In] in I, T. destruct I as [I|[I|[]]]; rewrite <- I in T; repeat (destruct T as [T|T]; [discriminate T|]); exact T.
      - exfalso. cbn [map In] in I, T. destruct I as [I|[I|[]]]; rewrite <- I in T; repeat (destruct T as [T|T]; [discriminate T|]); exact T.
      - left. apply Ok_inj in H. subst vs. intros w Hw. apply in_map_iff in Hw. destruct Hw as (c & <- & _). apply st_int.
      - right. apply Ok_inj in H. subst vs. exists e. split; [exact M|exact L].
      - exfalso. cbn [map In] in I, T. destruct I as [I|[I|[]]]; rewrite <- I in T; repeat (destruct T as [T|T]; [discriminate T|]); exact T.
    Qed.
    Lemma with_entry_tag e m : m_tag (with_entry e m) = m_tag m.
    Proof. unfold with_entry. destruct (m_kind m); try reflexivity; apply m_tag_set_kind. Qed.
    Lemma lst_safe tag m v st x m' st' : In tag (map lit ["LST"; "IE"]%string) -> m_tag m = tag -> tidy m -> loose m v ->
      ser_lst rec tag m v st = Ok (x, m', st') -> safe x /\ tidy m' /\ simk (m_kind m) (m_kind m').
    Proof.
      intros I Tg T L H. unfold ser_lst in H. apply bind_ok in H. destruct H as (vs & Hi & H).
      assert (Nt : ncname tag = true) by (destruct I as [<- |[<- |[]]]; reflexivity). rewrite <- Tg in I.
      pose proof (iterate_fine _ _ _ L I Hi) as V.
      assert (Tk := tidy_kind_of _ T). unfold list_info in H.
      destruct (m_kind m) as [|e ts|e ts|e ts|a b ts] eqn:Km.
      1,5: (apply bind_ok in H; destruct H as ([[y e'] st1] & H1 & H); apply Ok_pair_inj in H; destruct H as (H & _); apply pair_inj in H; destruct H as (<- & <-);
        change [lit "System.Object[]"; lit "System.Array"; lit "System.Object"] with (map lit ["System.Object[]"; "System.Array"; "System.Object"]%string) in H1;
        destruct (fun G' => list_safe tag true any_meta _ vs st y e' st1 Nt any_tidy (lits_raw ["System.Object[]"; "System.Array"; "System.Object"]%string eq_refl) G' H1) as (A & B & C);
          [|split; [exact A|]; split; [exact T|rewrite <- Km; apply simk_refl]];
        destruct V as [V|(e & M & V)]; [intros w Hw; apply lo_strict, V, Hw|]; unfold member_meta in M; rewrite Km in M; subst e; exact V).
      - inversion Tk; subst. apply bind_ok in H. destruct H as ([[y e'] st1] & H1 & H). apply Ok_pair_inj in H. destruct H as (H & _). apply pair_inj in H. destruct H as (<- & <-).
        destruct (list_safe (m_tag m) true e ts vs st y e' st1 Nt) with (4 := H1) as (A & B & C); [assumption|assumption| |].
        { destruct V as [V|(e0 & M & V)]; [intros w Hw; apply lo_strict, V, Hw|]. unfold member_meta in M. rewrite Km in M. subst e0. exact V. }
        destruct (C eq_refl) as (C1 & C2). unfold with_entry. rewrite Km. split; [exact A|]. split; [apply tidy_set; [exact T|constructor; assumption|rewrite Km; constructor; [symmetry; exact C1|exact C2]]|].
        rewrite m_kind_set. constructor; [symmetry; exact C1|exact C2].
      - inversion Tk; subst. apply bind_ok in H. destruct H as ([[y e'] st1] & H1 & H). apply Ok_pair_inj in H. destruct H as (H & _). apply pair_inj in H. destruct H as (<- & <-).
        destruct (list_safe (m_tag m) true e ts vs st y e' st1 Nt) with (4 := H1) as (A & B & C); [assumption|assumption| |].
        { destruct V as [V|(e0 & M & V)]; [intros w Hw; apply lo_strict, V, Hw|]. unfold member_meta in M. rewrite Km in M. destruct M. }
        unfold with_entry. rewrite Km. split; [exact A|]. split; [apply tidy_set; [exact T|constructor; assumption|rewrite Km; constructor]|]. rewrite m_kind_set. constructor.
      - inversion Tk; subst. apply bind_ok in H. destruct H as ([[y e'] st1] & H1 & H). apply Ok_pair_inj in H. destruct H as (H & _). apply pair_inj in H. destruct H as (<- & <-).
        destruct (list_safe (m_tag m) true e ts vs st y e' st1 Nt) with (4 := H1) as (A & B & C); [assumption|assumption| |].
        { destruct V as [V|(e0 & M & V)]; [intros w Hw; apply lo_strict, V, Hw|]. unfold member_meta in M. rewrite Km in M. destruct M. }
        unfold with_entry. rewrite Km. split; [exact A|]. split; [apply tidy_set; [exact T|constructor; assumption|rewrite Km; constructor]|]. rewrite m_kind_set. constructor.
    Qed.
    Lemma queue_of m v l : loose m v -> v = VQueue l -> forall w, In w l -> strict w.
    Proof.
      intros L E. destruct L as [m v S|m s S T|m s T|m b T|m t v T L|m e l' T M L|m km vm d T M L1 L2|m n T Rn]; try discriminate E.
      subst v. inversion S; assumption.
    Qed.
    Lemma que_safe m v st x m' st' : tidy m -> loose m v -> ser_que rec m v st = Ok (x, m', st') -> safe x /\ tidy m' /\ simk (m_kind m) (m_kind m').
    Proof.
      intros T L H. unfold ser_que in H. destruct v as [| | | | | | | | | |l| | |]; try discriminate H.
      pose proof (queue_of _ _ l L eq_refl) as V. assert (Tk := tidy_kind_of _ T).
      destruct (m_kind m) as [|e ts|e ts|e ts|a b ts] eqn:Km.
      1,2,3,5: (apply bind_ok in H; destruct H as ([[y e'] st1] & H1 & H); apply Ok_pair_inj in H; destruct H as (H & _); apply pair_inj in H; destruct H as (<- & <-);
        change [lit "System.Collections.Queue"; lit "System.Object"] with (map lit ["System.Collections.Queue"; "System.Object"]%string) in H1;
        destruct (list_safe (lit "QUE") false any_meta _ l st y e' st1 eq_refl any_tidy (lits_raw ["System.Collections.Queue"; "System.Object"]%string eq_refl) V H1) as (A & B & C);
        split; [exact A|]; split; [exact T|rewrite <- Km; apply simk_refl]).
      inversion Tk; subst. apply bind_ok in H. destruct H as ([[y e'] st1] & H1 & H). apply Ok_pair_inj in H. destruct H as (H & _). apply pair_inj in H. destruct H as (<- & <-).
      destruct (list_safe (lit "QUE") false e ts l st y e' st1 eq_refl) with (4 := H1) as (A & B & C); [assumption|assumption|exact V|].
      unfold with_entry. rewrite Km. split; [exact A|]. split; [apply tidy_set; [exact T|constructor; assumption|rewrite Km; constructor]|]. rewrite m_kind_set. constructor.
    Qed.
    Lemma stk_safe m v st x m' st' : tidy m -> m_tag m = lit "STK" -> loose m v -> ser_stk rec m v st = Ok (x, m', st') -> safe x /\ tidy m' /\ simk (m_kind m) (m_kind m').
    Proof.
      intros T Tg L H. unfold ser_stk in H. assert (Tk := tidy_kind_of _ T). unfold list_info in H.
      assert (V : forall l, v = VList l -> forall w, In w (rev l) -> strict w).
      { intros l E w Hw. apply in_rev in Hw. destruct L as [m v S|m s S U|m s U|m b U|m t v U L|m e l' U M L|m km vm d U M L1 L2|m n U Rn]; try discriminate E.
        - subst v. inversion S; auto.
        - exfalso. rewrite Tg in U. cbn [map In] in U. repeat (destruct U as [U|U]; [discriminate U|]). exact U. }
      destruct (m_kind m) as [|e ts|e ts|e ts|a b ts] eqn:Km; try discriminate H; (destruct v as [| | | | | | |l| | | | | |]; try discriminate H; specialize (V l eq_refl)).
      { exfalso. pose proof (tidy_list_tag _ _ _ T Km) as Q. rewrite Tg in Q. destruct Q as [Q|[Q|[]]]; discriminate Q. }
      all: inversion Tk; subst; apply bind_ok in H; destruct H as ([[y e'] st1] & H1 & H); apply Ok_pair_inj in H; destruct H as (H & _); apply pair_inj in H; destruct H as (<- & <-).
      all: destruct (list_safe (lit "STK") false e ts (rev l) st y e' st1 eq_refl) with (4 := H1) as (A & B & C); [assumption|assumption|exact V|].
      all: unfold with_entry; rewrite Km; split; [exact A|]; split; [apply tidy_set; [exact T|constructor; assumption|rewrite Km; constructor]|]; rewrite m_kind_set; constructor.
    Qed.
    Lemma pairs_safe d : forall km vm st xs km' vm' st', tidy km -> tidy vm -> (forall k v, In (k, v) d -> loose km k) -> (forall k v, In (k, v) d -> loose vm v) ->
      ser_pairs rec km vm d st = Ok (xs, km', vm', st') ->
      Forall safe xs /\ (tidy km' /\ m_tag km' = m_tag km /\ simk (m_kind km) (m_kind km')) /\ (tidy vm' /\ m_tag vm' = m_tag vm /\ simk (m_kind vm) (m_kind vm')).
    Proof.
      induction d as [|[k v] d IH]; intros km vm st xs km' vm' st' Tk Tv Gk Gv H; cbn [ser_pairs] in H.
      - apply Ok_pair_inj in H. destruct H as (H & _). apply pair_inj in H. destruct H as (H & <-). apply pair_inj in H. destruct H as (<- & <-).
        split; [constructor|]. split; (split; [assumption|split; [reflexivity|apply simk_refl]]).
      - apply bind_ok in H. destruct H as ([[x km1] st1] & H1 & H). apply bind_ok in H. destruct H as ([[y vm1] st2] & H2 & H).
        apply bind_ok in H. destruct H as ([[[ys km2] vm2] st3] & H3 & H).
        apply Ok_pair_inj in H. destruct H as (H & _). apply pair_inj in H. destruct H as (H & <-). apply pair_inj in H. destruct H as (<- & <-).
        destruct (Hrec _ _ _ _ _ _ Tk (Gk k v (or_introl eq_refl)) H1) as (S1 & T1 & K1).
        destruct (Hrec _ _ _ _ _ _ Tv (Gv k v (or_introl eq_refl)) H2) as (S2 & T2 & K2).
        destruct (fun G1 G2 => IH _ _ _ _ _ _ _ (tidy_set _ _ Tk (tidy_kind_of _ T1) K1) (tidy_set _ _ Tv (tidy_kind_of _ T2) K2) G1 G2 H3) as (S3 & (A1 & A2 & A3) & (B1 & B2 & B3)).
        { intros a b Hi. apply (loose_sim show R _ _ (Gk a b (or_intror Hi))); [rewrite m_tag_set_kind; reflexivity|rewrite m_kind_set; exact K1]. }
        { intros a b Hi. apply (loose_sim show R _ _ (Gv a b (or_intror Hi))); [rewrite m_tag_set_kind; reflexivity|rewrite m_kind_set; exact K2]. }
        split; [constructor; [apply safe_box; [reflexivity|apply Forall_app; split; assumption]|exact S3]|].
        rewrite m_kind_set in A3, B3. rewrite m_tag_set_kind in A2, B2.
        split; (split; [assumption|split; [assumption|eapply simk_trans; eassumption]]).
    Qed.
    Lemma dct_safe m v st x m' st' : tidy m -> m_tag m = lit "DCT" -> loose m v -> ser_dct rec m v st = Ok (x, m', st') -> safe x /\ tidy m' /\ simk (m_kind m) (m_kind m').
    Proof.
      intros T Tg L H. assert (Tk := tidy_kind_of _ T). unfold ser_dct in H.
      set (kvt := match m_kind m with KDict km vm ts => (km, vm, ts) | _ => _ end) in H.
      assert (Q : exists km vm ts, kvt = (km, vm, ts) /\ tidy km /\ tidy vm /\ Forall raw ts /\ pair_meta m km vm).
      { unfold kvt, pair_meta. change [lit "System.Collections.Hashtable"; lit "System.Object"] with (map lit ["System.Collections.Hashtable"; "System.Object"]%string).
        assert (D : tidy (object_meta star (Some (lit "Key"))) /\ tidy (object_meta star (Some (lit "Value")))).
        { split; (constructor; [|exact I|constructor]); intros n E; apply Some_inj in E; subst n; apply lit_chars_ascii; reflexivity. }
        destruct D as (D1 & D2).
        destruct (m_kind m) as [|e ts|e ts|e ts|a b ts]; do 3 eexists; (split; [reflexivity|]); try (split; [exact D1|]; split; [exact D2|]; split; [apply lits_raw; reflexivity|split; reflexivity]).
        inversion Tk; subst. repeat (split; [assumption|]). split; reflexivity. }
      destruct Q as (km & vm & ts & -> & Tkm & Tvm & Ft & P). destruct (take_id st) as [id st0].
      apply bind_ok in H. destruct H as (d & Hd & H). apply bind_ok in H. destruct H as ([tn st1] & H1 & H). apply bind_ok in H. destruct H as ([[[xs km'] vm'] st2] & H2 & H).
      apply Ok_pair_inj in H. destruct H as (H & _). apply pair_inj in H. destruct H as (<- & <-).
      assert (V : (forall k v, In (k, v) d -> loose km k) /\ (forall k v, In (k, v) d -> loose vm v)).
      { destruct L as [m v S|m s S U|m s U|m b U|m t v U L|m e l' U M L|m km0 vm0 d' U M L1 L2|m n U Rn]; try discriminate Hd.
        - destruct v; try discriminate Hd; apply Ok_inj in Hd; subst d; inversion S; subst; split; intros k v Hi; apply lo_strict; eauto.
        - apply Ok_inj in Hd. subst d'. assert (E : km = km0 /\ vm = vm0) by (unfold pair_meta in *; destruct (m_kind m); destruct M, P; subst; split; reflexivity). destruct E as (<- & <-).
          split; [exact L1|exact L2]. }
      destruct V as (V1 & V2). destruct (pairs_safe _ _ _ _ _ _ _ _ Tkm Tvm V1 V2 H2) as (S & (A1 & A2 & A3) & (B1 & B2 & B3)).
      split; [apply safe_id; [reflexivity|]; constructor; [exact (tn_safe _ _ _ _ Ft H1)|constructor; [apply safe_box; [reflexivity|exact S]|constructor]]|].
      unfold pair_meta in P. destruct (m_kind m) as [|e ts'|e ts'|e ts'|a b ts'] eqn:Km; try (split; [exact T|rewrite Km; rewrite <- Km; apply simk_refl]).
      destruct P as (-> & ->). inversion Tk; subst.
      assert (Sk : simk (KDict a b ts') (KDict km' vm' ts')) by (constructor; congruence || assumption).
      split; [apply tidy_set; [exact T|constructor; assumption|rewrite Km; exact Sk]|]. rewrite m_kind_set. exact Sk.
    Qed.
    Lemma struct_safe tag m v st x m' st' : tidy m -> m_tag m = tag -> loose m v -> pack_struct classes heap rec tag m v st = Ok (x, m', st') ->
      safe x /\ tidy m' /\ simk (m_kind m) (m_kind m').
    Proof.
      intros T Tg L H. unfold pack_struct in H.
      destruct (str_eqb tag (lit "Obj")).
      { apply bind_ok in H. destruct H as ([y st1] & H1 & H). apply Ok_pair_inj in H. destruct H as (H & _). apply pair_inj in H. destruct H as (<- & <-).
        split; [exact (obj_safe _ _ _ _ _ L H1)|]. split; [exact T|apply simk_refl]. }
      destruct (str_eqb tag (lit "ObjDynamic")).
      { apply bind_ok in H. destruct H as ([y st1] & H1 & H). apply Ok_pair_inj in H. destruct H as (H & _). apply pair_inj in H. destruct H as (<- & <-).
        split; [exact (dynamic_safe _ _ _ _ _ L H1)|]. split; [exact T|apply simk_refl]. }
      destruct (str_eqb tag (lit "LST")) eqn:E1; [apply str_eqb_spec in E1; subst tag; refine (lst_safe (lit "LST") _ _ _ _ _ _ _ E1 T L H); left; reflexivity|].
      destruct (str_eqb tag (lit "IE")) eqn:E2; [apply str_eqb_spec in E2; subst tag; refine (lst_safe (lit "IE") _ _ _ _ _ _ _ E2 T L H); right; left; reflexivity|].
      destruct (str_eqb tag (lit "QUE")) eqn:E3; [exact (que_safe _ _ _ _ _ _ T L H)|].
      destruct (str_eqb tag (lit "STK")) eqn:E4; [apply str_eqb_spec in E4; subst tag; exact (stk_safe _ _ _ _ _ _ T E4 L H)|].
      destruct (str_eqb tag (lit "DCT")) eqn:E5; [apply str_eqb_spec in E5; subst tag; exact (dct_safe _ _ _ _ _ _ T E5 L H)|discriminate H].
    Qed.
  End Step.

  Lemma known_nc tag : existsb (str_eqb tag) known_tags = true -> ncname tag = true.
  Proof.
    intros H. apply existsb_exists in H. destruct H as (t & Hi & E). apply str_eqb_spec in E. subst t.
    assert (K : forallb ncname known_tags = true) by reflexivity. rewrite forallb_forall in K. exact (K tag Hi).
  Qed.
  (* the tag that is inferred *)
  Lemma star_loose m v : m_tag m = star -> loose m v -> (forall t w, v <> VTagged t w) -> loose (set_tag (tag_of_value heap v) m) v.
  Proof.
    intros Tg L Nt. destruct L as [m v S|m s S U|m s U|m b U|m t v U L|m e l' U M L|m km vm d U M L1 L2|m n U Rn].
    - apply lo_strict. exact S.
    - apply lo_str; [exact S|]. rewrite m_tag_set_tag. right. left. reflexivity.
    - exfalso. rewrite Tg in U. destruct U as [U|[U|[]]]; discriminate U.
    - apply lo_bytes. rewrite m_tag_set_tag. right. left. reflexivity.
    - destruct (Nt t v eq_refl).
    - apply (lo_list _ _ _ e); [rewrite m_tag_set_tag; right; left; reflexivity| |exact L]. unfold member_meta in *. rewrite m_kind_set_tag. exact M.
    - apply (lo_dict _ _ _ km vm); [rewrite m_tag_set_tag; right; left; reflexivity| |exact L1|exact L2]. unfold pair_meta in *. rewrite m_kind_set_tag. exact M.
    - apply lo_obj; [|exact Rn]. rewrite m_tag_set_tag. cbn [tag_of_value]. destruct (nth_error heap n) as [[g|c a]|]; [right; right; left|right; left|right; left]; reflexivity.
  Qed.
  Lemma set_same_tag m : set_tag (m_tag m) m = m. Proof. destruct m. reflexivity. Qed.
  Theorem ser_safe fuel : forall v m st ox m' st', tidy m -> loose m v -> ser ci show classes heap fuel v m st = Ok (ox, m', st') ->
    Forall safe (opt_list ox) /\ tidy m' /\ simk (m_kind m) (m_kind m').
  Proof.
    induction fuel as [|fuel IH]; intros v m st ox m' st' T L H; [discriminate H|].
    rewrite ser_S in H. destruct (is_vxml v) eqn:X.
    - destruct v; try discriminate X. apply Ok_pair_inj in H. destruct H as (H & _). apply pair_inj in H. destruct H as (<- & <-).
      split; [|split; [exact T|apply simk_refl]]. constructor; [|constructor]. apply safe_named; [exact T|].
      inversion L as [m0 v0 S| | | | | | |]; subst. inversion S; subst. split; assumption.
    - destruct (tagged heap v m) as [tag v1] eqn:Tg.
      assert (Q : loose (set_tag tag m) v1 /\ (m_tag m = tag \/ m_tag m = star)).
      { unfold tagged in Tg. destruct (str_eqb (m_tag m) star) eqn:E.
        - apply str_eqb_spec in E. split; [|right; exact E]. destruct v; apply pair_inj in Tg; destruct Tg as (<- & <-); try (apply star_loose; [exact E|exact L|discriminate]).
          inversion L as [m0 v0 S| | | |m0 t0 v0 E0 L0| | |]; subst; [|exact L0]. inversion S; subst. apply lo_strict. assumption.
        - apply pair_inj in Tg. destruct Tg as (<- & <-). rewrite set_same_tag. split; [exact L|left; reflexivity]. }
      destruct Q as (L1 & Tt). pose proof (tidy_tag tag m T Tt) as T1. clear Tg L X v.
      unfold ser_with in H. destruct (existsb (str_eqb tag) known_tags) eqn:Kn; [|discriminate H]. cbn [negb] in H. apply known_nc in Kn.
      assert (Sk : simk (m_kind m) (m_kind (set_tag tag m))) by (rewrite m_kind_set_tag; apply simk_refl).
      destruct (is_vnone v1).
      + destruct (m_optional m); apply Ok_pair_inj in H; destruct H as (H & _); apply pair_inj in H; destruct H as (<- & <-).
        * split; [constructor|]. split; assumption.
        * split; [|split; assumption]. constructor; [|constructor]. apply safe_named; [exact T|]. apply safe_box; [reflexivity|constructor].
      + destruct (pack_text ci show (set_tag tag m) tag v1) as [r|] eqn:Pk.
        * apply bind_ok in H. destruct H as (s & -> & H). apply Ok_pair_inj in H. destruct H as (H & _). apply pair_inj in H. destruct H as (<- & <-).
          split; [|split; assumption]. constructor; [|constructor]. apply safe_named; [exact T|]. apply safe_text; [exact Kn|].
          exact (pack_raw _ _ _ _ L1 (m_tag_set_tag tag m) Pk).
        * apply bind_ok in H. destruct H as ([[x m2] st1] & H1 & H). apply Ok_pair_inj in H. destruct H as (H & _). apply pair_inj in H. destruct H as (<- & <-).
          destruct (struct_safe _ IH _ _ _ _ _ _ _ T1 (m_tag_set_tag tag m) L1 H1) as (A & B & C). rewrite m_kind_set_tag in C.
          split; [|split; assumption]. constructor; [|constructor]. apply safe_named; assumption.
  Qed.
  Theorem serialize_safe fuel v m x : tidy m -> loose m v -> serialize ci show classes heap fuel v m = Ok (Some x) -> writable x /\ unreturned x.
  Proof.
    intros T L H. unfold serialize in H. apply bind_ok in H. destruct H as ([[ox m'] st'] & H & K). apply Ok_inj in K. subst ox.
    destruct (ser_safe _ _ _ _ _ _ _ T L H) as (S & _). exact (Forall_inv S).
  Qed.
End Writer.
