(* Lemmas about the ids that reading a document makes known. *)
From Verif Require Import Base BaseProofs Lit TextModel MsgModel XmlModel SerModel SerSpec SerProofs2.

Lemma nodes_child c x y : In c (x_children x) -> In y (nodes c) -> In y (nodes x).
Proof. destruct x as [t a s cs]. cbn [x_children nodes]. intros H K. right. apply in_flat_map. exists c. auto. Qed.
Lemma nodes_self x : In x (nodes x).
Proof. destruct x. left. reflexivity. Qed.
Lemma nodes_find path : forall x e y, In e (find_all path x) -> In y (nodes e) -> In y (nodes x).
Proof.
  induction path as [|t path IH]; cbn [find_all]; intros x e y H K.
  - destruct H as [->|[]]. exact K.
  - apply in_flat_map in H. destruct H as (c & Hc & He). apply filter_In in Hc. destruct Hc as (Hc & _).
    exact (nodes_child c x y Hc (IH c e y He K)).
Qed.

Section Ids.
  Context (ci : option cipher) (xml_text : xml -> list N) (float_of : list N -> res (list N)) (classes : list N -> option cdesc).
  Context (A B : list N -> Prop).

  Definition inside (x : xml) : Prop := (forall id, introduces id x -> A id) /\ (forall id, introduces_types id x -> B id).
  Definition within (st st' : dst) : Prop :=
    (forall id, dict_get str_eqb id (d_obj st') <> None -> dict_get str_eqb id (d_obj st) <> None \/ A id) /\
    (forall id, dict_get str_eqb id (d_tn st') <> None -> dict_get str_eqb id (d_tn st) <> None \/ B id).

  Lemma within_refl st : within st st.
  Proof. split; auto. Qed.
  Lemma within_trans a b c : within a b -> within b c -> within a c.
  Proof.
    intros (P & Q) (R & S'). split; intros id H.
    - destruct (R id H) as [K|K]; [exact (P id K)|right; exact K].
    - destruct (S' id H) as [K|K]; [exact (Q id K)|right; exact K].
  Qed.
  Lemma within_heap st h : within st (set_d_heap h st).
  Proof. split; cbn [set_d_heap d_obj d_tn]; auto. Qed.
  Lemma within_upd st n f : within st (upd_obj n f st).
  Proof. apply within_heap. Qed.
  Lemma within_obj st id v : A id -> within st (obj_put id v st).
  Proof.
    intros H. split; cbn [obj_put set_d_obj d_obj d_tn]; [|auto]. intros id' K. destruct (str_eqb id id') eqn:E.
    - apply str_eqb_spec in E. subst id'. right. exact H.
    - left. rewrite (dict_get_set_other str_eqb str_eqb_spec) in K; [exact K|]. intros ->. rewrite str_eqb_refl in E. discriminate E.
  Qed.
  Lemma within_tn st id v : B id -> within st (tn_put id v st).
  Proof.
    intros H. split; cbn [tn_put set_d_tn d_obj d_tn]; [auto|]. intros id' K. destruct (str_eqb id id') eqn:E.
    - apply str_eqb_spec in E. subst id'. right. exact H.
    - left. rewrite (dict_get_set_other str_eqb str_eqb_spec) in K; [exact K|]. intros ->. rewrite str_eqb_refl in E. discriminate E.
  Qed.
  Lemma inside_sub e x : (forall y, In y (nodes e) -> In y (nodes x)) -> inside x -> inside e.
  Proof. intros H (P & Q). split; intros id (y & Hy & K); [apply P|apply Q]; exists y; auto. Qed.
  Lemma inside_child c x : In c (x_children x) -> inside x -> inside c.
  Proof. intros H. apply inside_sub. intros y. exact (nodes_child c x y H). Qed.
  Lemma inside_find path e x : In e (find_all path x) -> inside x -> inside e.
  Proof. intros H. apply inside_sub. intros y. exact (nodes_find path x e y H). Qed.
  Lemma attrib_some k x id : attrib k x = Ok id -> attr_get k x = Some id.
  Proof. unfold attrib. destruct (attr_get k x) as [v|]; [|intros H; discriminate H]. intros H. apply Ok_inj in H. subst v. reflexivity. Qed.
  Lemma inside_obj x id : inside x -> x_tag x <> lit "Ref" -> attrib refid x = Ok id -> A id.
  Proof. intros (P & _) T H. apply P. exists x. split; [apply nodes_self|]. split; [exact T|]. apply attrib_some. exact H. Qed.
  Lemma inside_tn x id : inside x -> x_tag x = lit "TN" -> attrib refid x = Ok id -> B id.
  Proof. intros (_ & Q) T H. apply Q. exists x. split; [apply nodes_self|]. split; [exact T|]. apply attrib_some. exact H. Qed.

  Lemma child_some t x e : child t x = Some e -> In e (find_all [t] x) /\ x_tag e = t.
  Proof.
    unfold child, find_first. destruct (find_all [t] x) as [|y l] eqn:F; [intros H; discriminate H|]. intros H. apply Some_inj in H. subst y.
    split; [left; reflexivity|]. assert (I : In e (find_all [t] x)) by (rewrite F; left; reflexivity).
    cbn [find_all] in I. apply in_flat_map in I. destruct I as (c & Hc & [->|[]]). apply filter_In in Hc. apply str_eqb_spec. exact (proj2 Hc).
  Qed.
  Lemma types_within x st ts st' : inside x -> get_types x st = Ok (ts, st') -> within st st'.
  Proof.
    intros I H. unfold get_types in H. apply bind_ok in H. destruct H as (st1 & H1 & H2).
    assert (W : within st st1).
    { clear H2. destruct (map _ (find_all [lit "TN"; lit "T"] x)) as [|t0 l0]; [apply Ok_inj in H1; subst st1; apply within_refl|].
      destruct (child (lit "TN") x) as [tn|] eqn:C; [|apply Ok_inj in H1; subst st1; apply within_refl].
      apply bind_ok in H1. destruct H1 as (id & Hid & H1). apply Ok_inj in H1. subst st1. apply within_tn.
      apply child_some in C. destruct C as (C & T). exact (inside_tn tn id (inside_find _ _ _ C I) T Hid). }
    destruct (child (lit "TNRef") x) as [r|]; [|apply Ok_pair_inj in H2; destruct H2 as (_ & <-); exact W].
    apply bind_ok in H2. destruct H2 as (id & _ & H2). apply bind_ok in H2. destruct H2 as (t & _ & H2).
    apply Ok_pair_inj in H2. destruct H2 as (_ & <-). exact W.
  Qed.

  Section Rec.
    Context (rec : xml -> meta -> dst -> res (value * meta * dst)).
    Context (IH : forall x m st v m' st', inside x -> rec x m st = Ok (v, m', st') -> within st st').

    Lemma property_find group m x e : find_property group m x = Some e -> exists t n, find_in group t n x = Some e.
    Proof.
      unfold find_property. generalize (wanted_tags m). intros l.
      assert (K : forall l r, (forall e, r = Some e -> exists t n, find_in group t n x = Some e) ->
        forall e, fold_left (fun r t => match r with Some _ => r | None => find_in group t (m_name m) x end) l r = Some e -> exists t n, find_in group t n x = Some e).
      { clear e l. intros l. induction l as [|t l IHl]; cbn [fold_left]; intros r Hr e He; [exact (Hr e He)|].
        apply (IHl _) in He; [exact He|]. intros e'. destruct r as [r|]; [exact (Hr e')|]. eauto. }
      apply K. intros e' H. discriminate H.
    Qed.
    Lemma find_in_inside group t n x e : inside x -> find_in group t n x = Some e -> inside e.
    Proof.
      intros I H. unfold find_in in H. apply find_some in H. destruct H as (H & _). apply in_flat_map in H. destruct H as (p & Hp & He).
      apply (inside_child e p He). exact (inside_find group p x Hp I).
    Qed.
    Lemma property_within d group x n a m st st' : inside x -> des_property rec d group x n a m st = Ok st' -> within st st'.
    Proof.
      intros I H. unfold des_property in H. destruct (find_property group m x) as [e|] eqn:F.
      - apply property_find in F. destruct F as (t & nm & F). apply (find_in_inside _ _ _ _ _ I) in F.
        apply bind_ok in H. destruct H as ([[v m'] st1] & H1 & H). apply Ok_inj in H. subst st'.
        eapply within_trans; [exact (IH _ _ _ _ _ _ F H1)|apply within_upd].
      - destruct (m_optional m); [apply Ok_inj in H; subst st'; apply within_upd|].
        destruct (find_in group (lit "Nil") (m_name m) x); [apply Ok_inj in H; subst st'; apply within_upd|].
        destruct (cd_text d (attrs_of n st)); discriminate H.
    Qed.
    Lemma properties_within d group x n props : inside x -> forall st st', des_properties rec d group x n props st = Ok st' -> within st st'.
    Proof.
      intros I. induction props as [|[a m] props IHp]; cbn [des_properties]; intros st st' H; [apply Ok_inj in H; subst st'; apply within_refl|].
      apply bind_ok in H. destruct H as (st1 & H1 & H2). eapply within_trans; [exact (property_within _ _ _ _ _ _ _ _ I H1)|exact (IHp _ _ H2)].
    Qed.
    Lemma des_obj_within x m st v st' : inside x -> x_tag x <> lit "Ref" -> des_obj classes rec x m st = Ok (v, st') -> within st st'.
    Proof.
      intros I T H. unfold des_obj in H.
      destruct (match m_object m with Some c => match classes c with Some d => Some (c, d) | None => None end | None => None end) as [[c d]|]; [|discriminate H].
      cbn [new_obj] in H. apply bind_ok in H. destruct H as (id & Hid & H). apply bind_ok in H. destruct H as (st3 & H3 & H).
      apply bind_ok in H. destruct H as (st4 & H4 & H). apply bind_ok in H. destruct H as (st5 & H5 & H). apply bind_ok in H. destruct H as (st6 & H6 & H).
      apply Ok_pair_inj in H. destruct H as (_ & <-).
      eapply within_trans; [|exact (properties_within _ _ _ _ _ I _ _ H6)]. eapply within_trans; [|exact (properties_within _ _ _ _ _ I _ _ H5)].
      eapply within_trans; [|exact (properties_within _ _ _ _ _ I _ _ H4)]. clear H4 H5 H6.
      eapply within_trans; [apply within_heap|]. eapply within_trans; [apply (within_obj _ id); exact (inside_obj _ _ I T Hid)|].
      destruct (child (lit "ToString") x) as [t|]; [|apply Ok_inj in H3; subst st3; apply within_refl].
      apply bind_ok in H3. destruct H3 as (s & _ & H3). apply Ok_inj in H3. subst st3. apply within_upd.
    Qed.

    Lemma named_within put xs : (forall k v st, within st (put k v st)) -> Forall inside xs -> forall st st',
      des_named rec xs put st = Ok st' -> within st st'.
    Proof.
      intros P F. induction F as [|x xs Hx _ IHx]; cbn [des_named]; intros st st' H; [apply Ok_inj in H; subst st'; apply within_refl|].
      apply bind_ok in H. destruct H as (k & _ & H). apply bind_ok in H. destruct H as ([[v m'] st1] & H1 & H).
      eapply within_trans; [exact (IH _ _ _ _ _ _ Hx H1)|]. eapply within_trans; [apply P|exact (IHx _ _ H)].
    Qed.
    Lemma inside_children x : inside x -> Forall inside (x_children x).
    Proof. intros I. apply Forall_forall. intros c Hc. exact (inside_child c x Hc I). Qed.
    Lemma children_within n xs : Forall inside xs -> forall st st', des_children rec n xs st = Ok st' -> within st st'.
    Proof.
      intros F. induction F as [|x xs Hx _ IHx]; cbn [des_children]; intros st st' H; [apply Ok_inj in H; subst st'; apply within_refl|].
      apply bind_ok in H. destruct H as (st1 & H1 & H). apply (within_trans _ st1); [|exact (IHx _ _ H)]. clear H IHx.
      destruct (str_eqb (x_tag x) (lit "TN")) eqn:E1.
      { apply str_eqb_spec in E1. apply bind_ok in H1. destruct H1 as (id & Hid & H1). apply Ok_inj in H1. subst st1.
        eapply within_trans; [apply within_upd|]. apply within_tn. exact (inside_tn _ _ Hx E1 Hid). }
      destruct (str_eqb (x_tag x) (lit "TNRef")).
      { apply bind_ok in H1. destruct H1 as (id & _ & H1). apply bind_ok in H1. destruct H1 as (ts & _ & H1). apply Ok_inj in H1. subst st1. apply within_upd. }
      destruct (str_eqb (x_tag x) (lit "Props")).
      { eapply named_within; [|apply inside_children; exact Hx|exact H1]. intros k v s. apply within_upd. }
      destruct (str_eqb (x_tag x) (lit "MS")).
      { eapply named_within; [|apply inside_children; exact Hx|exact H1]. intros k v s. apply within_upd. }
      destruct (str_eqb (x_tag x) (lit "ToString")).
      - apply bind_ok in H1. destruct H1 as ([[v m'] st2] & H1 & H2). apply Ok_inj in H2. subst st1.
        eapply within_trans; [exact (IH _ _ _ _ _ _ Hx H1)|apply within_upd].
      - apply bind_ok in H1. destruct H1 as ([[v m'] st2] & H1 & H2). apply Ok_inj in H2. subst st1.
        eapply within_trans; [exact (IH _ _ _ _ _ _ Hx H1)|apply within_upd].
    Qed.
    Lemma des_dynamic_within x m st v st' : inside x -> x_tag x <> lit "Ref" -> des_dynamic rec x m st = Ok (v, st') -> within st st'.
    Proof.
      intros I T H. unfold des_dynamic in H. destruct (m_object m) as [c|]; [|discriminate H]. destruct (str_eqb c generic_name); [|discriminate H].
      cbn [new_obj] in H. apply bind_ok in H. destruct H as (id & Hid & H). apply bind_ok in H. destruct H as (st2 & H2 & H).
      apply Ok_pair_inj in H. destruct H as (_ & <-). eapply within_trans; [|exact (children_within _ _ (inside_children _ I) _ _ H2)].
      eapply within_trans; [apply within_heap|]. apply within_obj. exact (inside_obj _ _ I T Hid).
    Qed.
    Lemma des_entries_within xs : Forall inside xs -> forall m st vs m' st', des_entries rec m xs st = Ok (vs, m', st') -> within st st'.
    Proof.
      intros F. induction F as [|x xs Hx _ IHx]; cbn [des_entries]; intros m st vs m' st' H.
      { apply Ok_pair_inj in H. destruct H as (_ & <-). apply within_refl. }
      apply bind_ok in H. destruct H as ([[v m1] st1] & H1 & H). apply bind_ok in H. destruct H as ([[vs' m2] st2] & H2 & H).
      apply Ok_pair_inj in H. destruct H as (_ & <-). eapply within_trans; [exact (IH _ _ _ _ _ _ Hx H1)|exact (IHx _ _ _ _ _ H2)].
    Qed.
    Lemma inside_entries t x : inside x -> Forall inside (entries_of t x).
    Proof.
      intros I. unfold entries_of. destruct (child t x) as [e|] eqn:C; [|constructor]. apply child_some in C. destruct C as (C & _).
      apply inside_children. exact (inside_find _ _ _ C I).
    Qed.
    Lemma part_within name en st v st' : inside en -> des_part rec name en st = Ok (v, st') -> within st st'.
    Proof.
      intros I H. unfold des_part in H. destruct (find_in [] star (Some name) en) as [x|] eqn:F.
      - apply (find_in_inside _ _ _ _ _ I) in F. apply bind_ok in H. destruct H as ([[w m] st1] & H1 & H).
        apply Ok_pair_inj in H. destruct H as (_ & <-). exact (IH _ _ _ _ _ _ F H1).
      - apply Ok_pair_inj in H. destruct H as (_ & <-). apply within_refl.
    Qed.
    Lemma pairs_within ens : Forall inside ens -> forall d st d' st', des_pairs rec ens d st = Ok (d', st') -> within st st'.
    Proof.
      intros F. induction F as [|x xs Hx _ IHx]; cbn [des_pairs]; intros d st d' st' H.
      { apply Ok_pair_inj in H. destruct H as (_ & <-). apply within_refl. }
      apply bind_ok in H. destruct H as ([k st1] & H1 & H). apply bind_ok in H. destruct H as ([v st2] & H2 & H).
      destruct (hashable k); [|discriminate H].
      eapply within_trans; [exact (part_within _ _ _ _ _ Hx H1)|]. eapply within_trans; [exact (part_within _ _ _ _ _ Hx H2)|exact (IHx _ _ _ _ H)].
    Qed.
    Lemma des_struct_within x m st v m' st' : inside x -> x_tag x <> lit "Ref" ->
      des_struct xml_text classes rec x m st = Ok (v, m', st') -> within st st'.
    Proof.
      intros I T H. unfold des_struct in H.
      destruct (str_eqb (m_tag m) (lit "Obj")).
      { apply bind_ok in H. destruct H as ([w st1] & H1 & H). apply Ok_pair_inj in H. destruct H as (_ & <-). exact (des_obj_within _ _ _ _ _ I T H1). }
      destruct (str_eqb (m_tag m) (lit "ObjDynamic")).
      { apply bind_ok in H. destruct H as ([w st1] & H1 & H). apply Ok_pair_inj in H. destruct H as (_ & <-). exact (des_dynamic_within _ _ _ _ _ I T H1). }
      destruct (str_eqb (m_tag m) (lit "LST")).
      { unfold des_lst in H. apply bind_ok in H. destruct H as ([[vs e] st1] & H1 & H). apply Ok_pair_inj in H. destruct H as (_ & <-).
        exact (des_entries_within _ (inside_entries _ _ I) _ _ _ _ _ H1). }
      destruct (str_eqb (m_tag m) (lit "QUE")).
      { apply bind_ok in H. destruct H as ([w st1] & H1 & H). apply Ok_pair_inj in H. destruct H as (_ & <-).
        unfold des_que in H1. apply bind_ok in H1. destruct H1 as ([[vs e] st2] & H1 & H2). apply Ok_pair_inj in H2. destruct H2 as (_ & <-).
        exact (des_entries_within _ (inside_entries _ _ I) _ _ _ _ _ H1). }
      destruct (str_eqb (m_tag m) (lit "STK")).
      { apply bind_ok in H. destruct H as ([w st1] & H1 & H). apply Ok_pair_inj in H. destruct H as (_ & <-).
        unfold des_stk in H1. apply bind_ok in H1. destruct H1 as ([[vs e] st2] & H1 & H2). apply Ok_pair_inj in H2. destruct H2 as (_ & <-).
        exact (des_entries_within _ (inside_entries _ _ I) _ _ _ _ _ H1). }
      destruct (str_eqb (m_tag m) (lit "DCT")).
      { apply bind_ok in H. destruct H as ([w st1] & H1 & H). apply Ok_pair_inj in H. destruct H as (_ & <-).
        unfold des_dct in H1. apply bind_ok in H1. destruct H1 as ([vs st2] & H1 & H2). apply Ok_pair_inj in H2. destruct H2 as (_ & <-).
        eapply pairs_within; [|exact H1]. apply Forall_forall. intros e He. exact (inside_find _ _ _ He I). }
      apply Ok_pair_inj in H. destruct H as (_ & <-). apply within_refl.
    Qed.
  End Rec.

  Lemma primitive_ref x st : x_tag x = lit "Ref" ->
    primitive ci float_of x st = Some (do id <- attrib refid x; match dict_get str_eqb id (d_obj st) with Some v => Ok v | None => Err KeyError end).
  Proof. intros T. unfold primitive. rewrite T. reflexivity. Qed.
  Lemma des_within fuel : forall x m st v m' st', inside x -> des ci xml_text float_of classes fuel x m st = Ok (v, m', st') -> within st st'.
  Proof.
    induction fuel as [|fuel IH]; cbn [des]; intros x m st v m' st' I H; [discriminate H|].
    apply bind_ok in H. destruct H as ([types st1] & H1 & H). pose proof (types_within _ _ _ _ I H1) as W1.
    eapply within_trans; [exact W1|]. clear H1 W1 st.
    destruct (primitive ci float_of x st1) as [r|] eqn:Pr.
    { apply bind_ok in H. destruct H as (w & _ & H). apply Ok_pair_inj in H. destruct H as (_ & <-). apply within_refl. }
    assert (T : x_tag x <> lit "Ref") by (intros T; rewrite (primitive_ref x st1 T) in Pr; discriminate Pr).
    apply bind_ok in H. destruct H as ([[w m2] st2] & H1 & H).
    assert (W2 : within st1 st2).
    { clear H. destruct (is_plain _ && SerModel.is_none _)%bool.
      - apply bind_ok in H1. destruct H1 as (c & _ & H1). destruct c as [cm|].
        + apply bind_ok in H1. destruct H1 as ([[u mu] st4] & H1 & H2). apply Ok_pair_inj in H2. destruct H2 as (_ & <-).
          exact (des_struct_within _ IH _ _ _ _ _ _ I T H1).
        + apply Ok_pair_inj in H1. destruct H1 as (_ & <-). apply within_refl.
      - exact (des_struct_within _ IH _ _ _ _ _ _ I T H1). }
    eapply within_trans; [exact W2|]. apply bind_ok in H. destruct H as (st3 & H3 & H). apply Ok_pair_inj in H. destruct H as (_ & <-).
    destruct (str_eqb (x_tag x) (lit "Obj")); [|apply Ok_inj in H3; subst st3; apply within_refl].
    apply bind_ok in H3. destruct H3 as (id & Hid & H3). apply Ok_inj in H3. subst st3. apply within_obj. exact (inside_obj _ _ I T Hid).
  Qed.
End Ids.

(* ---- a list with an entry that refers to nothing ---- *)
Lemma entries_stop A B rec y post : 
  (forall x m st v m' st', inside A B x -> rec x m st = Ok (v, m', st') -> within A B st st') ->
  forall pre, Forall (inside A B) pre -> forall m st,
  (forall m st1, within A B st st1 -> exists e, rec y m st1 = Err e) ->
  exists e, des_entries rec m (pre ++ y :: post) st = Err e.
Proof.
  intros IH pre F. induction F as [|x pre Hx _ IHx]; cbn [app des_entries]; intros m st Hy.
  - destruct (Hy (match m with Some m => m | None => any_meta end) st (within_refl _ _ st)) as (e & ->). cbn [bind]. eauto.
  - destruct (rec x _ st) as [[[v m1] st1]|e] eqn:R; cbn [bind]; [|eauto]. apply (IH _ _ _ _ _ _ Hx) in R.
    destruct (IHx (match m with Some _ => Some m1 | None => None end) st1) as (e & ->); [|cbn [bind]; eauto].
    intros m' st2 W. apply Hy. exact (within_trans _ _ _ _ _ R W).
Qed.
Definition list_doc (id tid : list N) (entries : list xml) : xml :=
  Elem (lit "Obj") [(lit "RefId", id)] None
    [Elem (lit "TN") [(lit "RefId", tid)] None [Elem (lit "T") [] (Some (lit "System.Object[]")) []]; Elem (lit "LST") [] None entries].
Lemma choose_objects : exists cm, choose [lit "System.Object[]"] = Ok (Some (list_meta None false cm)).
Proof. eexists. vm_compute. reflexivity. Qed.
Lemma des_list_doc ci xml_text float_of classes fuel heap id tid entries : (forall m,
    exists e, des_entries (des ci xml_text float_of classes fuel) m entries (tn_put tid [lit "System.Object[]"] (clear_dst heap)) = Err e) ->
  exists e, des ci xml_text float_of classes (S fuel) (list_doc id tid entries) any_meta (clear_dst heap) = Err e.
Proof.
  intros H. cbn [des].
  change (get_types (list_doc id tid entries) (clear_dst heap)) with (Ok ([lit "System.Object[]"], tn_put tid [lit "System.Object[]"] (clear_dst heap))).
  cbn [bind]. change (primitive ci float_of (list_doc id tid entries) _) with (@None (res value)). cbv iota.
  change (is_plain _ && SerModel.is_none _)%bool with true. cbv iota. destruct choose_objects as (cm & ->). cbn [bind].
  change (des_struct xml_text classes ?rec (list_doc id tid entries) (list_meta None false cm) ?st) with (des_lst rec (list_doc id tid entries) (list_meta None false cm) st).
  unfold des_lst. change (entries_of (lit "LST") (list_doc id tid entries)) with entries.
  destruct (H (match list_info (list_meta None false cm) with Some i => Some (fst i) | None => None end)) as (e & ->). cbn [bind]. eauto.
Qed.
Lemma ref_fails ci xml_text float_of classes fuel r st m : dict_get str_eqb r (d_obj st) = None ->
  exists e, des ci xml_text float_of classes fuel (Elem (lit "Ref") [(lit "RefId", r)] None []) m st = Err e.
Proof.
  intros H. destruct fuel as [|fuel]; cbn [des]; [eauto|]. change (get_types _ st) with (Ok (@nil (list N), st)). cbn [bind].
  rewrite primitive_ref by reflexivity. change (attrib refid _) with (Ok r). cbn [bind]. rewrite H. cbn [bind]. eauto.
Qed.
Lemma types_fail ci xml_text float_of classes fuel r a s cs st m : dict_get str_eqb r (d_tn st) = None ->
  Forall (fun c => ~ introduces_types r c) cs ->
  exists e, des ci xml_text float_of classes fuel (Elem (lit "Obj") a s (Elem (lit "TNRef") [(lit "RefId", r)] None [] :: cs)) m st = Err e.
Proof.
  intros H F. destruct fuel as [|fuel]; cbn [des]; [eauto|].
  set (x := Elem (lit "Obj") a s _). enough (E : exists e, get_types x st = Err e) by (destruct E as (e & ->); cbn [bind]; eauto).
  unfold get_types.
  assert (K : forall st1 ts, dict_get str_eqb r (d_tn st1) = None -> exists e, match child (lit "TNRef") x with
    | Some r => do id <- attrib refid r; do ts' <- tn_get id st1; Ok (ts', st1) | None => Ok (ts, st1) end = Err e).
  { intros st1 ts K. change (child (lit "TNRef") x) with (Some (Elem (lit "TNRef") [(lit "RefId", r)] None [])). cbv iota.
    change (attrib refid _) with (Ok r). cbn [bind]. unfold tn_get. rewrite K. cbn [bind]. eauto. }
  destruct (map _ (find_all [lit "TN"; lit "T"] x)) as [|t0 l0]; cbn [bind]; [apply K; exact H|].
  destruct (child (lit "TN") x) as [tn|] eqn:C; cbn [bind]; [|apply K; exact H].
  destruct (attrib refid tn) as [id|e] eqn:Hid; cbn [bind]; [|eauto]. apply K. cbn [tn_put set_d_tn d_tn].
  rewrite (dict_get_set_other str_eqb str_eqb_spec); [exact H|]. intros ->.
  apply child_some in C. destruct C as (C & T). cbn [find_all] in C. apply in_flat_map in C. destruct C as (c & Hc & [->|[]]).
  apply filter_In in Hc. destruct Hc as (Hc & _). unfold x in Hc. cbn [x_children] in Hc. destruct Hc as [<-|Hc]; [discriminate T|].
  rewrite Forall_forall in F. apply (F tn Hc). exists tn. split; [apply nodes_self|]. split; [exact T|]. apply attrib_some. exact Hid.
Qed.
Lemma dangling ci xml_text float_of classes heap id tid pre y post r :
  (y = Elem (lit "Ref") [(lit "RefId", r)] None [] /\ Forall (fun e => ~ introduces r e) pre) \/
  (exists a s cs, y = Elem (lit "Obj") a s (Elem (lit "TNRef") [(lit "RefId", r)] None [] :: cs) /\
     Forall (fun e => ~ introduces_types r e) (pre ++ cs) /\ tid <> r) ->
  exists e, deserialize ci xml_text float_of classes heap (list_doc id tid (pre ++ y :: post)) any_meta = Err e.
Proof.
  intros H. unfold deserialize. destruct (depth_S (list_doc id tid (pre ++ y :: post))) as (k & ->).
  enough (E : exists e, des ci xml_text float_of classes (S k) (list_doc id tid (pre ++ y :: post)) any_meta (clear_dst heap) = Err e)
    by (destruct E as (e & ->); cbn [bind]; eauto).
  apply des_list_doc. intros m. destruct H as [(-> & F)|(a & s & cs & -> & F & Ht)].
  - apply (entries_stop (fun i => i <> r) (fun _ => True)).
    + apply des_within.
    + eapply Forall_impl; [|exact F]. intros e He. split; [|auto]. intros i Hi ->. exact (He Hi).
    + intros m' st1 (W & _). apply ref_fails. destruct (dict_get str_eqb r (d_obj st1)) eqn:G; [|reflexivity]. exfalso.
      destruct (W r) as [K|K]; [congruence|exact (K eq_refl)|exact (K eq_refl)].
  - apply Forall_app in F. destruct F as (F & Fc). apply (entries_stop (fun _ => True) (fun i => i <> r)).
    + apply des_within.
    + eapply Forall_impl; [|exact F]. intros e He. split; [auto|]. intros i Hi ->. exact (He Hi).
    + intros m' st1 (_ & W). apply types_fail; [|exact Fc]. destruct (dict_get str_eqb r (d_tn st1)) eqn:G; [|reflexivity]. exfalso.
      destruct (W r) as [K|K]; [congruence| |exact (K eq_refl)]. apply K. cbn [tn_put set_d_tn d_tn clear_dst].
      rewrite (dict_get_set_other str_eqb str_eqb_spec); [reflexivity|exact (not_eq_sym Ht)].
Qed.
Lemma lone_ref ci xml_text float_of classes heap r m :
  deserialize ci xml_text float_of classes heap (Elem (lit "Ref") [(lit "RefId", r)] None []) m = Err KeyError.
Proof. reflexivity. Qed.
