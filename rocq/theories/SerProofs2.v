(* Lemmas about the serializer: scalars, and the properties of known classes. *)
From Coq Require Import Lia ZifyBool ZifyNat ZifyN.
From Verif Require Import Base BaseProofs Lit NumModel NumProofs TextModel MsgModel XmlModel TextSpec SerModel SerSpec.

Lemma tag_in_spec t l : tag_in t l = true <-> In t (map lit l).
Proof.
  unfold tag_in. rewrite existsb_exists, in_map_iff. split; intros (s & A & B).
  - exists s. apply str_eqb_spec in B. auto.
  - exists s. split; [exact B|]. apply str_eqb_spec. auto.
Qed.

Lemma depth_S x : exists k, depth x = S k.
Proof. destruct x. eexists. reflexivity. Qed.
(* ---- depth ---- *)
Lemma depth_child x c : In c (x_children x) -> (depth c < depth x)%nat.
Proof.
  destruct x as [t a s cs]. cbn [x_children depth]. intros H. apply le_n_S.
  induction cs as [|y cs IH]; [destruct H|]. cbn [fold_right]. destruct H as [->|H]; [lia|]. specialize (IH H). lia.
Qed.

(* ---- find ---- *)
Definition path_of (g : option (list N)) : list (list N) := match g with None => [] | Some g => [g] end.
Lemma member_in g x e : In e (flat_map x_children (find_all (path_of g) x)) <-> member g x e.
Proof.
  destruct g as [g|]; cbn [path_of find_all member].
  - rewrite in_flat_map. split.
    + intros (p & Hp & He). apply in_flat_map in Hp. destruct Hp as (q & Hq & [<-|[]]). apply filter_In in Hq.
      destruct Hq as (Hq & Ht). apply str_eqb_spec in Ht. exists q. auto.
    + intros (p & Hp & Ht & He). exists p. split; [|exact He]. apply in_flat_map. exists p. split; [|left; reflexivity].
      apply filter_In. split; [exact Hp|]. apply str_eqb_spec. exact Ht.
  - cbn [flat_map]. rewrite app_nil_r. reflexivity.
Qed.
Lemma matches_fits t n e : matches t n e = true <-> fits t n e.
Proof.
  unfold matches, fits. rewrite Bool.andb_true_iff, Bool.orb_true_iff, !str_eqb_spec.
  destruct n as [n|]; [|tauto]. destruct (attr_get (lit "N") e) as [v|].
  - rewrite str_eqb_spec. split; intros (A & B); split; auto; congruence.
  - split; intros (A & B); discriminate.
Qed.
Lemma find_in_some g t n x e : find_in (path_of g) t n x = Some e -> member g x e /\ fits t n e.
Proof. intros H. apply find_some in H. destruct H as (A & B). split; [apply member_in; exact A|apply matches_fits; exact B]. Qed.
Lemma find_in_none g t n x : find_in (path_of g) t n x = None -> forall e, member g x e -> ~ fits t n e.
Proof.
  intros H e He Hf. apply member_in in He. apply matches_fits in Hf. pose proof (find_none _ _ H e He). congruence.
Qed.
Lemma wanted_tags_spec m : wanted_tags m = property_tags m.
Proof.
  unfold wanted_tags, property_tags, tag_in. 
  replace (existsb (str_eqb (m_tag m)) _) with
    (existsb (fun s => str_eqb (m_tag m) (lit s)) ["DCT"; "LST"; "IE"; "QUE"; "STK"; "ObjDynamic"]%string); reflexivity.
Qed.
Lemma fold_find g n x ts : forall r, 
  fold_left (fun r t => match r with Some _ => r | None => find_in (path_of g) t n x end) ts r =
  match r with Some _ => r | None => fold_left (fun r t => match r with Some _ => r | None => find_in (path_of g) t n x end) ts None end.
Proof.
  induction ts as [|t ts IH]; intros r; cbn [fold_left]; [destruct r; reflexivity|].
  rewrite IH. destruct r; [reflexivity|]. symmetry. apply IH.
Qed.
Lemma find_property_some g m x e : find_property (path_of g) m x = Some e ->
  member g x e /\ exists t, In t (property_tags m) /\ fits t (m_name m) e.
Proof.
  unfold find_property. rewrite wanted_tags_spec. generalize (property_tags m). intros ts. induction ts as [|t ts IH]; cbn [fold_left]; [discriminate|].
  rewrite fold_find. destruct (find_in (path_of g) t (m_name m) x) as [e'|] eqn:F; intros H.
  - apply Some_inj in H. subst e'. apply find_in_some in F. destruct F as (A & B). split; [exact A|]. exists t. split; [left; reflexivity|exact B].
  - destruct (IH H) as (A & t' & B & C). split; [exact A|]. exists t'. split; [right; exact B|exact C].
Qed.
Lemma find_property_none g m x : find_property (path_of g) m x = None -> ~ present g m x.
Proof.
  unfold find_property, present. rewrite wanted_tags_spec. generalize (property_tags m). intros ts.
  induction ts as [|t ts IH]; cbn [fold_left]; [intros _ (e & t & _ & [] & _)|].
  rewrite fold_find. destruct (find_in (path_of g) t (m_name m) x) as [e'|] eqn:F; intros H; [discriminate|].
  intros (e & t' & A & [<-|B] & C).
  - exact (find_in_none _ _ _ _ F e A C).
  - apply (IH H). exists e, t'. auto.
Qed.

Lemma find_property_present g m x : present g m x -> exists e, find_property (path_of g) m x = Some e.
Proof.
  intros H. destruct (find_property (path_of g) m x) as [e|] eqn:F; [eauto|]. destruct (find_property_none _ _ _ F H).
Qed.
Lemma present_depth g x e : member g x e -> (depth e < depth x)%nat.
Proof.
  destruct g as [g|]; cbn [member]; [|apply depth_child]. intros (p & Hp & _ & He).
  apply depth_child in Hp. apply depth_child in He. lia.
Qed.

(* ---- the instances only grow ---- *)
Definition grows (h h' : list hobj) : Prop := exists e, h' = h ++ e.
Lemma grows_refl h : grows h h. Proof. exists []. symmetry. apply app_nil_r. Qed.
Lemma grows_trans a b c : grows a b -> grows b c -> grows a c.
Proof. intros (e & ->) (f & ->). exists (e ++ f). symmetry. apply app_assoc. Qed.
Lemma upd_nth_at {A} (f : A -> A) h o e : upd_nth (length h) f (h ++ o :: e) = h ++ f o :: e.
Proof. induction h as [|a h IH]; cbn [length app upd_nth]; [reflexivity|]. rewrite IH. reflexivity. Qed.
Definition at_end (h : list hobj) (st : dst) : Prop := exists o e, d_heap st = h ++ o :: e.
Lemma at_end_grows h st st' : at_end h st -> grows (d_heap st) (d_heap st') -> at_end h st'.
Proof. intros (o & e & A) (f & B). exists o, (e ++ f). rewrite B, A, <- app_assoc. reflexivity. Qed.
Lemma at_end_upd h st f : at_end h st -> at_end h (upd_obj (length h) f st).
Proof. intros (o & e & A). exists (f o), e. unfold upd_obj. cbn [set_d_heap d_heap]. rewrite A. apply upd_nth_at. Qed.
Lemma at_end_final h st : at_end h st -> grows h (d_heap st).
Proof. intros (o & e & A). exists (o :: e). exact A. Qed.


Section Des.
  Context (ci : option cipher) (xml_text : xml -> list N) (float_of : list N -> res (list N)) (classes : list N -> option cdesc).
  Let prim := primitive ci float_of.
  Let desf := des ci xml_text float_of classes.
  Let read := deserialize ci xml_text float_of classes.

  Definition next_meta (x : xml) (m : meta) : meta := if str_eqb (m_tag m) star then set_tag (x_tag x) m else m.

  Lemma get_types_leaf x st : x_children x = [] -> get_types x st = Ok ([], st).
  Proof. intros H. unfold get_types, child, find_first. cbn [find_all]. rewrite H. reflexivity. Qed.

  Lemma scalar_primitive x : In (x_tag x) scalar_tags -> exists r, forall st, prim x st = Some r.
  Proof.
    intros H. destruct x as [t a s c]. cbn [x_tag] in H. unfold scalar_tags in H. cbn [map In] in H.
    unfold prim, primitive.
    repeat (destruct H as [H|H]; [subst t; eexists; intros st; reflexivity|]). destruct H.
  Qed.
  Definition scalar_of (x : xml) : res value := match prim x (clear_dst []) with Some r => r | None => Err OtherError end.
  Lemma des_scalar fuel x m st : scalar_elem x ->
    desf (S fuel) x m st = (do v <- scalar_of x; Ok (v, next_meta x m, st)).
  Proof.
    intros (Hc & Ht). unfold desf. cbn [des]. rewrite (get_types_leaf _ _ Hc). cbn [bind].
    destruct (scalar_primitive x Ht) as (r & Hr). unfold scalar_of. rewrite Hr. fold prim. rewrite Hr. reflexivity.
  Qed.
  Lemma read_scalar heap x m : scalar_elem x -> read heap x m = (do v <- scalar_of x; Ok (v, heap)).
  Proof.
    intros H. unfold read, deserialize. destruct (depth_S x) as (k & ->). fold desf. rewrite (des_scalar _ _ _ _ H).
    destruct (scalar_of x); reflexivity.
  Qed.

  Lemma get_types_heap x st ts st1 : get_types x st = Ok (ts, st1) -> d_heap st1 = d_heap st.
  Proof.
    unfold get_types. intros H. apply bind_ok in H. destruct H as (st2 & H1 & H).
    assert (E : d_heap st2 = d_heap st).
    { destruct (map _ _); [apply Ok_inj in H1; subst; reflexivity|]. destruct (child (lit "TN") x); [|apply Ok_inj in H1; subst; reflexivity].
      apply bind_ok in H1. destruct H1 as (id & _ & H1). apply Ok_inj in H1. subst st2. reflexivity. }
    destruct (child (lit "TNRef") x).
    - apply bind_ok in H. destruct H as (id & _ & H). apply bind_ok in H. destruct H as (ts' & _ & H).
      apply Ok_pair_inj in H. destruct H as (_ & <-). exact E.
    - apply Ok_pair_inj in H. destruct H as (_ & <-). exact E.
  Qed.

  Section Step.
    Context (rec : xml -> meta -> dst -> res (value * meta * dst)).
    Context (Hrec : forall x m st v m' st', rec x m st = Ok (v, m', st') -> grows (d_heap st) (d_heap st')).

    (* what the properties of one group do to the attributes *)
    Lemma properties_spec d g x h c : forall props attrs e st st',
      d_heap st = h ++ HCls c attrs :: e ->
      des_properties rec d (path_of g) x (length h) props st = Ok st' ->
      exists attrs' e', d_heap st' = h ++ HCls c attrs' :: e' /\
        (forall a, ~ In a (map fst props) -> dict_get str_eqb a attrs' = dict_get str_eqb a attrs) /\
        (forall a m, In (a, m) props -> find_property (path_of g) m x = None -> m_optional m = false -> nilled g m x) /\
        (NoDup (map fst props) -> forall a m, In (a, m) props ->
           match find_property (path_of g) m x with
           | None => dict_get str_eqb a attrs' = Some VNone
           | Some p => exists v m' st1 st2, rec p m st1 = Ok (v, m', st2) /\ dict_get str_eqb a attrs' = Some v
           end).
    Proof.
      induction props as [|[a m] props IH]; intros attrs e st st' Hs H; cbn [des_properties] in H.
      - apply Ok_inj in H. subst st'. exists attrs, e. split; [exact Hs|split; [reflexivity|split; [intros a m []|intros _ a m []]]].
      - apply bind_ok in H. destruct H as (st1 & H1 & H).
        assert (K : exists v e1, d_heap st1 = h ++ HCls c (dict_set str_eqb a v attrs) :: e1 /\
                  (find_property (path_of g) m x = None -> m_optional m = false -> nilled g m x) /\
                  match find_property (path_of g) m x with
                  | None => v = VNone
                  | Some p => exists m' st1 st2, rec p m st1 = Ok (v, m', st2)
                  end).
        { unfold des_property in H1. destruct (find_property (path_of g) m x) as [p|] eqn:F.
          - apply bind_ok in H1. destruct H1 as ([[v m'] st2] & R & H1). apply Ok_inj in H1. subst st1.
            destruct (Hrec _ _ _ _ _ _ R) as (f & Hf). exists v, (e ++ f). split; [|split; [discriminate|eauto]].
            unfold upd_obj. cbn [set_d_heap d_heap]. rewrite Hf, Hs, <- app_assoc. cbn [app].
            exact (upd_nth_at (set_field a v) h (HCls c attrs) (e ++ f)).
          - assert (U : d_heap (upd_obj (length h) (set_field a VNone) st) = h ++ HCls c (dict_set str_eqb a VNone attrs) :: e).
            { unfold upd_obj. cbn [set_d_heap d_heap]. rewrite Hs. exact (upd_nth_at (set_field a VNone) h (HCls c attrs) e). }
            exists VNone, e. destruct (m_optional m).
            + apply Ok_inj in H1. subst st1. split; [exact U|split; [discriminate|reflexivity]].
            + destruct (find_in (path_of g) (lit "Nil") (m_name m) x) as [n|] eqn:Fn.
              * apply Ok_inj in H1. subst st1. split; [exact U|split; [|reflexivity]]. intros _ _.
                apply find_in_some in Fn. exists n. exact Fn.
              * destruct (cd_text d (attrs_of (length h) st)); discriminate. }
        destruct K as (v & e1 & Hs1 & Hn & Hv).
        destruct (IH _ _ _ _ Hs1 H) as (attrs' & e' & A & B & C & D).
        exists attrs', e'. split; [exact A|]. split; [|split].
        + intros b Hb. cbn [map fst In] in Hb. rewrite B by tauto. apply (dict_get_set_other str_eqb str_eqb_spec).
          intros K. apply Hb. left. congruence.
        + intros b mb [E|Hb]; [apply pair_inj in E; destruct E as (<- & <-); exact Hn|apply (C b mb Hb)].
        + cbn [map fst]. intros Nd. apply NoDup_cons_iff in Nd. destruct Nd as (Na & Nd).
          intros b mb [E|Hb]; [|apply (D Nd b mb Hb)]. apply pair_inj in E. destruct E as (<- & <-).
          assert (G : dict_get str_eqb a attrs' = Some v).
          { rewrite (B a Na). apply (dict_get_set_same str_eqb str_eqb_spec). }
          destruct (find_property (path_of g) m x) as [p|]; [|subst v; exact G].
          destruct Hv as (m' & st1' & st2' & Hv). eauto 10.
    Qed.

    Lemma attrs_cls h st c attrs e : d_heap st = h ++ HCls c attrs :: e -> attrs_of (length h) st = attrs.
    Proof.
      intros H. unfold attrs_of. rewrite H, nth_error_app2 by lia. rewrite Nat.sub_diag. reflexivity.
    Qed.
    Definition initial (x : xml) (d : cdesc) : res (list (list N * value)) :=
      match child (lit "ToString") x with
      | Some t => do s <- deserialize_string (x_text t); Ok (dict_set str_eqb (lit "_to_string") (VStr s) (cd_init d))
      | None => Ok (cd_init d)
      end.

    (* the groups together *)
    Lemma obj_spec x m c d st v st' : m_object m = Some c -> classes c = Some d ->
      des_obj classes rec x m st = Ok (v, st') ->
      v = VObj (length (d_heap st)) /\
      exists attrs e, d_heap st' = d_heap st ++ HCls c attrs :: e /\
        (forall g props a m, In (g, props) (groups d) -> In (a, m) props -> m_optional m = false -> present g m x \/ nilled g m x) /\
        (NoDup (attribute_names d) -> forall g props a m, In (g, props) (groups d) -> In (a, m) props ->
           match find_property (path_of g) m x with
           | None => dict_get str_eqb a attrs = Some VNone
           | Some p => exists v m' st1 st2, rec p m st1 = Ok (v, m', st2) /\ dict_get str_eqb a attrs = Some v
           end).
    Proof.
      intros Hm Hc H. unfold des_obj in H. rewrite Hm, Hc in H. cbn [new_obj] in H.
      apply bind_ok in H. destruct H as (id & _ & H). set (h := d_heap st) in *.
      set (st2 := obj_put id _ _) in H. assert (E2 : d_heap st2 = h ++ HCls c (cd_init d) :: []) by reflexivity.
      clearbody st2. apply bind_ok in H. destruct H as (st3 & H3 & H).
      assert (E3 : exists a0, d_heap st3 = h ++ HCls c a0 :: []).
      { destruct (child (lit "ToString") x).
        - apply bind_ok in H3. destruct H3 as (s & _ & H3). apply Ok_inj in H3. subst st3. eexists.
          unfold upd_obj. cbn [set_d_heap d_heap]. rewrite E2.
          exact (upd_nth_at (set_field (lit "_to_string") (VStr s)) h (HCls c (cd_init d)) []).
        - apply Ok_inj in H3. subst st3. eauto. }
      destruct E3 as (a0 & E3). clear H3 E2.
      apply bind_ok in H. destruct H as (st4 & H4 & H). apply bind_ok in H. destruct H as (st5 & H5 & H).
      apply bind_ok in H. destruct H as (st6 & H6 & H). apply Ok_pair_inj in H. destruct H as (<- & <-).
      destruct (properties_spec d None x h c _ _ _ _ _ E3 H4) as (a1 & e1 & E4 & A1 & B1 & C1).
      destruct (properties_spec d (Some (lit "Props")) x h c _ _ _ _ _ E4 H5) as (a2 & e2 & E5 & A2 & B2 & C2).
      destruct (properties_spec d (Some (lit "MS")) x h c _ _ _ _ _ E5 H6) as (a3 & e3 & E6 & A3 & B3 & C3).
      split; [reflexivity|]. exists a3, e3. split; [exact E6|]. split.
      - assert (L : forall g m, (find_property (path_of g) m x = None -> m_optional m = false -> nilled g m x) ->
                  m_optional m = false -> present g m x \/ nilled g m x).
        { intros g m0 K Ho. destruct (find_property (path_of g) m0 x) as [p|] eqn:F.
          - left. apply find_property_some in F. destruct F as (U & t & V & W). exists p, t. auto.
          - right. auto. }
        intros g props a m0 [E|[E|[E|[]]]]; apply pair_inj in E; destruct E as (<- & <-); intros Hi; apply L.
        + exact (B1 a m0 Hi).
        + exact (B2 a m0 Hi).
        + exact (B3 a m0 Hi).
      - unfold attribute_names. rewrite !map_app. intros Nd.
        assert (Nd1 : NoDup (map fst (cd_sets d)) /\ NoDup (map fst (cd_adapted d)) /\ NoDup (map fst (cd_extended d)) /\
                  (forall a, In a (map fst (cd_sets d)) -> ~ In a (map fst (cd_adapted d)) /\ ~ In a (map fst (cd_extended d))) /\
                  (forall a, In a (map fst (cd_adapted d)) -> ~ In a (map fst (cd_extended d)))).
        { clear -Nd. revert Nd. generalize (map fst (cd_sets d)) (map fst (cd_adapted d)) (map fst (cd_extended d)). intros u v w Nd.
          assert (S : forall (p q : list (list N)), NoDup (p ++ q) -> NoDup p /\ NoDup q /\ forall a, In a p -> ~ In a q).
          { clear. induction p as [|y p IH]; cbn [app]; intros q H.
            - split; [constructor|split; [exact H|intros a []]].
            - apply NoDup_cons_iff in H. destruct H as (Hy & H). destruct (IH q H) as (P & Q & R).
              split; [constructor; [intros K; apply Hy, in_or_app; auto|exact P]|split; [exact Q|]].
              intros a [<-|Ha]; [intros K; apply Hy, in_or_app; auto|exact (R a Ha)]. }
          destruct (S _ _ Nd) as (P & Q & R). destruct (S _ _ Q) as (Q1 & Q2 & R1).
          split; [exact P|split; [exact Q1|split; [exact Q2|split; [|exact R1]]]].
          intros a Ha. specialize (R a Ha). rewrite in_app_iff in R. tauto. }
        destruct Nd1 as (N1 & N2 & N3 & N12 & N23).
        assert (T : forall g m (a : list N) b b', dict_get str_eqb a b' = dict_get str_eqb a b ->
                  match find_property (path_of g) m x with
                  | None => dict_get str_eqb a b = Some VNone
                  | Some p => exists v m' st1 st2, rec p m st1 = Ok (v, m', st2) /\ dict_get str_eqb a b = Some v
                  end ->
                  match find_property (path_of g) m x with
                  | None => dict_get str_eqb a b' = Some VNone
                  | Some p => exists v m' st1 st2, rec p m st1 = Ok (v, m', st2) /\ dict_get str_eqb a b' = Some v
                  end).
        { intros g m0 a b b' ->. auto. }
        intros g props a m0 [E|[E|[E|[]]]]; apply pair_inj in E; destruct E as (<- & <-); intros Hi; pose proof (in_map fst _ _ Hi) as Hin; cbn [fst] in Hin.
        + eapply T; [|exact (C1 N1 a m0 Hi)]. destruct (N12 a Hin) as (P & Q). rewrite (A3 a Q), (A2 a P). reflexivity.
        + eapply T; [|exact (C2 N2 a m0 Hi)]. exact (A3 a (N23 a Hin)).
        + exact (C3 N3 a m0 Hi).
    Qed.
    Lemma obj_grows x m st v st' : des_obj classes rec x m st = Ok (v, st') -> grows (d_heap st) (d_heap st').
    Proof.
      intros H. destruct (m_object m) as [c|] eqn:Hm; [|unfold des_obj in H; rewrite Hm in H; discriminate].
      destruct (classes c) as [d|] eqn:Hc; [|unfold des_obj in H; rewrite Hm, Hc in H; discriminate].
      destruct (obj_spec _ _ _ _ _ _ _ Hm Hc H) as (_ & attrs & e & E & _). exists (HCls c attrs :: e). exact E.
    Qed.
    Lemma named_grows h put : (forall k v st, at_end h st -> at_end h (put k v st)) ->
      forall xs st st', at_end h st -> des_named rec xs put st = Ok st' -> at_end h st'.
    Proof.
      intros Hp. induction xs as [|x xs IH]; intros st st' Ha H; cbn [des_named] in H.
      - apply Ok_inj in H. subst. exact Ha.
      - apply bind_ok in H. destruct H as (k & _ & H). apply bind_ok in H. destruct H as ([[v m] st1] & R & H).
        eapply IH; [|exact H]. apply Hp. eapply at_end_grows; [exact Ha|]. eapply Hrec. exact R.
    Qed.
    Lemma children_grows h xs : forall st st', at_end h st -> des_children rec (length h) xs st = Ok st' -> at_end h st'.
    Proof.
      induction xs as [|x xs IH]; intros st st' Ha H; cbn [des_children] in H.
      - apply Ok_inj in H. subst. exact Ha.
      - apply bind_ok in H. destruct H as (st1 & H1 & H). eapply IH; [|exact H]. clear IH H.
        destruct (str_eqb (x_tag x) (lit "TN")).
        { apply bind_ok in H1. destruct H1 as (id & _ & H1). apply Ok_inj in H1. subst st1.
          change (at_end h (tn_put ?i ?t ?s)) with (at_end h s). apply at_end_upd. exact Ha. }
        destruct (str_eqb (x_tag x) (lit "TNRef")).
        { apply bind_ok in H1. destruct H1 as (id & _ & H1). apply bind_ok in H1. destruct H1 as (ts & _ & H1). apply Ok_inj in H1. subst st1.
          apply at_end_upd. exact Ha. }
        destruct (str_eqb (x_tag x) (lit "Props")).
        { eapply named_grows; [|exact Ha|exact H1]. intros k v s Hs. apply at_end_upd. exact Hs. }
        destruct (str_eqb (x_tag x) (lit "MS")).
        { eapply named_grows; [|exact Ha|exact H1]. intros k v s Hs. apply at_end_upd. exact Hs. }
        destruct (str_eqb (x_tag x) (lit "ToString"));
          (apply bind_ok in H1; destruct H1 as ([[v m] st2] & R & H1); apply Ok_inj in H1; subst st1;
           apply at_end_upd; eapply at_end_grows; [exact Ha|eapply Hrec; exact R]).
    Qed.
    Lemma dynamic_grows x m st v st' : des_dynamic rec x m st = Ok (v, st') -> grows (d_heap st) (d_heap st').
    Proof.
      intros H. unfold des_dynamic in H. destruct (m_object m) as [c|]; [|discriminate].
      destruct (str_eqb c generic_name); [|discriminate]. cbn [new_obj] in H.
      apply bind_ok in H. destruct H as (id & _ & H). apply bind_ok in H. destruct H as (st2 & H2 & H).
      apply Ok_pair_inj in H. destruct H as (_ & <-). apply at_end_final. eapply children_grows; [|exact H2].
      exists (HGen empty_gobj), []. reflexivity.
    Qed.
    Lemma des_entries_grows xs : forall m st vs m' st', des_entries rec m xs st = Ok (vs, m', st') -> grows (d_heap st) (d_heap st').
    Proof.
      induction xs as [|x xs IH]; intros m st vs m' st' H; cbn [des_entries] in H.
      - apply Ok_pair_inj in H. destruct H as (_ & <-). apply grows_refl.
      - apply bind_ok in H. destruct H as ([[v m1] st1] & R & H). apply bind_ok in H. destruct H as ([[vs1 m2] st2] & H2 & H).
        apply Ok_pair_inj in H. destruct H as (_ & <-). eapply grows_trans; [eapply Hrec; exact R|eapply IH; exact H2].
    Qed.
    Lemma des_part_grows n x st v st' : des_part rec n x st = Ok (v, st') -> grows (d_heap st) (d_heap st').
    Proof.
      unfold des_part. destruct (find_in _ _ _ _) as [e|]; intros H.
      - apply bind_ok in H. destruct H as ([[w m] st1] & R & H). apply Ok_pair_inj in H. destruct H as (_ & <-). eapply Hrec; exact R.
      - apply Ok_pair_inj in H. destruct H as (_ & <-). apply grows_refl.
    Qed.
    Lemma des_pairs_grows ens : forall d st d' st', des_pairs rec ens d st = Ok (d', st') -> grows (d_heap st) (d_heap st').
    Proof.
      induction ens as [|en ens IH]; intros d st d' st' H; cbn [des_pairs] in H.
      - apply Ok_pair_inj in H. destruct H as (_ & <-). apply grows_refl.
      - apply bind_ok in H. destruct H as ([k st1] & H1 & H). apply bind_ok in H. destruct H as ([v st2] & H2 & H).
        destruct (hashable k); [|discriminate].
        eapply grows_trans; [eapply des_part_grows; exact H1|]. eapply grows_trans; [eapply des_part_grows; exact H2|]. eapply IH. exact H.
    Qed.
    Lemma struct_grows x m st v m' st' : des_struct xml_text classes rec x m st = Ok (v, m', st') -> grows (d_heap st) (d_heap st').
    Proof.
      unfold des_struct. intros H.
      destruct (str_eqb (m_tag m) (lit "Obj")).
      { apply bind_ok in H. destruct H as ([w st1] & R & H). apply Ok_pair_inj in H. destruct H as (_ & <-). eapply obj_grows; exact R. }
      destruct (str_eqb (m_tag m) (lit "ObjDynamic")).
      { apply bind_ok in H. destruct H as ([w st1] & R & H). apply Ok_pair_inj in H. destruct H as (_ & <-). eapply dynamic_grows; exact R. }
      destruct (str_eqb (m_tag m) (lit "LST")).
      { unfold des_lst in H. apply bind_ok in H. destruct H as ([[vs e] st1] & R & H). apply Ok_pair_inj in H. destruct H as (_ & <-).
        eapply des_entries_grows; exact R. }
      destruct (str_eqb (m_tag m) (lit "QUE")).
      { apply bind_ok in H. destruct H as ([w st1] & R & H). apply Ok_pair_inj in H. destruct H as (_ & <-).
        unfold des_que in R. apply bind_ok in R. destruct R as ([[vs e] st2] & R & H2). apply Ok_pair_inj in H2. destruct H2 as (_ & <-).
        eapply des_entries_grows; exact R. }
      destruct (str_eqb (m_tag m) (lit "STK")).
      { apply bind_ok in H. destruct H as ([w st1] & R & H). apply Ok_pair_inj in H. destruct H as (_ & <-).
        unfold des_stk in R. apply bind_ok in R. destruct R as ([[vs e] st2] & R & H2). apply Ok_pair_inj in H2. destruct H2 as (_ & <-).
        eapply des_entries_grows; exact R. }
      destruct (str_eqb (m_tag m) (lit "DCT")).
      { apply bind_ok in H. destruct H as ([w st1] & R & H). apply Ok_pair_inj in H. destruct H as (_ & <-).
        unfold des_dct in R. apply bind_ok in R. destruct R as ([vs st2] & R & H2). apply Ok_pair_inj in H2. destruct H2 as (_ & <-).
        eapply des_pairs_grows; exact R. }
      apply Ok_pair_inj in H. destruct H as (_ & <-). apply grows_refl.
    Qed.
  End Step.

  Lemma des_grows fuel : forall x m st v m' st', desf fuel x m st = Ok (v, m', st') -> grows (d_heap st) (d_heap st').
  Proof.
    induction fuel as [|fuel IH]; intros x m st v m' st' H; [discriminate|].
    unfold desf in H. cbn [des] in H. fold desf in H. set (m1 := if str_eqb (m_tag m) star then _ else _) in H.
    apply bind_ok in H. destruct H as ([types st1] & G & H). apply get_types_heap in G.
    rewrite <- G. clear G. destruct (primitive ci float_of x st1) as [r|].
    - apply bind_ok in H. destruct H as (w & _ & H). apply Ok_pair_inj in H. destruct H as (_ & <-). apply grows_refl.
    - apply bind_ok in H. destruct H as ([[w m2] st2] & H1 & H).
      assert (K : grows (d_heap st1) (d_heap st2)).
      { destruct (is_plain m1 && is_none (m_object m1))%bool.
        - apply bind_ok in H1. destruct H1 as (c & _ & H1). destruct c as [cm|].
          + apply bind_ok in H1. destruct H1 as ([[w' m3] st3] & H2 & H1). apply Ok_pair_inj in H1. destruct H1 as (_ & <-).
            eapply struct_grows; [exact IH|exact H2].
          + apply Ok_pair_inj in H1. destruct H1 as (_ & <-). apply grows_refl.
        - eapply struct_grows; [exact IH|exact H1]. }
      apply bind_ok in H. destruct H as (st3 & H3 & H). apply Ok_pair_inj in H. destruct H as (_ & <-).
      destruct (str_eqb (x_tag x) (lit "Obj")).
      + apply bind_ok in H3. destruct H3 as (id & _ & H3). apply Ok_inj in H3. subst st3. exact K.
      + apply Ok_inj in H3. subst st3. exact K.
  Qed.

  (* ---- an Obj element read as an instance of a known class ---- *)
  Lemma obj_not_primitive x st : x_tag x = lit "Obj" -> prim x st = None.
  Proof. intros H. unfold prim, primitive. rewrite H. reflexivity. Qed.
  Lemma des_class fuel x c st r : x_tag x = lit "Obj" -> desf (S fuel) x (class_meta c) st = Ok r ->
    exists types st1 v st2 id, get_types x st = Ok (types, st1) /\ des_obj classes (desf fuel) x (class_meta c) st1 = Ok (v, st2) /\
      attrib refid x = Ok id /\ r = (v, class_meta c, obj_put id v st2).
  Proof.
    intros Ht H. unfold desf in H. cbn [des] in H. fold desf in H.
    change (if str_eqb (m_tag (class_meta c)) star then set_tag (x_tag x) (class_meta c) else class_meta c) with (class_meta c) in H.
    apply bind_ok in H. destruct H as ([types st1] & G & H). fold prim in H. rewrite (obj_not_primitive _ _ Ht) in H.
    change (is_plain (class_meta c) && is_none (m_object (class_meta c)))%bool with false in H. cbv iota in H.
    apply bind_ok in H. destruct H as ([[v m2] st2] & H1 & H). unfold des_struct in H1.
    change (str_eqb (m_tag (class_meta c)) (lit "Obj")) with true in H1. cbv iota in H1.
    apply bind_ok in H1. destruct H1 as ([w st3] & H2 & H1). apply Ok_pair_inj in H1. destruct H1 as (H1 & <-).
    apply pair_inj in H1. destruct H1 as (<- & <-).
    rewrite Ht in H. change (str_eqb (lit "Obj") (lit "Obj")) with true in H. cbv iota in H.
    apply bind_ok in H. destruct H as (st4 & H3 & H). apply bind_ok in H3. destruct H3 as (id & Hid & H3). apply Ok_inj in H3. subst st4.
    apply Ok_inj in H. subst r. exists types, st1, w, st3, id. auto.
  Qed.
  Lemma read_class heap x c d v h' : x_tag x = lit "Obj" -> classes c = Some d ->
    read heap x (class_meta c) = Ok (v, h') ->
    v = VObj (length heap) /\
    exists attrs e, h' = heap ++ HCls c attrs :: e /\ complete d x /\
      (NoDup (attribute_names d) -> forall g props a m, In (g, props) (groups d) -> In (a, m) props ->
         (~ present g m x -> dict_get str_eqb a attrs = Some VNone) /\
         (forall p, scalar_elem p -> member g x p -> (exists t, In t (property_tags m) /\ fits t (m_name m) p) ->
            (forall q t, member g x q -> In t (property_tags m) -> fits t (m_name m) q -> q = p) ->
            exists w, read [] p any_meta = Ok (w, []) /\ dict_get str_eqb a attrs = Some w)).
  Proof.
    intros Ht Hc H. unfold read, deserialize in H. destruct (depth_S x) as (k & Hk). rewrite Hk in H. fold desf in H.
    apply bind_ok in H. destruct H as ([[w m'] st'] & H1 & H). apply Ok_pair_inj in H. destruct H as (<- & <-).
    destruct (des_class _ _ _ _ _ Ht H1) as (types & st1 & u & st2 & id & G & Ho & _ & E).
    apply pair_inj in E. destruct E as (E & ->). apply pair_inj in E. destruct E as (-> & ->).
    apply get_types_heap in G. cbn [clear_dst d_heap] in G.
    destruct (obj_spec (desf k) (des_grows k) x (class_meta c) c d st1 u st2 eq_refl Hc Ho) as (A & attrs & e & B & C & D).
    rewrite G in A, B. split; [exact A|]. exists attrs, e. split; [exact B|]. split; [exact C|].
    intros Nd g props a m Hg Ha. specialize (D Nd g props a m Hg Ha). split.
    - intros Np. destruct (find_property (path_of g) m x) as [p|] eqn:F; [|exact D].
      apply find_property_some in F. destruct F as (U & t & V & W). destruct Np. exists p, t. auto.
    - intros p Sp Mp (t & Tp & Fp) Un.
      destruct (find_property_present g m x) as (q & F); [exists p, t; auto|]. rewrite F in D.
      apply find_property_some in F. destruct F as (U & t' & V & W). rewrite (Un q t' U V W) in D. clear q U V W.
      destruct D as (w & m' & s1 & s2 & R & E). exists w. split; [|exact E].
      apply present_depth in Mp. rewrite Hk in Mp. destruct (depth_S p) as (j & Hj). destruct k as [|k]; [lia|].
      rewrite (des_scalar _ _ _ _ Sp) in R. rewrite (read_scalar _ _ _ Sp).
      destruct (scalar_of p) as [w'|e']; cbn [bind] in R |- *; [|discriminate].
      apply Ok_pair_inj in R. destruct R as (R & _). apply pair_inj in R. destruct R as (-> & _). reflexivity.
  Qed.
End Des.
