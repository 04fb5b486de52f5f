(* Instances: their attributes, written and read back. *)
From Verif Require Import Base BaseProofs Lit NumModel TextModel TextSpec TextProofs Utf8Model MsgModel MsgSpec MsgProofs NumProofs XmlModel SerModel SerSpec SerSpec2 SerProofs SerProofs2 SerProofs3 SerProofs5 ClsSpec ClsProofs.
From Verif Require TextProofs2.
Require Import Lia ZifyBool ZifyNat ZifyN.

Section Cls.
  Context (ci : option cipher) (show : value -> list N) (xml_text : xml -> list N) (float_of : list N -> res (list N))
          (classes : list N -> option cdesc) (canon : list N -> list (list N)) (heap : list hobj) (said raw : list N -> Prop).
  Notation serf := (ser ci show classes heap).
  Notation desf := (des ci xml_text float_of classes).
  Notation conforms := (conforms ci float_of classes canon heap said raw).
  Notation fair_text := (fair_text said).
  Notation copy := (copy classes heap).
  Notation written := (written ci xml_text float_of classes canon heap).
  Notation readable := (readable ci xml_text float_of classes canon heap).
  Notation goes := (goes ci show xml_text float_of classes canon heap).
  Notation settles := (settles ci show xml_text float_of classes canon heap).
  Notation knows := (knows canon).

  Inductive wrote (attrs : list (list N * value)) : sst -> list (list N * meta) -> list xml -> sst -> Prop :=
  | wr_nil : forall st, wrote attrs st [] [] st
  | wr_cons : forall st a m v ox props xs st1 st2, dict_get str_eqb a attrs = Some v -> written st m v ox st1 -> wrote attrs st1 props xs st2 ->
      wrote attrs st ((a, m) :: props) (opt_list ox ++ xs) st2.
  Lemma attrs_go fuel attrs props : (forall a m, In (a, m) props -> exists v, dict_get str_eqb a attrs = Some v /\ goes fuel m v) ->
    forall st, sane st -> exists xs st2, ser_attrs (serf fuel) attrs props st = Ok (xs, st2) /\ sane st2 /\ wrote attrs st props xs st2.
  Proof.
    induction props as [|[a m] props IH]; intros H st S; cbn [ser_attrs].
    - exists [], st. split; [reflexivity|]. split; [exact S|constructor].
    - destruct (H a m (or_introl eq_refl)) as (v & G & Go). rewrite G. destruct (Go st S) as (ox & m' & st1 & E & _ & S1 & W).
      unfold create_obj. replace (match v with VObj n => find_ref n (s_objs st) | _ => None end) with (@None N).
      2:{ destruct S as (S & _). rewrite S. destruct v; reflexivity. }
      rewrite E. cbn [bind]. destruct (IH (fun b n Hb => H b n (or_intror Hb)) st1 S1) as (xs & st2 & E2 & S2 & C). rewrite E2. cbn [bind].
      eexists. exists st2. split; [reflexivity|]. split; [exact S2|]. econstructor; eassumption.
  Qed.
  Lemma wrote_names attrs st props xs st2 : wrote attrs st props xs st2 -> forall x, In x xs -> exists a m, In (a, m) props /\ attr_get (lit "N") x = m_name m.
  Proof.
    induction 1 as [st|st a m v ox props xs st1 st2 G W C IH]; intros x Hx; [destruct Hx|]. apply in_app_iff in Hx. destruct Hx as [Hx|Hx].
    - destruct ox as [y|]; [|destruct Hx]. destruct Hx as [<- |[]]. destruct W as (N & _). exists a, m. split; [left; reflexivity|exact N].
    - destruct (IH x Hx) as (b & n & A & B). exists b, n. split; [right; exact A|exact B].
  Qed.

  (* ---- finding them ---- *)
  Definition kids (g : option (list N)) (X : xml) : list xml := flat_map x_children (find_all (path_of g) X).
  Lemma kids_member g X e : In e (kids g X) <-> member g X e. Proof. apply member_in. Qed.
  Lemma lookup g m X x n : m_name m = Some n -> In x (kids g X) -> attr_get (lit "N") x = Some n ->
    (forall y, In y (kids g X) -> attr_get (lit "N") y = Some n -> y = x) ->
    find_property (path_of g) m X = Some x \/ (find_property (path_of g) m X = None /\ ~ found_by m x).
  Proof.
    intros Nm I Nx U. destruct (find_property (path_of g) m X) as [e|] eqn:F.
    - left. f_equal. apply find_property_some in F. destruct F as (M & t & _ & _ & Fn). rewrite Nm in Fn. apply U; [apply kids_member; exact M|exact Fn].
    - right. split; [reflexivity|]. intros Fb. apply find_property_none in F. apply F. exists x. destruct Fb as [Fb|Fb].
      + exists star. split; [apply kids_member; exact I|]. split.
        * rewrite <- wanted_tags_spec. unfold wanted_tags. rewrite Fb. left. reflexivity.
        * split; [left; reflexivity|]. rewrite Nm. exact Nx.
      + exists (x_tag x). split; [apply kids_member; exact I|]. split; [rewrite <- wanted_tags_spec; exact Fb|]. split; [right; reflexivity|]. rewrite Nm. exact Nx.
  Qed.
  Lemma lookup_nil g X x n : In x (kids g X) -> attr_get (lit "N") x = Some n -> x_tag x = lit "Nil" ->
    exists y, find_in (path_of g) (lit "Nil") (Some n) X = Some y.
  Proof.
    intros I Nx T. destruct (find_in (path_of g) (lit "Nil") (Some n) X) as [y|] eqn:F; [eauto|]. exfalso.
    apply (find_in_none _ _ _ _ F x); [apply kids_member; exact I|]. split; [right; exact T|exact Nx].
  Qed.
  Lemma lookup_none g m X n : m_name m = Some n -> (forall y, In y (kids g X) -> attr_get (lit "N") y <> Some n) -> find_property (path_of g) m X = None.
  Proof.
    intros Nm U. destruct (find_property (path_of g) m X) as [e|] eqn:F; [|reflexivity]. exfalso.
    apply find_property_some in F. destruct F as (M & t & _ & _ & Fn). rewrite Nm in Fn. apply (U e); [apply kids_member; exact M|exact Fn].
  Qed.

  (* ---- reading them ---- *)
  Lemma past_object {A} (h : list A) o o' e e' n q : (S (length h) <= n)%nat -> nth_error (h ++ o :: e) n = Some q -> nth_error (h ++ o' :: e ++ e') n = Some q.
  Proof.
    intros L H. rewrite nth_error_app2 in * by lia. destruct (n - length h)%nat as [|k] eqn:E; [lia|]. cbn [nth_error] in *.
    rewrite nth_error_app1; [exact H|]. apply nth_error_Some. rewrite H. discriminate.
  Qed.
  Lemma copy_past base h o o' e e' v w : copy base (h ++ o :: e) v w -> (S (length h) <= base)%nat -> copy (S (length h)) (h ++ o' :: e ++ e') v w.
  Proof. intros C L. eapply copy_weaken; [exact C|exact L|]. intros n q Hn H. eapply past_object; [lia|exact H]. Qed.
  Lemma upd_field h0 c at1 e a w ds : d_heap ds = h0 ++ HCls c at1 :: e -> d_heap (upd_obj (length h0) (set_field a w) ds) = h0 ++ HCls c (dict_set str_eqb a w at1) :: e.
  Proof. intros H. unfold upd_obj. cbn [set_d_heap d_heap]. rewrite H. exact (upd_nth_at (set_field a w) h0 (HCls c at1) e). Qed.
  Lemma past_length (h0 : list hobj) o e h : h = h0 ++ o :: e -> (S (length h0) <= length h)%nat.
  Proof. intros ->. rewrite app_length. cbn [length]. lia. Qed.

  (* one property *)
  Lemma property_read g X fuel d h0 c attrs st a m v ox st1 pre post n :
    (forall e, In e (kids g X) -> (depth e <= fuel)%nat) -> written st m v ox st1 ->
    dict_get str_eqb a attrs = Some v ->
    m_name m = Some n -> kids g X = pre ++ map reparse (opt_list ox) ++ post ->
    (forall y, In y pre -> attr_get (lit "N") y <> Some n) -> (forall y, In y post -> attr_get (lit "N") y <> Some n) ->
    forall ds at1 e, knows st ds -> d_heap ds = h0 ++ HCls c at1 :: e ->
    exists ds' w e', des_property (desf fuel) d (path_of g) X (length h0) a m ds = Ok ds' /\ knows st1 ds' /\
      d_heap ds' = h0 ++ HCls c (dict_set str_eqb a w at1) :: e ++ e' /\ copy (S (length h0)) (d_heap ds') v w.
  Proof.
    intros Dp W Hv Nm Kd Hpre Hpost ds at1 e Hk Hh. unfold des_property.
    assert (Vn : forall st1', written st m VNone None st1' \/ True -> knows st (upd_obj (length h0) (set_field a VNone) ds)) by (intros _ _; exact Hk).
    assert (Z : exists ds' w e', Ok (upd_obj (length h0) (set_field a VNone) ds) = Ok ds' /\ knows st ds' /\
      d_heap ds' = h0 ++ HCls c (dict_set str_eqb a w at1) :: e ++ e' /\ copy (S (length h0)) (d_heap ds') VNone w).
    { eexists. exists VNone, []. split; [reflexivity|]. split; [exact Hk|]. split; [rewrite app_nil_r; apply upd_field; exact Hh|constructor]. }
    destruct ox as [x|].
    - destruct W as (Nx & Kind & R). rewrite Nm in Nx. cbn [opt_list map app] in Kd.
      assert (I : In (reparse x) (kids g X)) by (rewrite Kd; apply in_or_app; right; left; reflexivity).
      assert (Nx' : attr_get (lit "N") (reparse x) = Some n) by (rewrite reparse_attr; exact Nx).
      assert (U : forall y, In y (kids g X) -> attr_get (lit "N") y = Some n -> y = reparse x).
      { intros y Hy Ny. rewrite Kd in Hy. apply in_app_iff in Hy. destruct Hy as [Hy|[Hy|Hy]]; [destruct (Hpre y Hy Ny)|symmetry; exact Hy|destruct (Hpost y Hy Ny)]. }
      destruct (lookup g m X (reparse x) n Nm I Nx' U) as [F|(F & Nf)]; rewrite F.
      + destruct (R m ds fuel (reads_refl m) Hk (Dp _ I)) as (w & mr' & ds1 & E & K1 & _ & (f & Gf) & C). rewrite E. cbn [bind].
        rewrite Hh, <- app_assoc in Gf. cbn [app] in Gf.
        eexists. exists w, f. split; [reflexivity|]. split; [exact K1|]. split; [apply upd_field; exact Gf|].
        rewrite (upd_field _ _ _ _ a w _ Gf). rewrite <- (app_nil_r (e ++ f)). rewrite Gf in C. eapply copy_past; [exact C|]. eapply past_length. exact Hh.
      + assert (Nf' : ~ found_by m x). { intros Q. apply Nf. unfold found_by in *. rewrite reparse_tag. exact Q. }
        destruct Kind as [(-> & T & O & ->)|(_ & Q)]; [|destruct (Nf' Q)]. rewrite O, Nm.
        destruct (lookup_nil g X (reparse x) n I Nx') as (y & ->); [rewrite reparse_tag; exact T|]. exact Z.
    - destruct W as (-> & O & ->). cbn [opt_list map app] in Kd. rewrite (lookup_none g m X n Nm), O; [exact Z|].
      intros y Hy. rewrite Kd in Hy. apply in_app_iff in Hy. destruct Hy as [Hy|Hy]; auto.
  Qed.
  (* all of a group *)
  Lemma properties_read g X fuel d h0 c attrs : (forall e, In e (kids g X) -> (depth e <= fuel)%nat) ->
    forall st props xs st2, wrote attrs st props xs st2 ->
    NoDup (map (fun e => m_name (snd e)) props) -> Forall (fun e => m_name (snd e) <> None) props -> NoDup (map fst props) ->
    forall pre, kids g X = pre ++ map reparse xs -> (forall y a m, In y pre -> In (a, m) props -> attr_get (lit "N") y <> m_name m) ->
    forall ds at1 e, knows st ds -> d_heap ds = h0 ++ HCls c at1 :: e ->
    exists ds' at2 e', des_properties (desf fuel) d (path_of g) X (length h0) props ds = Ok ds' /\ knows st2 ds' /\
      d_heap ds' = h0 ++ HCls c at2 :: e ++ e' /\
      (forall a, ~ In a (map fst props) -> dict_get str_eqb a at2 = dict_get str_eqb a at1) /\
      (forall a m v, In (a, m) props -> dict_get str_eqb a attrs = Some v -> exists w, dict_get str_eqb a at2 = Some w /\ copy (S (length h0)) (d_heap ds') v w).
  Proof.
    intros Dp st props xs st2 W. induction W as [st|st a m v ox props xs st1 st2 G W C IH]; intros Nd Ns Na pre Kd Hp ds at1 e Hk Hh; cbn [des_properties].
    - exists ds, at1, []. rewrite app_nil_r. split; [reflexivity|]. split; [exact Hk|]. split; [exact Hh|]. split; [reflexivity|]. intros a m v [].
    - cbn [map fst snd] in Nd, Na. apply NoDup_cons_iff in Nd. destruct Nd as (Nd1 & Nd). apply NoDup_cons_iff in Na. destruct Na as (Na1 & Na).
      pose proof (Forall_inv Ns) as Nm. cbn [snd] in Nm. destruct (m_name m) as [n|] eqn:En; [|contradiction].
      rewrite map_app in Kd.
      destruct (property_read g X fuel d h0 c attrs st a m v ox st1 pre (map reparse xs) n Dp W G En Kd) with (ds := ds) (at1 := at1) (e := e)
        as (ds1 & w & e1 & E1 & K1 & H1 & C1); [| |exact Hk|exact Hh|].
      { intros y Hy. rewrite <- En. apply (Hp y a m Hy). left. reflexivity. }
      { intros y Hy Q. apply in_map_iff in Hy. destruct Hy as (x & <- & Hx). rewrite reparse_attr in Q.
        destruct (wrote_names _ _ _ _ _ C x Hx) as (b & k & B1 & B2). apply Nd1. rewrite <- Q, B2. apply (in_map (fun e => m_name (snd e)) _ _ B1). }
      rewrite E1. cbn [bind]. rewrite app_assoc in Kd.
      destruct (IH Nd (Forall_inv_tail Ns) Na _ Kd) with (ds := ds1) (at1 := dict_set str_eqb a w at1) (e := e ++ e1) as (ds2 & at2 & e2 & E2 & K2 & H2 & A2 & B2); [|exact K1|exact H1|].
      { intros y b k Hy Hb. apply in_app_iff in Hy. destruct Hy as [Hy|Hy]; [apply (Hp y b k Hy); right; exact Hb|].
        apply in_map_iff in Hy. destruct Hy as (x & <- & Hx). rewrite reparse_attr. destruct ox as [x'|]; [|destruct Hx]. destruct Hx as [<- |[]].
        destruct W as (Nx & _). rewrite Nx, En. intros Q. apply Nd1. rewrite Q. apply (in_map (fun e => m_name (snd e)) _ _ Hb). }
      exists ds2, at2, (e1 ++ e2). split; [exact E2|]. split; [exact K2|]. split; [rewrite H2, <- app_assoc; reflexivity|]. split.
      + intros b Hb. cbn [map fst In] in Hb. rewrite A2 by tauto. apply (dict_get_set_other str_eqb str_eqb_spec). intros Q. apply Hb. left. symmetry. exact Q.
      + intros b k u [Q|Hb] Hu.
        * apply pair_inj in Q. destruct Q as (<- & <-). exists w. rewrite G in Hu. apply Some_inj in Hu. subst u. split.
          -- rewrite (A2 a Na1). apply (dict_get_set_same str_eqb str_eqb_spec).
          -- rewrite H2. rewrite H1 in C1. eapply copy_past; [exact C1|]. apply le_n.
        * exact (B2 b k u Hb Hu).
  Qed.
  (* the one that is written as a child of the object itself *)
  Lemma set_read X fuel d h0 c attrs st xs st2 a tag before after : In tag scalar_tags -> tag <> lit "Nil" ->
    wrote attrs st [(a, Meta KPlain tag None false None)] xs st2 ->
    x_children X = before ++ map reparse xs ++ after ->
    (forall y, In y (before ++ after) -> x_tag y <> tag /\ x_tag y <> lit "Nil") -> (forall e, In e (x_children X) -> (depth e <= fuel)%nat) ->
    forall ds at1 e, knows st ds -> d_heap ds = h0 ++ HCls c at1 :: e ->
    exists ds' w e', des_properties (desf fuel) d [] X (length h0) [(a, Meta KPlain tag None false None)] ds = Ok ds' /\ knows st2 ds' /\
      d_heap ds' = h0 ++ HCls c (dict_set str_eqb a w at1) :: e ++ e' /\
      forall v, dict_get str_eqb a attrs = Some v -> copy (S (length h0)) (d_heap ds') v w.
  Proof.
    intros It Nt W Ch Ot Dp ds at1 e Hk Hh. set (m := Meta KPlain tag None false None) in *.
    inversion W as [|st' a' m' v ox props xs' st1 st2' G Wr C]; subst. inversion C; subst. cbn [des_properties]. rewrite app_nil_r in Ch.
    destruct ox as [x|]; [|destruct Wr as (_ & Q & _); discriminate Q]. cbn [opt_list map app] in Ch. destruct Wr as (Nx & Kind & R).
    destruct (scalar_not_list _ It) as (Tl & Ns).
    assert (I : In (reparse x) (x_children X)) by (rewrite Ch; apply in_or_app; right; left; reflexivity).
    assert (Fi : forall t, t = tag \/ t = lit "Nil" -> find_in [] t None X = if str_eqb (x_tag x) t then Some (reparse x) else None).
    { intros t Ht. unfold find_in. cbn [find_all flat_map]. rewrite app_nil_r, Ch.
      assert (Ts : t <> star) by (destruct Ht as [-> | ->]; [exact Ns|discriminate]).
      assert (Q : forall l, (forall y, In y l -> In y (before ++ after)) -> find (matches t None) l = None).
      { induction l as [|y l IHl]; intros Hl; [reflexivity|]. cbn [find]. unfold matches at 1. rewrite (str_eqb_neq _ _ Ts).
        replace (str_eqb (x_tag y) t) with false; [cbn [orb andb]; apply IHl; intros z Hz; apply Hl; right; exact Hz|].
        symmetry. apply str_eqb_neq. destruct (Ot y (Hl y (or_introl eq_refl))) as (Q1 & Q2). destruct Ht as [-> | ->]; assumption. }
      assert (Fa : forall l1 l2, find (matches t None) l1 = None -> find (matches t None) (l1 ++ l2) = find (matches t None) l2).
      { induction l1 as [|y l1 IHl]; intros l2 H1; [reflexivity|]. cbn [find app] in *. destruct (matches t None y); [discriminate H1|apply IHl; exact H1]. }
      rewrite Fa by (apply Q; intros y Hy; apply in_or_app; left; exact Hy). cbn [find]. unfold matches at 1.
      rewrite (str_eqb_neq _ _ Ts), reparse_tag. cbn [orb]. destruct (str_eqb (x_tag x) t); cbn [andb]; [reflexivity|].
      apply Q. intros y Hy. apply in_or_app. right. exact Hy. }
    assert (Fp : find_property [] m X = if str_eqb (x_tag x) tag then Some (reparse x) else None).
    { unfold find_property, wanted_tags. cbn [m m_tag m_name]. rewrite Tl. cbn [fold_left]. apply Fi. left. reflexivity. }
    unfold des_property. change (m_name m) with (@None (list N)). rewrite Fp. destruct (str_eqb (x_tag x) tag) eqn:Et.
    - destruct (R m ds fuel (reads_refl m) Hk (Dp _ I)) as (w & mr' & ds1 & E & K1 & _ & (f & Gf) & C1). rewrite E. cbn [bind].
      rewrite Hh, <- app_assoc in Gf. cbn [app] in Gf.
      eexists. exists w, f. split; [reflexivity|]. split; [exact K1|]. split; [apply upd_field; exact Gf|].
      intros v' Hv. rewrite G in Hv. apply Some_inj in Hv. subst v'.
      rewrite (upd_field _ _ _ _ a w _ Gf). rewrite <- (app_nil_r (e ++ f)). rewrite Gf in C1. eapply copy_past; [exact C1|]. eapply past_length. exact Hh.
    - destruct Kind as [(-> & T & O & ->)|(_ & [Q|Q])].
      + change (m_optional m) with false. cbv iota. rewrite (Fi (lit "Nil") (or_intror eq_refl)), T. change (str_eqb (lit "Nil") (lit "Nil")) with true. cbv iota. cbn [bind].
        eexists. exists VNone, []. split; [reflexivity|]. split; [exact Hk|]. split; [rewrite app_nil_r; apply upd_field; exact Hh|].
        intros v' Hv. rewrite G in Hv. apply Some_inj in Hv. subst v'. constructor.
      + destruct (Ns Q).
      + exfalso. unfold wanted_tags in Q. cbn [m m_tag] in Q. rewrite Tl in Q. destruct Q as [Q|[]]. rewrite <- Q, str_eqb_refl in Et. discriminate Et.
  Qed.

  (* ---- the parts of an object ---- *)
  Lemma tn_if_written ts st : ts = [] \/ coded canon ts -> sane st ->
    exists tn st1, create_tn_if ts st = Ok (tn, st1) /\ sane st1 /\ (forall x, In x tn -> x_tag x = lit "TN" \/ x_tag x = lit "TNRef") /\
      forall a t cs ds, untyped cs -> knows st ds ->
        exists ds1, get_types (Elem (lit "Obj") a t (map reparse tn ++ cs)) ds = Ok (ts, ds1) /\ knows st1 ds1 /\ d_heap ds1 = d_heap ds.
  Proof.
    intros H S. assert (D : ts = [] \/ (ts <> [] /\ coded canon ts)) by (destruct H as [H|H]; [left; exact H|right; split; [destruct H as (u & r & -> & _); discriminate|exact H]]).
    clear H. destruct D as [-> |(Ne & C)].
    - exists [], st. split; [reflexivity|]. split; [exact S|]. split; [intros x []|]. intros a t cs ds U K. exists ds. split; [apply no_types; exact U|]. auto.
    - destruct (tn_written float_of classes canon said raw ts st C S) as (x & st1 & E & S1 & Tg & _ & R). exists [x], st1. split; [|split; [exact S1|split; [intros y [<- |[]]; exact Tg|exact R]]].
      unfold create_tn_if. destruct ts as [|t0 ts0]; [contradiction|]. rewrite E. reflexivity.
  Qed.
  Lemma text_written t : fair_text t -> exists v ts, t = Ok v /\ to_string_elem v = Ok ts /\ (forall x, In x ts -> x_tag x = lit "ToString") /\
    ((v = VNone /\ ts = []) \/ (exists s x, v = VStr s /\ ts = [x] /\ deserialize_string (x_text (reparse x)) = Ok s)).
  Proof.
    intros [-> |(s & -> & Hs & Hk & _)].
    - exists VNone, []. split; [reflexivity|]. split; [reflexivity|]. split; [intros x []|]. left. auto.
    - exists (VStr s). eexists. split; [reflexivity|]. split; [reflexivity|]. split; [intros x [<- |[]]; reflexivity|]. right. exists s. eexists. split; [reflexivity|]. split; [reflexivity|].
      cbn [reparse x_text]. rewrite reparse_text. apply (proj2 (TextProofs2.string_roundtrip_iff s Hs) Hk).
  Qed.
  Lemma group_go fuel tag attrs props st : (forall a m, In (a, m) props -> exists v, dict_get str_eqb a attrs = Some v /\ goes fuel m v) -> sane st ->
    exists gs xs st2, ser_group (serf fuel) tag attrs props st = Ok (gs, st2) /\ sane st2 /\ wrote attrs st props xs st2 /\
      (forall x, In x gs -> x_tag x = tag) /\ flat_map x_children (map reparse gs) = map reparse xs.
  Proof.
    intros H S. destruct props as [|p props].
    - exists [], [], st. split; [reflexivity|]. split; [exact S|]. split; [constructor|]. split; [intros x []|reflexivity].
    - destruct (attrs_go fuel attrs (p :: props) H st S) as (xs & st2 & E & S2 & W). exists [Elem tag [] None xs], xs, st2.
      split; [unfold ser_group; rewrite E; reflexivity|]. split; [exact S2|]. split; [exact W|]. split; [intros x [<- |[]]; reflexivity|].
      cbn [map reparse flat_map x_children]. apply app_nil_r.
  Qed.
  Lemma set_tags attrs st a tag xs st2 : In tag scalar_tags -> wrote attrs st [(a, Meta KPlain tag None false None)] xs st2 -> forall x, In x xs -> x_tag x = tag \/ x_tag x = lit "Nil".
  Proof.
    intros I W x Hx. destruct (scalar_not_list _ I) as (Tl & Ns). inversion W as [|st' a' m' v ox props xs' st1 st2' G Wr C]; subst. inversion C; subst.
    rewrite app_nil_r in Hx. destruct ox as [y|]; [|destruct Hx]. destruct Hx as [<- |[]]. destruct Wr as (_ & [(_ & T & _)|(_ & [Q|Q])] & _).
    - right. exact T.
    - destruct (Ns Q).
    - left. unfold wanted_tags in Q. cbn [m_tag] in Q. rewrite Tl in Q. destruct Q as [Q|[]]. symmetry. exact Q.
  Qed.
  Lemma filter_none t l : (forall x, In x l -> x_tag x <> t) -> filter (fun c => str_eqb (x_tag c) t) (map reparse l) = [].
  Proof.
    induction l as [|x l IH]; intros H; [reflexivity|]. cbn [map filter]. rewrite reparse_tag, (str_eqb_neq _ _ (H x (or_introl eq_refl))).
    apply IH. intros y Hy. apply H. right. exact Hy.
  Qed.
  Lemma filter_all t l : (forall x, In x l -> x_tag x = t) -> filter (fun c => str_eqb (x_tag c) t) (map reparse l) = map reparse l.
  Proof.
    induction l as [|x l IH]; intros H; [reflexivity|]. cbn [map filter]. rewrite reparse_tag, (H x (or_introl eq_refl)), str_eqb_refl. f_equal.
    apply IH. intros y Hy. apply H. right. exact Hy.
  Qed.
  Lemma find_all_nil l : flat_map (find_all []) l = l.
  Proof. induction l as [|x l IH]; [reflexivity|]. cbn [flat_map]. change (find_all [] x) with [x]. cbn [app]. rewrite IH. reflexivity. Qed.
  Lemma nodup_app {A} (p q : list A) : NoDup (p ++ q) -> NoDup p /\ NoDup q /\ forall a, In a p -> ~ In a q.
  Proof.
    induction p as [|y p IH]; cbn [app]; intros H.
    - split; [constructor|split; [exact H|intros a []]].
    - apply NoDup_cons_iff in H. destruct H as (Hy & H). destruct (IH H) as (P & Q & R).
      split; [constructor; [intros K; apply Hy, in_or_app; auto|exact P]|split; [exact Q|]].
      intros a [<- |Ha]; [intros K; apply Hy, in_or_app; auto|exact (R a Ha)].
  Qed.
  Lemma scalar_not_frame tag : In tag scalar_tags -> tag <> lit "TN" /\ tag <> lit "TNRef" /\ tag <> lit "MS" /\ tag <> lit "Props".
  Proof. intros H. unfold scalar_tags in H. cbn [map In] in H. repeat (destruct H as [<- |H]; [repeat split; discriminate|]). destruct H. Qed.

  Lemma obj_go n c attrs d fuel : nth_error heap n = Some (HCls c attrs) -> classes c = Some d -> plainly_described canon d -> fair_text (cd_text d attrs) ->
    (forall a m, In (a, m) (attributes d) -> exists v, dict_get str_eqb a attrs = Some v /\ goes fuel m v) ->
    forall st, sane st -> exists id cs st1, ser_obj classes heap (serf fuel) (VObj n) st = Ok (obj_elem id cs, st1) /\ sane st1 /\
      forall m mo ds fuel' (X := Elem (lit "Obj") (oattr m id) None (map reparse cs)), m_object mo = Some c -> knows st ds -> (depth X <= S fuel')%nat ->
        exists ds1 ds2, get_types X ds = Ok (cd_types d, ds1) /\ des_obj classes (desf fuel') X mo ds1 = Ok (VObj (length (d_heap ds)), ds2) /\
          knows st1 ds2 /\ grows (d_heap ds) (d_heap ds2) /\ copy (length (d_heap ds)) (d_heap ds2) (VObj n) (VObj (length (d_heap ds))).
  Proof.
    intros Hn Hc (Ty & Na & Nt & One & Nn & Nm & Sets) Ft Ga st S. unfold ser_obj. destruct (take_id st) as [id st0] eqn:T. rewrite Hn, Hc.
    assert (S0 : sane st0) by (pose proof (take_sane st S) as Q; rewrite T in Q; exact Q).
    assert (Kn : forall ds, knows st ds -> knows st0 ds) by (intros ds Q; apply (proj2 (knows_take canon st ds)) in Q; rewrite T in Q; exact Q).
    destruct (tn_if_written (cd_types d) st0 Ty S0) as (tn & st1 & E1 & S1 & Ttn & Rtn). rewrite E1. cbn [bind].
    destruct (text_written _ Ft) as (v & ts & Et & Es & Tts & Dts). rewrite Et. cbn [bind]. rewrite Es. cbn [bind].
    destruct (attrs_go fuel attrs (cd_sets d)) with (st := st1) as (sx & st2 & E2 & S2 & W2); [|exact S1|].
    { intros a m H. apply Ga. apply in_or_app. left. exact H. }
    rewrite E2. cbn [bind].
    destruct (group_go fuel (lit "MS") attrs (cd_extended d) st2) as (ms & mx & st3 & E3 & S3 & W3 & Tms & Cms); [|exact S2|].
    { intros a m H. apply Ga. apply in_or_app. right. apply in_or_app. right. exact H. }
    rewrite E3. cbn [bind].
    destruct (group_go fuel (lit "Props") attrs (cd_adapted d) st3) as (ps & px & st4 & E4 & S4 & W4 & Tps & Cps); [|exact S3|].
    { intros a m H. apply Ga. apply in_or_app. right. apply in_or_app. left. exact H. }
    rewrite E4. cbn [bind]. exists id. eexists. exists st4. split; [reflexivity|]. split; [exact S4|].
    (* tags of the children *)
    assert (Tsx : forall x, In x sx -> x_tag x <> lit "TN" /\ x_tag x <> lit "TNRef" /\ x_tag x <> lit "MS" /\ x_tag x <> lit "Props" /\ x_tag x <> lit "ToString").
    { intros x Hx. destruct Sets as [Sets|(a & tag & Sets & It & _ & Nto)]; rewrite Sets in W2; [inversion W2; subst; destruct Hx|].
      destruct (scalar_not_frame _ It) as (Q1 & Q2 & Q3 & Q4).
      destruct (set_tags _ _ _ _ _ _ It W2 x Hx) as [-> | ->]; [auto|repeat split; discriminate]. }
    intros m mo ds fuel'. set (X := Elem _ (oattr m id) None _). intros Hm Hk Hd.
    (* the children of the element *)
    assert (Kms : kids (Some (lit "MS")) X = map reparse mx).
    { unfold kids. cbn [path_of find_all]. rewrite find_all_nil. cbn [X x_children]. rewrite !map_app, !filter_app.
      rewrite (filter_none _ tn), (filter_none _ ts), (filter_none _ sx), (filter_all _ ms Tms), (filter_none _ ps).
      - cbn [app]. rewrite app_nil_r. exact Cms.
      - intros x Hx. rewrite (Tps x Hx). discriminate.
      - intros x Hx. apply (Tsx x Hx).
      - intros x Hx. rewrite (Tts x Hx). discriminate.
      - intros x Hx. destruct (Ttn x Hx) as [-> | ->]; discriminate. }
    assert (Kps : kids (Some (lit "Props")) X = map reparse px).
    { unfold kids. cbn [path_of find_all]. rewrite find_all_nil. cbn [X x_children]. rewrite !map_app, !filter_app.
      rewrite (filter_none _ tn), (filter_none _ ts), (filter_none _ sx), (filter_none _ ms), (filter_all _ ps Tps).
      - cbn [app]. exact Cps.
      - intros x Hx. rewrite (Tms x Hx). discriminate.
      - intros x Hx. apply (Tsx x Hx).
      - intros x Hx. rewrite (Tts x Hx). discriminate.
      - intros x Hx. destruct (Ttn x Hx) as [-> | ->]; discriminate. }
    assert (Dk : forall g e, In e (kids g X) -> (depth e <= fuel')%nat).
    { intros g e He. apply kids_member in He. apply present_depth in He. eapply Nat.lt_le_trans in Hd; [|exact He]. apply le_S_n. exact Hd. }
    assert (U : untyped (map reparse (ts ++ sx ++ ms ++ ps))).
    { unfold untyped. rewrite Forall_map. apply Forall_forall. intros x Hx. rewrite reparse_tag. apply in_app_iff in Hx. destruct Hx as [Hx|Hx].
      - rewrite (Tts x Hx). split; discriminate.
      - apply in_app_iff in Hx. destruct Hx as [Hx|Hx]; [destruct (Tsx x Hx) as (Q1 & Q2 & _); auto|].
        apply in_app_iff in Hx. destruct Hx as [Hx|Hx]; [rewrite (Tms x Hx)|rewrite (Tps x Hx)]; split; discriminate. }
    destruct (Rtn (oattr m id) None _ ds U (Kn _ Hk)) as (ds1 & G1 & K1 & H1). rewrite <- map_app in G1. fold X in G1.
    exists ds1. set (h0 := d_heap ds) in *.
    assert (Ex : attrib refid X = Ok (dec id)) by reflexivity.
    assert (Ct : child (lit "ToString") X = match map reparse ts with x :: _ => Some x | [] => None end).
    { unfold child, find_first. cbn [find_all]. rewrite find_all_nil. cbn [X x_children]. rewrite !map_app, !filter_app.
      rewrite (filter_none _ tn), (filter_all _ ts Tts), (filter_none _ sx), (filter_none _ ms), (filter_none _ ps).
      - cbn [app]. rewrite !app_nil_r. reflexivity.
      - intros x Hx. rewrite (Tps x Hx). discriminate.
      - intros x Hx. rewrite (Tms x Hx). discriminate.
      - intros x Hx. apply (Tsx x Hx).
      - intros x Hx. destruct (Ttn x Hx) as [-> | ->]; discriminate. }
    unfold des_obj, new_obj. rewrite Hm, Hc, H1, Ex. cbn [bind]. set (st2' := obj_put _ _ _).
    assert (Hs2 : d_heap st2' = h0 ++ HCls c (cd_init d) :: []) by reflexivity.
    assert (Ks2 : knows st1 st2') by exact K1. clearbody st2'.
    (* the text *)
    assert (P1 : exists ds3 at0, match child (lit "ToString") X with
                    | Some t => do s <- deserialize_string (x_text t); Ok (upd_obj (length h0) (set_field (lit "_to_string") (VStr s)) st2')
                    | None => Ok st2' end = Ok ds3 /\ knows st1 ds3 /\ d_heap ds3 = h0 ++ HCls c at0 :: [] /\
        (forall s, v = VStr s -> dict_get str_eqb (lit "_to_string") at0 = Some (VStr s)) /\
        (v = VNone -> dict_get str_eqb (lit "_to_string") at0 = dict_get str_eqb (lit "_to_string") (cd_init d))).
    { rewrite Ct. destruct Dts as [(-> & ->)|(s & x & -> & -> & Ds)].
      - exists st2', (cd_init d). split; [reflexivity|]. split; [exact Ks2|]. split; [exact Hs2|]. split; [intros s Q; discriminate Q|reflexivity].
      - cbn [map]. rewrite Ds. cbn [bind]. eexists. eexists. split; [reflexivity|]. split; [exact Ks2|]. split; [apply upd_field; exact Hs2|]. split.
        + intros s' Q. rewrite (dict_get_set_same str_eqb str_eqb_spec). congruence.
        + intros Q. discriminate Q. }
    destruct P1 as (ds3 & at0 & E5 & K3 & H3 & Tx1 & Tx2). rewrite E5. cbn [bind]. clear E5 Hs2 Ks2 st2'.
    (* the value of an enumeration *)
    unfold attributes in Na, Nt. rewrite map_app in Na, Nt. destruct (nodup_app _ _ Na) as (_ & Na2 & Na3).
    assert (P2 : exists ds4 at1 e1, des_properties (desf fuel') d [] X (length h0) (cd_sets d) ds3 = Ok ds4 /\ knows st2 ds4 /\ d_heap ds4 = h0 ++ HCls c at1 :: e1 /\
        (forall a, ~ In a (map fst (cd_sets d)) -> dict_get str_eqb a at1 = dict_get str_eqb a at0) /\
        (forall a m v, In (a, m) (cd_sets d) -> dict_get str_eqb a attrs = Some v -> exists w, dict_get str_eqb a at1 = Some w /\ copy (Datatypes.S (length h0)) (d_heap ds4) v w)).
    { destruct Sets as [Sets|(a & tag & Sets & It & Nn' & Nto)]; rewrite Sets in *.
      - inversion W2; subst. exists ds3, at0, []. split; [reflexivity|]. split; [exact K3|]. split; [exact H3|]. split; [reflexivity|]. intros a m' v' [].
      - destruct (scalar_not_frame _ It) as (Q1 & Q2 & Q3 & Q4).
        destruct (set_read X fuel' d h0 c attrs st1 sx st2 a tag (map reparse tn ++ map reparse ts) (map reparse ms ++ map reparse ps) It Nn' W2) with (ds := ds3) (at1 := at0) (e := @nil hobj)
          as (ds4 & w & e1 & E6 & K4 & H4 & C4).
        + cbn [X x_children]. rewrite !map_app, <- !app_assoc. reflexivity.
        + intros y Hy. rewrite <- !map_app in Hy. apply in_map_iff in Hy. destruct Hy as (x & <- & Hx). rewrite reparse_tag.
          apply in_app_iff in Hx. destruct Hx as [Hx|Hx]; apply in_app_iff in Hx; destruct Hx as [Hx|Hx].
          * destruct (Ttn x Hx) as [-> | ->]; (split; [congruence|discriminate]).
          * rewrite (Tts x Hx). split; [congruence|discriminate].
          * rewrite (Tms x Hx). split; [congruence|discriminate].
          * rewrite (Tps x Hx). split; [congruence|discriminate].
        + intros e He. apply (Dk None). apply kids_member. exact He.
        + exact K3.
        + exact H3.
        + eexists. eexists. eexists. split; [exact E6|]. split; [exact K4|]. split; [exact H4|]. split.
          * intros b Hb. cbn [map fst In] in Hb. apply (dict_get_set_other str_eqb str_eqb_spec). intros Q. apply Hb. left. symmetry. exact Q.
          * intros b m' v' [Q|[]] Hv. apply pair_inj in Q. destruct Q as (<- & _). exists w. split; [apply (dict_get_set_same str_eqb str_eqb_spec)|exact (C4 v' Hv)]. }
    destruct P2 as (ds4 & at1 & e1 & E6 & K4 & H4 & A4 & C4). rewrite E6. cbn [bind]. clear E6.
    (* the groups *)
    assert (P3 : exists ds6 at2 e2, (do st5 <- des_properties (desf fuel') d [lit "Props"] X (length h0) (cd_adapted d) ds4;
                                     do st6 <- des_properties (desf fuel') d [lit "MS"] X (length h0) (cd_extended d) st5; Ok (VObj (length h0), st6)) = Ok (VObj (length h0), ds6) /\
        knows st4 ds6 /\ d_heap ds6 = h0 ++ HCls c at2 :: e1 ++ e2 /\
        (forall a, ~ In a (map fst (cd_adapted d ++ cd_extended d)) -> dict_get str_eqb a at2 = dict_get str_eqb a at1) /\
        (forall a m v, In (a, m) (cd_adapted d ++ cd_extended d) -> dict_get str_eqb a attrs = Some v -> exists w, dict_get str_eqb a at2 = Some w /\ copy (Datatypes.S (length h0)) (d_heap ds6) v w)).
    { destruct One as [One|One]; rewrite One in *.
      - cbn [app] in *. cbn [des_properties bind].
        assert (Q4 : st4 = st3) by (inversion W4; reflexivity). subst st4.
        destruct (properties_read (Some (lit "MS")) X fuel' d h0 c attrs (Dk _) st2 (cd_extended d) mx st3 W3 Nn Nm Na2 [] Kms) with (ds := ds4) (at1 := at1) (e := e1)
          as (ds6 & at2 & e2 & E7 & K7 & H7 & A7 & C7); [intros y a m' []|exact K4|exact H4|].
        cbn [path_of] in E7. rewrite E7. cbn [bind]. exists ds6, at2, e2. auto.
      - rewrite app_nil_r in *.
        assert (Q3 : st3 = st2) by (inversion W3; reflexivity). subst st3.
        destruct (properties_read (Some (lit "Props")) X fuel' d h0 c attrs (Dk _) st2 (cd_adapted d) px st4 W4 Nn Nm Na2 [] Kps) with (ds := ds4) (at1 := at1) (e := e1)
          as (ds6 & at2 & e2 & E7 & K7 & H7 & A7 & C7); [intros y a m' []|exact K4|exact H4|].
        cbn [path_of] in E7. rewrite E7. cbn [bind des_properties]. exists ds6, at2, e2. auto. }
    destruct P3 as (ds6 & at2 & e2 & E7 & K7 & H7 & A7 & C7). exists ds6. split; [exact G1|]. split; [exact E7|]. split; [exact K7|]. split; [exists (HCls c at2 :: e1 ++ e2); exact H7|].
    (* it is a copy *)
    assert (Cp : forall a m v, In (a, m) (attributes d) -> dict_get str_eqb a attrs = Some v -> exists w, dict_get str_eqb a at2 = Some w /\ copy (length h0) (d_heap ds6) v w).
    { intros a m' v' Hi Hv. assert (Cw : exists w, dict_get str_eqb a at2 = Some w /\ copy (Datatypes.S (length h0)) (d_heap ds6) v' w).
      { apply in_app_iff in Hi. destruct Hi as [Hi|Hi]; [|exact (C7 a m' v' Hi Hv)]. destruct (C4 a m' v' Hi Hv) as (w & Q1 & Q2). exists w. split.
        - rewrite A7; [exact Q1|]. apply Na3. apply (in_map fst) in Hi. exact Hi.
        - rewrite H7. rewrite H4 in Q2. eapply copy_past; [exact Q2|apply le_n]. }
      destruct Cw as (w & Q1 & Q2). exists w. split; [exact Q1|]. eapply copy_weaken; [exact Q2|apply Nat.le_succ_diag_r|]. intros k o _ Q. exact Q. }
    assert (Tk : dict_get str_eqb (lit "_to_string") at2 = dict_get str_eqb (lit "_to_string") at0).
    { rewrite A7, A4; [reflexivity| |]; intros Q; apply Nt; apply in_or_app; [left|right]; exact Q. }
    apply (co_obj _ _ _ _ n (length h0) c attrs at2 d); [apply le_n|exact Hn| |exact Hc| | | |].
    - rewrite H7, nth_error_app2, Nat.sub_diag by apply le_n. reflexivity.
    - intros a m' Hi. destruct (Ga a m' Hi) as (v' & Hv & _). destruct (Cp a m' v' Hi Hv) as (w & Q & _). rewrite Q. discriminate.
    - intros a m' v' w Hi Hv Hw. destruct (Cp a m' v' Hi Hv) as (w' & Q1 & Q2). rewrite Hw in Q1. apply Some_inj in Q1. subst w'. exact Q2.
    - intros s Q. rewrite Tk. apply Tx1. rewrite Et in Q. apply Ok_inj in Q. exact Q.
    - intros Q. rewrite Tk. apply Tx2. rewrite Et in Q. apply Ok_inj in Q. exact Q.
  Qed.

  (* ---- instances as values ---- *)
  Lemma bound_attrs d attrs : (forall a m, In (a, m) (attributes d) -> dict_get str_eqb a attrs <> None) ->
    (forall a m v, In (a, m) (attributes d) -> dict_get str_eqb a attrs = Some v -> settles m v) ->
    exists f0, forall f, (f0 <= f)%nat -> forall a m, In (a, m) (attributes d) -> exists v, dict_get str_eqb a attrs = Some v /\ goes f m v.
  Proof.
    intros H1 H2. assert (K : exists f0, forall f, (f0 <= f)%nat -> Forall (fun e => exists v, dict_get str_eqb (fst e) attrs = Some v /\ goes f (snd e) v) (attributes d)).
    { apply (bound_all (fun f e => exists v, dict_get str_eqb (fst e) attrs = Some v /\ goes f (snd e) v)). apply Forall_forall. intros [a m] Hi. cbn [fst snd].
      specialize (H1 a m Hi). destruct (dict_get str_eqb a attrs) as [v|] eqn:G; [|contradiction]. destruct (H2 a m v Hi G) as (f0 & K). exists f0. intros f L. exists v. split; [reflexivity|exact (K f L)]. }
    destruct K as (f0 & K). exists f0. intros f L a m Hi. specialize (K f L). rewrite Forall_forall in K. exact (K (a, m) Hi).
  Qed.
  Lemma obj_ser fuel n c attrs m st : nth_error heap n = Some (HCls c attrs) -> m_tag m = lit "Obj" \/ m_tag m = star -> 
    serf (S fuel) (VObj n) m st = (do '(x, st1) <- ser_obj classes heap (serf fuel) (VObj n) st; Ok (Some (named m x), set_tag (lit "Obj") m, st1)).
  Proof.
    intros Hn Ht. rewrite ser_S. cbn [is_vxml]. replace (tagged heap (VObj n) m) with (lit "Obj", VObj n).
    - cbv beta iota zeta. change (ser_with ci show classes heap (serf fuel) (lit "Obj") (VObj n) m st) with
        (do '(x, m2, st1) <- (do '(x, st1) <- ser_obj classes heap (serf fuel) (VObj n) st; Ok (x, set_tag (lit "Obj") m, st1)); Ok (Some (named m x), m2, st1)).
      destruct (ser_obj classes heap (serf fuel) (VObj n) st) as [[x st1]|e]; reflexivity.
    - unfold tagged. destruct Ht as [-> | ->]; [reflexivity|]. rewrite str_eqb_refl. cbn [tag_of_value]. rewrite Hn. reflexivity.
  Qed.
  Lemma des_struct_obj rec X mo ds c : m_tag mo = lit "Obj" -> m_object mo = Some c ->
    des_struct xml_text classes rec X mo ds = (do '(v, st1) <- des_obj classes rec X mo ds; Ok (v, mo, st1)).
  Proof. intros Ht _. unfold des_struct. rewrite Ht. reflexivity. Qed.
  Lemma known_settles name opt n c attrs d : nth_error heap n = Some (HCls c attrs) -> classes c = Some d -> plainly_described canon d -> fair_text (cd_text d attrs) ->
    cd_types d <> [] -> choose (cd_types d) = Ok (Some (class_meta c)) ->
    (forall a m, In (a, m) (attributes d) -> dict_get str_eqb a attrs <> None) ->
    (forall a m v, In (a, m) (attributes d) -> dict_get str_eqb a attrs = Some v -> settles m v) ->
    settles (Meta KPlain star name opt None) (VObj n).
  Proof.
    intros Hn Hc Pd Ft Ne Ch H1 H2. set (m := Meta KPlain star name opt None). destruct (bound_attrs d attrs H1 H2) as (f0 & K).
    exists (S f0). intros [|fuel] L; [inversion L|]. apply le_S_n in L. intros st S.
    rewrite (obj_ser fuel n c attrs m st Hn (or_intror eq_refl)).
    destruct (obj_go n c attrs d fuel Hn Hc Pd Ft (K fuel L) st S) as (id & cs & st1 & E & S1 & R). rewrite E. cbn [bind].
    do 3 eexists. split; [reflexivity|]. split; [reflexivity|]. split; [exact S1|]. split; [apply oattr_name|]. split; [right; split; [discriminate|left; reflexivity]|].
    intros mr ds fuel' Hr Hk Hd. change (reads m mr) with (is_plain mr = true /\ m_object mr = None) in Hr. rewrite reparse_obj in *.
    destruct fuel' as [|fuel']; [exfalso; inversion Hd|].
    destruct (R m (class_meta c) ds fuel' eq_refl Hk Hd) as (ds1 & ds2 & G1 & D1 & K1 & Gr & Cp).
    exists (VObj (length (d_heap ds))). eexists. eexists. split; [|split; [|split; [|split]]].
    - eapply des_known with (cm := class_meta c); [exact Hr|exact G1|exact Ne|exact Ch|]. rewrite (des_struct_obj _ _ (class_meta c) _ c eq_refl eq_refl), D1. reflexivity.
    - exact K1.
    - intros _. exact (next_plain _ _ Hr).
    - exact Gr.
    - exact Cp.
  Qed.
  Lemma class_settles tag name opt n c attrs d : tag = lit "Obj" \/ tag = star ->
    nth_error heap n = Some (HCls c attrs) -> classes c = Some d -> plainly_described canon d -> fair_text (cd_text d attrs) ->
    (forall a m, In (a, m) (attributes d) -> dict_get str_eqb a attrs <> None) ->
    (forall a m v, In (a, m) (attributes d) -> dict_get str_eqb a attrs = Some v -> settles m v) ->
    settles (Meta KPlain tag name opt (Some c)) (VObj n).
  Proof.
    intros Ht Hn Hc Pd Ft H1 H2. set (m := Meta KPlain tag name opt (Some c)). destruct (bound_attrs d attrs H1 H2) as (f0 & K).
    exists (S f0). intros [|fuel] L; [inversion L|]. apply le_S_n in L. intros st S.
    rewrite (obj_ser fuel n c attrs m st Hn Ht).
    destruct (obj_go n c attrs d fuel Hn Hc Pd Ft (K fuel L) st S) as (id & cs & st1 & E & S1 & R). rewrite E. cbn [bind].
    do 3 eexists. split; [reflexivity|]. split; [reflexivity|]. split; [exact S1|]. split; [apply oattr_name|]. split.
    { right. split; [discriminate|]. destruct Ht as [-> | ->]; [right|left; reflexivity]. rewrite named_tag. left. reflexivity. }
    intros mr ds fuel' Hr Hk Hd. change (reads m mr) with (mr = m \/ (tag = star /\ KPlain = KPlain /\ mr = set_tag (lit "Obj") m)) in Hr. rewrite reparse_obj in *.
    destruct fuel' as [|fuel']; [exfalso; inversion Hd|].
    match type of Hd with (depth ?X <= _)%nat => assert (Nx : next_meta X mr = set_tag (lit "Obj") m) end.
    { destruct Hr as [-> |(_ & _ & ->)]; [|reflexivity]. unfold next_meta. cbn [m m_tag]. destruct Ht as [-> | ->]; reflexivity. }
    destruct (R m (set_tag (lit "Obj") m) ds fuel' eq_refl Hk Hd) as (ds1 & ds2 & G1 & D1 & K1 & Gr & Cp).
    exists (VObj (length (d_heap ds))). eexists. eexists. split; [|split; [|split; [|split]]].
    - eapply des_given; [rewrite Nx; reflexivity|exact G1|]. rewrite Nx. rewrite (des_struct_obj _ _ (set_tag (lit "Obj") m) _ c eq_refl eq_refl), D1. reflexivity.
    - exact K1.
    - intros _. change (reads m (set_tag (lit "Obj") m)) with (set_tag (lit "Obj") m = m \/ (tag = star /\ KPlain = KPlain /\ set_tag (lit "Obj") m = set_tag (lit "Obj") m)).
      destruct Ht as [-> | ->]; [left; reflexivity|right; auto].
    - exact Gr.
    - exact Cp.
  Qed.

  (* ---- all of it ---- *)
  Lemma conforms_settles : coded canon list_names -> coded canon dict_names -> forall m v, conforms m v -> settles m v.
  Proof.
    intros Cl Cd m v H. induction H.
    - eapply none_settles; eassumption.
    - eapply scalar_settles; eassumption.
    - eapply star_settles; eassumption.
    - eapply tagged_settles; eassumption.
    - eapply members_settles; eassumption.
    - eapply dict_settles; eassumption.
    - eapply dictmeta_settles; eassumption.
    - eapply known_settles; eassumption.
    - eapply class_settles; eassumption.
    - eapply list_settles; eassumption.
  Qed.
  Lemma roundtrip : coded canon list_names -> coded canon dict_names -> forall m v, conforms m v -> v <> VNone \/ m_optional m = false ->
    exists f0, forall fuel, (f0 <= fuel)%nat -> exists x, serialize ci show classes heap fuel v m = Ok (Some x) /\
      forall heap0, exists w e, deserialize ci xml_text float_of classes heap0 (reparse x) m = Ok (w, heap0 ++ e) /\ copy (length heap0) (heap0 ++ e) v w.
  Proof.
    intros Cl Cd m v H Nn. destruct (conforms_settles Cl Cd m v H) as (f0 & K). exists f0. intros fuel L.
    destruct (K fuel L clear_sst (sane_clear)) as (ox & m' & st' & E & _ & _ & W). unfold serialize. rewrite E. cbn [bind].
    destruct ox as [x|]; [|exfalso; destruct W as (-> & O & _); destruct Nn as [Nn|Nn]; [apply Nn; reflexivity|rewrite O in Nn; discriminate Nn]].
    exists x. split; [reflexivity|]. intros heap0. destruct W as (_ & _ & R).
    destruct (R m (clear_dst heap0) (depth (reparse x)) (reads_refl m) (knows_clear canon heap0) (le_n _)) as (w & mr & ds & E2 & _ & _ & (e & G) & C).
    exists w, e. unfold deserialize. rewrite E2. cbn [bind]. cbn [clear_dst d_heap] in G, C. rewrite G in *. split; [reflexivity|exact C].
  Qed.
End Cls.
