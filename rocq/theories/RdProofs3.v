(* Reading what a server wrote: objects, and the whole. *)
From Verif Require Import Base BaseProofs Lit NumModel TextModel TextSpec TextProofs Utf8Model MsgModel MsgSpec MsgProofs NumProofs XmlModel SerModel SerSpec SerSpec2 SerProofs SerProofs2 SerProofs3 SerProofs5 RdSpec RdProofs RdProofs2.
Require Import Lia ZifyBool ZifyNat ZifyN.
Local Open Scope list_scope.

Definition body (text : option (option (list N))) (sets : list item) (ad ex : list (list N * item)) : list xml :=
  said_xml text ++ map (write None) sets ++
  grouped "Props" (map (fun e => write (Some (fst e)) (snd e)) ad) ++ grouped "MS" (map (fun e => write (Some (fst e)) (snd e)) ex).
Lemma plain_tag t w : plain_item t -> In w (map lit ["TN"; "TNRef"; "Props"; "MS"; "ToString"]%string) -> tag_of t <> w.
Proof.
  intros P Iw. destruct t as [tag tx| | | |]; cbn [plain_item tag_of] in *; try (intros <-; revert Iw; cbn [map In]; intuition discriminate).
  destruct P as (Pt & Nt). intros <-. cbn [map In] in Iw. unfold scalar_tags in Pt. cbn [map In] in Pt.
  destruct Iw as [E|[E|[E|[E|[E|[]]]]]]; subst tag; [| | | |apply Nt; reflexivity]; revert Pt; intuition discriminate.
Qed.
Lemma said_tag t e : In e (said_xml t) -> x_tag e = lit "ToString" /\ x_children e = [] /\ t = Some (x_text e).
Proof. destruct t as [t|]; [|intros []]. intros [<-|[]]. repeat split. Qed.
Lemma grouped_tag tag xs e : In e (grouped tag xs) -> x_tag e = lit tag /\ x_children e = xs.
Proof. destruct xs as [|x xs]; [intros []|]. intros [<-|[]]. split; reflexivity. Qed.
Lemma grouped_in tag xs e : In e xs -> exists p, In p (grouped tag xs) /\ x_tag p = lit tag /\ x_children p = xs.
Proof. destruct xs as [|x xs]; [intros []|]. intros _. eexists. split; [left; reflexivity|split; reflexivity]. Qed.
Lemma named_tag n e : In e (naming_xml n) -> x_tag e = lit "TN" \/ x_tag e = lit "TNRef".
Proof. destruct n; [intros []| |]; intros [<-|[]]; auto. Qed.
Lemma body_in text sets ad ex e : In e (body text sets ad ex) -> x_tag e = lit "ToString" \/ (exists t, In t sets /\ e = write None t) \/ x_tag e = lit "Props" \/ x_tag e = lit "MS".
Proof.
  unfold body. rewrite !in_app_iff. intros [H|[H|[H|H]]].
  - apply said_tag in H. tauto.
  - apply in_map_iff in H. destruct H as (t & <- & I1). right. left. eauto.
  - apply grouped_tag in H. tauto.
  - apply grouped_tag in H. tauto.
Qed.
Lemma body_calm text sets ad ex : Forall plain_item sets -> calm (body text sets ad ex).
Proof.
  intros P. apply Forall_forall. intros e He. apply body_in in He. destruct He as [->|[(t & I1 & ->)|[->| ->]]]; try (split; discriminate).
  rewrite write_tag. rewrite Forall_forall in P. split; apply plain_tag; try (apply P; exact I1); cbn [map In]; tauto.
Qed.
(* whose children are the properties *)
Section Members.
  Context (a : list (list N * list N)) (n : naming) (text : option (option (list N))) (sets : list item) (ad ex : list (list N * item)) (P : Forall plain_item sets).
  Let x := Elem (lit "Obj") a None (naming_xml n ++ body text sets ad ex).
  Lemma members_sets e : member None x e -> In (x_tag e) scalar_tags -> x_tag e <> lit "ToString" -> exists t, In (None, t) (without sets) /\ e = write None t.
  Proof.
    cbn [member x x_children]. rewrite in_app_iff. intros [H|H] S1 S2.
    - exfalso. apply named_tag in H. unfold scalar_tags in S1. cbn [map In] in S1. destruct H as [H|H]; rewrite H in S1; revert S1; intuition discriminate.
    - apply body_in in H. destruct H as [H|[(t & I1 & ->)|[H|H]]]; try contradiction.
      + exists t. split; [apply in_map_iff; eauto|reflexivity].
      + exfalso. unfold scalar_tags in S1. cbn [map In] in S1. rewrite H in S1. revert S1. intuition discriminate.
      + exfalso. unfold scalar_tags in S1. cbn [map In] in S1. rewrite H in S1. revert S1. intuition discriminate.
  Qed.
  Lemma sets_members name t : In (name, t) (without sets) -> member None x (write name t).
  Proof.
    intros H. apply in_map_iff in H. destruct H as (t' & E & I1). apply pair_inj in E. destruct E as (<- & ->). cbn [member x x_children]. unfold body. rewrite !in_app_iff. right. right. left. apply in_map. exact I1.
  Qed.
  Lemma plain_set t : In t sets -> tag_of t <> lit "Props" /\ tag_of t <> lit "MS".
  Proof. intros I1. rewrite Forall_forall in P. split; apply plain_tag; try (apply P; exact I1); cbn [map In]; tauto. Qed.
  Lemma members_adapted e : member (Some (lit "Props")) x e <-> exists name t, In (Some name, t) (with_name ad) /\ e = write (Some name) t.
  Proof.
    cbn [member x x_children]. split.
    - intros (p & Hp & Tp & He). rewrite in_app_iff in Hp. destruct Hp as [Hp|Hp]; [apply named_tag in Hp; exfalso; rewrite Tp in Hp; destruct Hp as [C|C]; discriminate C|].
      unfold body in Hp. rewrite !in_app_iff in Hp. destruct Hp as [Hp|[Hp|[Hp|Hp]]].
      + apply said_tag in Hp. exfalso. destruct Hp as (C & _). rewrite Tp in C. discriminate C.
      + apply in_map_iff in Hp. destruct Hp as (t & <- & I1). rewrite write_tag in Tp. destruct (plain_set t I1). contradiction.
      + apply grouped_tag in Hp. destruct Hp as (_ & Hc). rewrite Hc in He. apply in_map_iff in He. destruct He as ([name t] & <- & I1). exists name, t. split; [|reflexivity]. apply in_map_iff. exists (name, t). auto.
      + apply grouped_tag in Hp. exfalso. destruct Hp as (C & _). rewrite Tp in C. discriminate C.
    - intros (name & t & I1 & ->). apply in_map_iff in I1. destruct I1 as ([name' t'] & E & I1). cbn [fst snd] in E. apply pair_inj in E. destruct E as (E1 & ->). apply Some_inj in E1. subst name'.
      assert (I2 : In (write (Some name) t) (map (fun e => write (Some (fst e)) (snd e)) ad)) by (apply in_map_iff; exists (name, t); auto).
      destruct (grouped_in "Props" _ _ I2) as (p & Ip & Tp & Cp). exists p. split; [unfold body; rewrite !in_app_iff; tauto|]. split; [exact Tp|]. rewrite Cp. exact I2.
  Qed.
  Lemma members_extended e : member (Some (lit "MS")) x e <-> exists name t, In (Some name, t) (with_name ex) /\ e = write (Some name) t.
  Proof.
    cbn [member x x_children]. split.
    - intros (p & Hp & Tp & He). rewrite in_app_iff in Hp. destruct Hp as [Hp|Hp]; [apply named_tag in Hp; exfalso; rewrite Tp in Hp; destruct Hp as [C|C]; discriminate C|].
      unfold body in Hp. rewrite !in_app_iff in Hp. destruct Hp as [Hp|[Hp|[Hp|Hp]]].
      + apply said_tag in Hp. exfalso. destruct Hp as (C & _). rewrite Tp in C. discriminate C.
      + apply in_map_iff in Hp. destruct Hp as (t & <- & I1). rewrite write_tag in Tp. destruct (plain_set t I1). contradiction.
      + apply grouped_tag in Hp. exfalso. destruct Hp as (C & _). rewrite Tp in C. discriminate C.
      + apply grouped_tag in Hp. destruct Hp as (_ & Hc). rewrite Hc in He. apply in_map_iff in He. destruct He as ([name t] & <- & I1). exists name, t. split; [|reflexivity]. apply in_map_iff. exists (name, t). auto.
    - intros (name & t & I1 & ->). apply in_map_iff in I1. destruct I1 as ([name' t'] & E & I1). cbn [fst snd] in E. apply pair_inj in E. destruct E as (E1 & ->). apply Some_inj in E1. subst name'.
      assert (I2 : In (write (Some name) t) (map (fun e => write (Some (fst e)) (snd e)) ex)) by (apply in_map_iff; exists (name, t); auto).
      destruct (grouped_in "MS" _ _ I2) as (p & Ip & Tp & Cp). exists p. split; [unfold body; rewrite !in_app_iff; tauto|]. split; [exact Tp|]. rewrite Cp. exact I2.
  Qed.
  Lemma child_text : child (lit "ToString") x = match text with Some t => Some (Elem (lit "ToString") [] t []) | None => None end.
  Proof.
    assert (F : forall l, Forall (fun e => str_eqb (x_tag e) (lit "ToString") = false) l -> filter (fun c => str_eqb (x_tag c) (lit "ToString")) l = []) by (intros l; apply filter_none).
    unfold child, find_first. cbn [find_all x x_children]. unfold body. rewrite !filter_app.
    rewrite (F (naming_xml n)), (F (map (write None) sets)), (F (grouped "Props" _)), (F (grouped "MS" _)).
    - destruct text as [t|]; reflexivity.
    - apply Forall_forall. intros e He. apply grouped_tag in He. destruct He as (-> & _). reflexivity.
    - apply Forall_forall. intros e He. apply grouped_tag in He. destruct He as (-> & _). reflexivity.
    - apply Forall_forall. intros e He. apply in_map_iff in He. destruct He as (t & <- & I1). apply str_eqb_neq. rewrite write_tag. rewrite Forall_forall in P. apply plain_tag; [apply P; exact I1|cbn [map In]; tauto].
    - apply Forall_forall. intros e He. apply named_tag in He. destruct He as [-> | ->]; reflexivity.
  Qed.
End Members.

Lemma suits_fits m name t : suits m (name, t) <-> exists w, In w (property_tags m) /\ fits w (m_name m) (write name t).
Proof.
  unfold suits, fits. cbn [fst snd]. rewrite write_tag, write_name. split.
  - intros (A & B). assert (B' : match m_name m with Some n => name = Some n | None => True end) by (destruct (m_name m) as [n|]; [destruct B as [B|B]; [discriminate B|auto]|exact Logic.I]).
    destruct A as [A|A].
    + exists star. split; [unfold property_tags; rewrite A; vm_compute; left; reflexivity|]. split; [left; reflexivity|exact B'].
    + exists (tag_of t). split; [exact A|]. split; [right; reflexivity|exact B'].
  - intros (w & Iw & F1 & F2). split; [|destruct (m_name m); [right; symmetry; exact F2|left; reflexivity]]. destruct F1 as [-> |<-]; [|right; exact Iw].
    left. unfold property_tags in Iw. destruct (existsb _ _); [destruct Iw as [C|[C|[]]]; discriminate C|]. destruct Iw as [Iw|[]]. exact Iw.
Qed.
Section Found.
  Context (fuel : nat) (g : option (list N)) (x : xml) (props : list (option (list N) * item)) (D : (depth x <= S fuel)%nat)
    (there : forall name t, In (name, t) props -> member g x (write name t)).
  Lemma found_findable m :
    (forall e w, member g x e -> In w (property_tags m) -> fits w (m_name m) e -> exists name t, In (name, t) props /\ e = write name t) -> findable fuel g x props m.
  Proof.
    intros U. split; [|split].
    - intros t (name & I1 & S1 & Un). assert (Pr : present g m x) by (apply suits_fits in S1; destruct S1 as (w & Iw & F); exists (write name t), w; auto).
      destruct (find_property_present g m x Pr) as (e & E). destruct (find_property_some g m x e E) as (Me & w & Iw & F). destruct (U e w Me Iw F) as (name' & t' & I2 & ->).
      assert (Eq : (name', t') = (name, t)) by (apply Un; [exact I2|apply suits_fits; eauto]). apply pair_inj in Eq. destruct Eq as (-> & ->).
      exists name. split; [exact E|]. pose proof (present_depth g x _ Me). lia.
    - intros Nn. destruct (find_property (path_of g) m x) as [e|] eqn:E; [|reflexivity]. exfalso. destruct (find_property_some g m x e E) as (Me & w & Iw & F).
      destruct (U e w Me Iw F) as (name' & t' & I2 & ->). apply (Nn _ I2). apply suits_fits. eauto.
    - intros name I1 Q E. apply (find_in_none g (lit "Nil") (m_name m) x E (write name (Scalar (lit "Nil") None))); [apply there; exact I1|].
      split; [right; reflexivity|]. rewrite write_name. destruct (m_name m); [|exact Logic.I]. destruct Q as [Q|Q]; [discriminate Q|auto].
  Qed.
End Found.

Lemma nodup_app {A} (l l' : list A) : NoDup (l ++ l') -> NoDup l /\ NoDup l' /\ forall a, In a l -> ~ In a l'.
Proof.
  induction l as [|a l IH]; cbn [app]; intros H; [split; [apply NoDup_nil|split; [exact H|intros a []]]|]. apply NoDup_cons_iff in H. destruct H as (H1 & H2). destruct (IH H2) as (A1 & A2 & A3).
  rewrite in_app_iff in H1. split; [apply NoDup_cons_iff; split; [intros C; apply H1; left; exact C|exact A1]|]. split; [exact A2|]. intros b [<-|I1]; [intros C; apply H1; right; exact C|exact (A3 b I1)].
Qed.
(* structures *)
Lemma ignored_filter rest w : ignored rest -> ~ In w (map lit ["ToString"; "Props"; "MS"]%string) -> filter (fun c => str_eqb (x_tag c) w) rest = [].
Proof. intros H Nw. apply filter_none. revert H. apply Forall_impl. intros e He. apply str_eqb_neq. intros E. apply Nw. rewrite <- E. exact He. Qed.
Lemma naming_filter n w : w <> lit "TN" -> w <> lit "TNRef" -> filter (fun c => str_eqb (x_tag c) w) (naming_xml n) = [].
Proof. intros H1 H2. apply filter_none. apply Forall_forall. intros e He. apply named_tag in He. apply str_eqb_neq. intros <-. destruct He as [E|E]; rewrite E in *; contradiction. Qed.
Lemma entries_found a n kind l rest : kind <> lit "TN" -> kind <> lit "TNRef" -> entries_of kind (Elem (lit "Obj") a None (naming_xml n ++ Elem kind [] None l :: rest)) = l.
Proof.
  intros H1 H2. unfold entries_of, child, find_first. cbn [find_all x_children]. rewrite filter_app, (naming_filter n kind H1 H2). cbn [app filter x_tag]. rewrite str_eqb_refl. reflexivity.
Qed.
Lemma ignored_calm kind l rest : kind <> lit "TN" -> kind <> lit "TNRef" -> ignored rest -> calm (Elem kind [] None l :: rest).
Proof.
  intros H1 H2 H. apply Forall_cons; [split; assumption|]. revert H. apply Forall_impl. intros e He. cbn [map In] in He. split; intros E; rewrite E in He; revert He; intuition discriminate.
Qed.
Lemma entries_dict a n l rest : ignored rest ->
  find_all [lit "DCT"; lit "En"] (Elem (lit "Obj") a None (naming_xml n ++ Elem (lit "DCT") [] None (map entry_xml l) :: rest)) = map entry_xml l.
Proof.
  intros H. cbn [find_all x_children]. rewrite filter_app, (naming_filter n (lit "DCT")) by discriminate. cbn [app filter x_tag]. change (str_eqb (lit "DCT") (lit "DCT")) with true. cbv iota.
  rewrite (ignored_filter rest (lit "DCT") H) by (cbn [map In]; intuition discriminate). cbn [flat_map x_children]. rewrite app_nil_r.
  induction l as [|e l IHl]; [reflexivity|]. cbn [map filter]. change (str_eqb (x_tag (entry_xml e)) (lit "En")) with true. cbv iota. cbn [flat_map app]. f_equal. exact IHl.
Qed.

Section Rd.
  Context (ci : option cipher) (xml_text : xml -> list N) (float_of : list N -> res (list N)) (classes : list N -> option cdesc).
  Notation desf := (des ci xml_text float_of classes).
  Notation spelled := (spelled ci float_of).
  Notation readable := (readable ci float_of classes).
  Notation holds := (holds ci float_of classes).
  Notation good := (good ci xml_text float_of classes).

  Lemma readable_plain r s t s' : readable r s t s' -> plain_item t.
  Proof. intros H. destruct H as [r s tag text v Sp| | | | | | |]; cbn [plain_item]; auto. destruct (spelled_leaf ci float_of classes _ _ _ Sp) as (A & B & _). auto. Qed.
  Lemma thread_plain r s l s' : thread (readable r) s l s' -> Forall plain_item l.
  Proof. induction 1 as [|s t l s1 s2 H _ IH]; [apply Forall_nil|]. apply Forall_cons; [eapply readable_plain; exact H|exact IH]. Qed.
  Lemma text_read t s : spelled (lit "S") t (VStr s) -> deserialize_string t = Ok s.
  Proof.
    intros H. destruct (spelled_leaf ci float_of classes _ _ _ H) as (_ & _ & _ & E). specialize (E []). 
    change ((do s0 <- deserialize_string t; Ok (VStr s0)) = Ok (VStr s)) in E. destruct (deserialize_string t) as [s0|e]; cbn [bind] in E; [|discriminate E]. apply Ok_inj in E. congruence.
  Qed.
  Lemma good_leaf fuel r s tag text v : spelled tag text v -> good fuel r s (Scalar tag text) s.
  Proof.
    intros Sp nm m st D Hm A. destruct fuel as [|fuel]; [cbn [write depth] in D; lia|]. destruct (spelled_leaf ci float_of classes _ _ _ Sp) as (L1 & L2 & L3 & L4).
    exists v, (next_meta (write nm (Scalar tag text)) m), st. rewrite (des_scalar ci xml_text float_of classes) by (split; [reflexivity|exact L1]). cbn [write]. rewrite L4.
    split; [reflexivity|]. split; [intros S0; apply next_reads; [exact Hm|apply strict_or; exact S0]|]. split; [exact A|]. split; [apply ext_refl|]. apply ho_scalar. exact Sp.
  Qed.
  Lemma good_again fuel r s id : In id (snd s) -> good fuel r s (Again id) s.
  Proof.
    intros I1 nm m st D Hm A. destruct fuel as [|fuel]; [cbn [write depth] in D; lia|]. 
    destruct (dict_get str_eqb id (d_obj st)) as [v|] eqn:E; [|apply (proj2 A) in I1; contradiction].
    exists v, (next_meta (write nm (Again id)) m), st. split.
    { cbn [des]. rewrite get_types_leaf by reflexivity. cbn [bind]. 
      change (primitive ci float_of (write nm (Again id)) st) with (Some (do id0 <- attrib refid (write nm (Again id)); match dict_get str_eqb id0 (d_obj st) with Some v => Ok v | None => Err KeyError end)).
      cbn [bind]. replace (attrib refid (write nm (Again id))) with (@Ok (list N) id) by (destruct nm; reflexivity). cbn [bind]. rewrite E. reflexivity. }
    split; [intros S0; apply next_reads; [exact Hm|apply strict_or; exact S0]|]. split; [exact A|]. split; [apply ext_refl|]. apply ho_again. exact E.
  Qed.
  Lemma own_id nm id cs : attrib refid (Elem (lit "Obj") (attribs nm (id_attr id)) None cs) = Ok id.
  Proof. destruct nm; reflexivity. Qed.

  Section Step.
    Context (fuel : nat) (IH : forall r s t s', readable r s t s' -> good fuel r s t s').

    Lemma generic_step r s id n text sets ad ex s1 s2 s3 s4 :
      taken r n = Some Generic -> ~ In id (snd s) -> names s n s1 -> text_spelled ci float_of text ->
      thread (readable Open) (known id s1) sets s2 ->
      NoDup (map fst ad) -> thread (fun s e => readable Open s (snd e)) s2 ad s3 ->
      NoDup (map fst ex) -> thread (fun s e => readable Open s (snd e)) s3 ex s4 ->
      good (S fuel) r s (Object id n text sets ad ex) s4.
    Proof.
      intros Ht Hi Hn Hs T1 N2 T2 N3 T3 nm m st D Hm A. pose proof (thread_plain _ _ _ _ T1) as Pl.
      cbn [write] in *. change (Elem (lit "Obj") (attribs nm (id_attr id)) None _) with (Elem (lit "Obj") (attribs nm (id_attr id)) None (naming_xml n ++ body text sets ad ex)) in *.
      destruct (types_read (lit "Obj") (attribs nm (id_attr id)) _ n s s1 st (body_calm text sets ad ex Pl) Hn A) as (Eg & A1).
      destruct (des_thing ci xml_text float_of classes fuel _ id _ m st _ n r Generic (own_id nm id _) Hm Ht Eg) as (cm & Sh & Rc & K).
      set (x := Elem (lit "Obj") (attribs nm (id_attr id)) None (naming_xml n ++ body text sets ad ex)) in *.
      assert (Dc : forall c, In c (naming_xml n ++ body text sets ad ex) -> (depth c <= fuel)%nat) by (intros c Ic; pose proof (depth_child x c Ic); lia).
      set (k := length (d_heap st)). set (st0 := renamed n st) in *.
      set (st2 := obj_put id (VObj k) (set_d_heap (d_heap st0 ++ [HGen empty_gobj]) st0)).
      assert (Lk : length (d_heap st0) = k) by (unfold st0; rewrite renamed_heap; reflexivity).
      assert (K2 : at_gen k empty_gobj st2) by (unfold at_gen, st2; cbn [obj_put set_d_obj set_d_heap d_heap]; rewrite nth_error_app2, Lk, Nat.sub_diag by lia; reflexivity).
      assert (A2 : agrees (known id s1) st2) by (apply agrees_put; exact A1).
      assert (N1 : ~ In id (snd s1)) by (rewrite (names_ids _ _ _ Hn); exact Hi).
      assert (X2 : ext (d_obj st) (d_obj st2)) by (unfold st2; cbn [obj_put set_d_obj d_obj set_d_heap]; unfold st0; rewrite renamed_obj; eapply ext_put; [exact A|exact Hi]).
      assert (V2 : dict_get str_eqb id (d_obj st2) = Some (VObj k)) by (unfold st2; cbn [obj_put set_d_obj d_obj]; apply (dict_get_set_same str_eqb str_eqb_spec)).
      (* the type names *)
      assert (Ty : exists st3, des_children (desf fuel) k (naming_xml n) st2 = Ok st3 /\ at_gen k (mkG (types_of n) VNone [] [] []) st3 /\ agrees (known id s1) st3 /\ beside k (d_heap st2) (d_heap st3) /\ d_obj st3 = d_obj st2).
      { destruct n as [|tid ts|tid ts].
        - exists st2. split; [reflexivity|]. split; [exact K2|]. split; [exact A2|]. split; [apply beside_refl|reflexivity].
        - exists (renamed (Named tid ts) (upd_obj k (on_gen (fun g => mkG ts (g_text g) (g_sets g) (g_adapted g) (g_extended g))) st2)). split.
          + cbn [naming_xml des_children x_tag x_children]. change (str_eqb (lit "TN") (lit "TN")) with true. cbv iota. fold (Ts ts). rewrite Ts_texts.
            change (attrib refid (Elem (lit "TN") (id_attr tid) None (Ts ts))) with (@Ok (list N) tid). cbn [bind]. unfold at_gen in K2. rewrite K2. reflexivity.
          + split; [exact (at_gen_upd k (fun g => mkG ts (g_text g) (g_sets g) (g_adapted g) (g_extended g)) _ _ K2)|].
            split; [|split; [apply upd_beside|reflexivity]]. destruct (renamed_again (Named tid ts) s s1 (set_d_obj (d_obj (set_d_heap [] st0)) st2) Hn) as (Q1 & _).
            { split; [exact (proj1 A2)|]. intros i. exact (proj2 A1 i). }
            split; [exact Q1|exact (proj2 A2)].
        - exists (upd_obj k (on_gen (fun g => mkG ts (g_text g) (g_sets g) (g_adapted g) (g_extended g))) st2). split.
          + cbn [naming_xml des_children x_tag x_children]. change (str_eqb (lit "TNRef") (lit "TN")) with false. change (str_eqb (lit "TNRef") (lit "TNRef")) with true. cbv iota.
            change (attrib refid (Elem (lit "TNRef") (id_attr tid) None [])) with (@Ok (list N) tid). cbn [bind]. unfold tn_get.
            assert (G : dict_get str_eqb tid (d_tn st2) = Some ts) by (apply (proj1 A2); cbn [known fst]; inversion Hn; assumption). rewrite G. reflexivity.
          + split; [exact (at_gen_upd k (fun g => mkG ts (g_text g) (g_sets g) (g_adapted g) (g_extended g)) _ _ K2)|]. split; [exact A2|]. split; [apply upd_beside|reflexivity]. }
      destruct Ty as (st3 & E3 & K3 & A3 & B3 & O3).
      (* the text *)
      assert (Tx : exists v st4, des_children (desf fuel) k (said_xml text) st3 = Ok st4 /\ at_gen k (mkG (types_of n) v [] [] []) st4 /\ agrees (known id s1) st4 /\ beside k (d_heap st3) (d_heap st4) /\
                     d_obj st4 = d_obj st3 /\ text_held ci float_of text v).
      { destruct text as [t|]; [|exists VNone, st3; split; [reflexivity|]; split; [exact K3|]; split; [exact A3|]; split; [apply beside_refl|]; split; reflexivity]. destruct Hs as (tx & Hs).
        exists (VStr tx), (upd_obj k (on_gen (fun g => mkG (g_types g) (VStr tx) (g_sets g) (g_adapted g) (g_extended g))) st3). split.
        - assert (Df : (depth (Elem (lit "ToString") [] t []) <= fuel)%nat) by (apply Dc; rewrite in_app_iff; right; left; reflexivity).
          assert (Es : desf fuel (Elem (lit "ToString") [] t []) any_meta st3 = Ok (VStr tx, next_meta (Elem (lit "ToString") [] t []) any_meta, st3)).
          { revert Df. clear -Hs. generalize fuel. intros [|f] Df; [cbn [depth fold_right] in Df; lia|]. rewrite (des_scalar ci xml_text float_of classes) by (split; [reflexivity|unfold scalar_tags; cbn [map In x_tag]; tauto]).
            change (scalar_of ci float_of (Elem (lit "ToString") [] t [])) with (do s0 <- deserialize_string t; Ok (VStr s0)). rewrite (text_read _ _ Hs). reflexivity. }
          cbn [said_xml des_children x_tag]. change (str_eqb (lit "ToString") (lit "TN")) with false. change (str_eqb (lit "ToString") (lit "TNRef")) with false. change (str_eqb (lit "ToString") (lit "Props")) with false.
          change (str_eqb (lit "ToString") (lit "MS")) with false. change (str_eqb (lit "ToString") (lit "ToString")) with true. cbv iota. rewrite Es. reflexivity.
        - split; [exact (at_gen_upd k (fun g => mkG (g_types g) (VStr tx) (g_sets g) (g_adapted g) (g_extended g)) _ _ K3)|]. split; [exact A3|]. split; [apply upd_beside|]. split; [reflexivity|exact Hs]. }
      destruct Tx as (v4 & st4 & E4 & K4 & A4 & B4 & O4 & H4).
      destruct (sets_read ci xml_text float_of classes fuel IH k _ _ _ T1 _ st4 K4 A4 Pl) as (vs & st5 & E5 & K5 & A5 & B5 & X5 & L5 & H5).
      { intros t I1. apply Dc. unfold body. rewrite !in_app_iff. right. right. left. apply in_map. exact I1. }
      cbn [g_types g_text g_sets g_adapted g_extended app] in K5.
      assert (Ds : forall tag (l : list (list N * item)) e, In e l -> (forall c, In c (grouped tag (map (fun e => write (Some (fst e)) (snd e)) l)) -> (depth c <= fuel)%nat) -> (depth (write (Some (fst e)) (snd e)) <= fuel)%nat).
      { intros tag l e Ie Hd. assert (I2 : In (write (Some (fst e)) (snd e)) (map (fun e => write (Some (fst e)) (snd e)) l)) by (apply (in_map (fun e => write (Some (fst e)) (snd e))); exact Ie).
        destruct (grouped_in tag _ _ I2) as (p & Ip & _ & Cp). specialize (Hd p Ip). pose proof (depth_child p (write (Some (fst e)) (snd e))) as Hc. rewrite Cp in Hc. specialize (Hc I2). lia. }
      destruct (named_read ci xml_text float_of classes fuel IH k (fun a v g => mkG (g_types g) (g_text g) (g_sets g) (dict_set str_eqb a v (g_adapted g)) (g_extended g))
                  (fun acc => mkG (types_of n) v4 vs acc [])) with (s := s2) (l := ad) (s' := s3) (acc := @nil (list N * value)) (st := st5) as (va & st6 & E6 & K6 & A6 & B6 & X6 & L6 & H6).
      { intros a v acc Na. cbn [g_types g_text g_sets g_adapted g_extended]. rewrite dict_set_fresh by exact Na. reflexivity. }
      { exact T2. } { exact N2. } { intros a _ []. } { exact K5. } { exact A5. }
      { intros e Ie. apply (Ds "Props"%string ad e Ie). intros c Ic. apply Dc. unfold body. rewrite !in_app_iff. tauto. }
      cbn [app] in K6.
      destruct (named_read ci xml_text float_of classes fuel IH k (fun a v g => mkG (g_types g) (g_text g) (g_sets g) (g_adapted g) (dict_set str_eqb a v (g_extended g)))
                  (fun acc => mkG (types_of n) v4 vs va acc)) with (s := s3) (l := ex) (s' := s4) (acc := @nil (list N * value)) (st := st6) as (ve & st7 & E7 & K7 & A7 & B7 & X7 & L7 & H7).
      { intros a v acc Na. cbn [g_types g_text g_sets g_adapted g_extended]. rewrite dict_set_fresh by exact Na. reflexivity. }
      { exact T3. } { exact N3. } { intros a _ []. } { exact K6. } { exact A6. }
      { intros e Ie. apply (Ds "MS"%string ex e Ie). intros c Ic. apply Dc. unfold body. rewrite !in_app_iff. tauto. }
      cbn [app] in K7.
      assert (Eall : des_children (desf fuel) k (x_children x) st2 = Ok st7).
      { unfold x. cbn [x_children]. unfold body. rewrite !des_children_app, E3. cbn [bind]. rewrite !des_children_app, E4. cbn [bind]. rewrite !des_children_app, E5. cbn [bind]. rewrite !des_children_app.
        assert (E6' : des_children (desf fuel) k (grouped "Props" (map (fun e => write (Some (fst e)) (snd e)) ad)) st5 = Ok st6).
        { destruct ad as [|e0 ad0]; [exact E6|]. cbn [map grouped des_children x_tag x_children] in *. change (str_eqb (lit "Props") (lit "TN")) with false. change (str_eqb (lit "Props") (lit "TNRef")) with false.
          change (str_eqb (lit "Props") (lit "Props")) with true. cbv iota. rewrite E6. reflexivity. }
        rewrite E6'. cbn [bind]. destruct ex as [|e0 ex0]; [exact E7|]. cbn [map grouped des_children x_tag x_children] in *. change (str_eqb (lit "MS") (lit "TN")) with false. change (str_eqb (lit "MS") (lit "TNRef")) with false.
        change (str_eqb (lit "MS") (lit "Props")) with false. change (str_eqb (lit "MS") (lit "MS")) with true. cbv iota. rewrite E7. reflexivity. }
      assert (Es : des_struct xml_text classes (desf fuel) x cm st0 = Ok (VObj k, cm, st7) /\ as_reading cm = Some Generic).
      { split; [|exact Rc]. remember Generic as G eqn:EG. destruct Sh as [m0 Tm Om| | | | |]; try discriminate EG.
        unfold des_struct. rewrite Tm. change (str_eqb (lit "ObjDynamic") (lit "Obj")) with false. change (str_eqb (lit "ObjDynamic") (lit "ObjDynamic")) with true. cbv iota.
        unfold des_dynamic. rewrite Om. change (str_eqb generic_name generic_name) with true. cbv iota. unfold new_obj. rewrite Lk. rewrite (own_id nm id _ : attrib refid x = Ok id). cbn [bind]. fold st2. rewrite Eall. reflexivity. }
      destruct Es as (Es & Rm). destruct (K _ _ _ Es Rm) as (m' & Ed & Rm').
      assert (X72 : ext (d_obj st2) (d_obj st7)) by (eapply ext_trans; [|exact X7]; eapply ext_trans; [|exact X6]; rewrite <- O3, <- O4; exact X5).
      assert (V7 : dict_get str_eqb id (d_obj st7) = Some (VObj k)) by (apply X72; exact V2).
      assert (X8 : ext (d_obj st7) (d_obj (obj_put id (VObj k) st7))) by (apply ext_same; exact V7).
      assert (I7 : In id (snd s4)) by (apply (proj2 A7); rewrite V7; discriminate).
      exists (VObj k), m', (obj_put id (VObj k) st7). split; [exact Ed|]. split; [exact Rm'|]. split; [apply agrees_put_known; assumption|].
      split; [eapply ext_trans; [|exact X8]; eapply ext_trans; eassumption|].
      assert (After : forall h h', beside k h h' -> after (S k) h h') by (intros h h' Bs; apply (beside_after k); [apply le_n|exact Bs]).
      apply (ho_generic _ _ _ _ _ _ r id n text sets ad ex k (mkG (types_of n) v4 vs va ve)); cbn [g_types g_text g_sets g_adapted g_extended].
      - exact Ht.
      - apply le_n.
      - exact K7.
      - apply X8. exact V7.
      - reflexivity.
      - exact H4.
      - exact L5.
      - apply (each_mono ci float_of classes _ _ _ _ _ _ _ _ _ H5); [lia|apply After; eapply beside_trans; eassumption|eapply ext_trans; [|exact X8]; eapply ext_trans; eassumption].
      - exact L6.
      - apply (each_mono ci float_of classes _ _ _ _ _ _ _ _ _ H6); [lia|apply After; exact B7|eapply ext_trans; eassumption].
      - exact L7.
      - apply (each_mono ci float_of classes _ _ _ _ _ _ _ _ _ H7); [lia|apply After; apply beside_refl|exact X8].
    Qed.

    Lemma instance_step r s id n text sets ad ex c d s1 s2 s3 s4 :
      taken r n = Some (Instance c) -> classes c = Some d -> class_ok d -> ~ In id (snd s) -> names s n s1 -> text_spelled ci float_of text -> Forall plain_item sets ->
      thread (filled readable (without sets)) (known id s1) (cd_sets d) s2 ->
      thread (filled readable (with_name ad)) s2 (cd_adapted d) s3 ->
      thread (filled readable (with_name ex)) s3 (cd_extended d) s4 ->
      good (S fuel) r s (Object id n text sets ad ex) s4.
    Proof.
      intros Ht Hc (Ok1 & Ok2 & Ok3) Hi Hn Hs Pl T1 T2 T3 nm m st D Hm A.
      cbn [write] in *. change (Elem (lit "Obj") (attribs nm (id_attr id)) None _) with (Elem (lit "Obj") (attribs nm (id_attr id)) None (naming_xml n ++ body text sets ad ex)) in *.
      destruct (types_read (lit "Obj") (attribs nm (id_attr id)) _ n s s1 st (body_calm text sets ad ex Pl) Hn A) as (Eg & A1).
      destruct (des_thing ci xml_text float_of classes fuel _ id _ m st _ n r (Instance c) (own_id nm id _) Hm Ht Eg) as (cm & Sh & Rc & K).
      pose proof (child_text (attribs nm (id_attr id)) n text sets ad ex Pl) as Ct.
      pose proof (members_sets (attribs nm (id_attr id)) n text sets ad ex) as Ms. pose proof (sets_members (attribs nm (id_attr id)) n text sets ad ex) as Sm.
      pose proof (members_adapted (attribs nm (id_attr id)) n text sets ad ex Pl) as Ma. pose proof (members_extended (attribs nm (id_attr id)) n text sets ad ex Pl) as Me.
      set (x := Elem (lit "Obj") (attribs nm (id_attr id)) None (naming_xml n ++ body text sets ad ex)) in *.
      assert (F1 : forall a m, In (a, m) (cd_sets d) -> findable fuel None x (without sets) m).
      { intros a m0 Ia. apply found_findable; [exact D|exact Sm|]. intros e w Me0 Iw F. rewrite Forall_forall in Ok3. specialize (Ok3 _ Ia). cbn [snd] in Ok3. destruct Ok3 as (G1 & G2 & G3).
        assert (w = m_tag m0 /\ m_tag m0 <> star).
        { unfold property_tags in Iw. unfold scalar_tags in G1. cbn [map In] in G1.
          repeat (destruct G1 as [G1|G1]; [rewrite <- G1 in *; vm_compute in Iw; destruct Iw as [<-|[]]; split; [reflexivity|discriminate]|]). destruct G1. }
        destruct H as (-> & Ns). destruct F as ([F|F] & _); [contradiction|].
        destruct (Ms e Me0) as (t & I1 & ->); [rewrite F; exact G1|rewrite F; intros E; apply G2; rewrite E; left; reflexivity|]. exists None, t. auto. }
      assert (F2 : forall a m, In (a, m) (cd_adapted d) -> findable fuel (Some (lit "Props")) x (with_name ad) m).
      { intros a m0 Ia. apply found_findable; [exact D| |].
        - intros name t I1. pose proof I1 as I1'. apply in_map_iff in I1'. destruct I1' as (e & E & _). apply pair_inj in E. destruct E as (<- & _). apply Ma. exists (fst e), t. auto.
        - intros e w Me0 _ _. apply Ma in Me0. destruct Me0 as (name & t & I1 & ->). exists (Some name), t. auto. }
      assert (F3 : forall a m, In (a, m) (cd_extended d) -> findable fuel (Some (lit "MS")) x (with_name ex) m).
      { intros a m0 Ia. apply found_findable; [exact D| |].
        - intros name t I1. pose proof I1 as I1'. apply in_map_iff in I1'. destruct I1' as (e & E & _). apply pair_inj in E. destruct E as (<- & _). apply Me. exists (fst e), t. auto.
        - intros e w Me0 _ _. apply Me in Me0. destruct Me0 as (name & t & I1 & ->). exists (Some name), t. auto. }
      rewrite !map_app in Ok1, Ok2. destruct (nodup_app _ _ Ok1) as (Nd1 & Nd23 & Df1). destruct (nodup_app _ _ Nd23) as (Nd2 & Nd3 & Df2).
      set (k := length (d_heap st)). set (st0 := renamed n st) in *.
      set (st2 := obj_put id (VObj k) (set_d_heap (d_heap st0 ++ [HCls c (cd_init d)]) st0)).
      assert (Lk : length (d_heap st0) = k) by (unfold st0; rewrite renamed_heap; reflexivity).
      assert (K2 : at_cls k c (cd_init d) st2) by (unfold at_cls, st2; cbn [obj_put set_d_obj set_d_heap d_heap]; rewrite nth_error_app2, Lk, Nat.sub_diag by lia; reflexivity).
      assert (A2 : agrees (known id s1) st2) by (apply agrees_put; exact A1).
      assert (X2 : ext (d_obj st) (d_obj st2)) by (unfold st2; cbn [obj_put set_d_obj d_obj set_d_heap]; unfold st0; rewrite renamed_obj; eapply ext_put; [exact A|exact Hi]).
      assert (V2 : dict_get str_eqb id (d_obj st2) = Some (VObj k)) by (unfold st2; cbn [obj_put set_d_obj d_obj]; apply (dict_get_set_same str_eqb str_eqb_spec)).
      assert (Tx : exists attrs st3, match child (lit "ToString") x with
                                     | Some t => do s0 <- deserialize_string (x_text t); Ok (upd_obj k (set_field (lit "_to_string") (VStr s0)) st2)
                                     | None => Ok st2
                                     end = Ok st3 /\ at_cls k c attrs st3 /\ agrees (known id s1) st3 /\ d_obj st3 = d_obj st2 /\
                     match text with
                     | Some t => exists v, dict_get str_eqb (lit "_to_string") attrs = Some v /\ spelled (lit "S") t v
                     | None => dict_get str_eqb (lit "_to_string") attrs = dict_get str_eqb (lit "_to_string") (cd_init d)
                     end).
      { rewrite Ct. destruct text as [t|].
        - destruct Hs as (tx & Hs). exists (dict_set str_eqb (lit "_to_string") (VStr tx) (cd_init d)), (upd_obj k (set_field (lit "_to_string") (VStr tx)) st2). cbn [x_text]. rewrite (text_read _ _ Hs). cbn [bind].
          split; [reflexivity|]. split; [apply at_cls_set; exact K2|]. split; [exact A2|]. split; [reflexivity|]. exists (VStr tx). split; [apply (dict_get_set_same str_eqb str_eqb_spec)|exact Hs].
        - exists (cd_init d), st2. split; [reflexivity|]. split; [exact K2|]. split; [exact A2|]. split; reflexivity. }
      destruct Tx as (at3 & st3 & E3 & K3 & A3 & O3 & H3).
      destruct (props_read ci xml_text float_of classes fuel IH k d None x (without sets) c _ _ _ T1 st3 at3 Nd1 F1 K3 A3) as (at4 & st4 & E4 & K4 & A4 & B4 & X4 & O4 & H4).
      destruct (props_read ci xml_text float_of classes fuel IH k d (Some (lit "Props")) x (with_name ad) c _ _ _ T2 st4 at4 Nd2 F2 K4 A4) as (at5 & st5 & E5 & K5 & A5 & B5 & X5 & O5 & H5).
      destruct (props_read ci xml_text float_of classes fuel IH k d (Some (lit "MS")) x (with_name ex) c _ _ _ T3 st5 at5 Nd3 F3 K5 A5) as (at6 & st6 & E6 & K6 & A6 & B6 & X6 & O6 & H6).
      assert (Es : des_struct xml_text classes (desf fuel) x cm st0 = Ok (VObj k, cm, st6)).
      { remember (Instance c) as G eqn:EG. destruct Sh as [|m0 c0 Tm Om| | | |]; try discriminate EG. injection EG as ->.
        unfold des_struct. rewrite Tm. change (str_eqb (lit "Obj") (lit "Obj")) with true. cbv iota.
        unfold des_obj. rewrite Om, Hc. unfold new_obj. rewrite Lk. rewrite (own_id nm id _ : attrib refid x = Ok id). cbn [bind]. fold st2. rewrite E3. cbn [bind].
        cbn [path_of] in E4, E5, E6. rewrite E4. cbn [bind]. rewrite E5. cbn [bind]. rewrite E6. reflexivity. }
      destruct (K _ _ _ Es Rc) as (m' & Ed & Rm').
      assert (X62 : ext (d_obj st2) (d_obj st6)) by (eapply ext_trans; [|exact X6]; eapply ext_trans; [|exact X5]; rewrite <- O3; exact X4).
      assert (V6 : dict_get str_eqb id (d_obj st6) = Some (VObj k)) by (apply X62; exact V2).
      assert (X8 : ext (d_obj st6) (d_obj (obj_put id (VObj k) st6))) by (apply ext_same; exact V6).
      assert (I6 : In id (snd s4)) by (apply (proj2 A6); rewrite V6; discriminate).
      exists (VObj k), m', (obj_put id (VObj k) st6). split; [exact Ed|]. split; [exact Rm'|]. split; [apply agrees_put_known; assumption|].
      split; [eapply ext_trans; [|exact X8]; eapply ext_trans; eassumption|].
      assert (All : forall props a m0, In (props, (a, m0)) (map (fun e => (without sets, e)) (cd_sets d) ++ map (fun e => (with_name ad, e)) (cd_adapted d) ++ map (fun e => (with_name ex, e)) (cd_extended d)) ->
                      attribute ci float_of classes k (obj_put id (VObj k) st6) at6 props a m0).
      { intros props a m0 Hin. rewrite !in_app_iff in Hin. destruct Hin as [Hin|[Hin|Hin]]; apply in_map_iff in Hin; destruct Hin as (e & Ee & Ie); apply pair_inj in Ee; destruct Ee as (<- & ->).
        - pose proof (in_map fst _ _ Ie) as If. cbn [fst] in If. apply (attribute_later ci float_of classes k st4 _ at4 at6 _ a m0 (H4 a m0 Ie)).
          + rewrite O6, O5; [reflexivity| |]; intros C; apply (Df1 a If); rewrite in_app_iff; auto.
          + cbn [obj_put set_d_obj d_heap]. eapply beside_trans; eassumption.
          + eapply ext_trans; [|exact X8]. eapply ext_trans; eassumption.
        - pose proof (in_map fst _ _ Ie) as If. cbn [fst] in If. apply (attribute_later ci float_of classes k st5 _ at5 at6 _ a m0 (H5 a m0 Ie)).
          + apply O6. exact (Df2 a If).
          + cbn [obj_put set_d_obj d_heap]. exact B6.
          + eapply ext_trans; [exact X6|exact X8].
        - apply (attribute_later ci float_of classes k st6 _ at6 at6 _ a m0 (H6 a m0 Ie)); [reflexivity|apply beside_refl|exact X8]. }
      apply (ho_instance _ _ _ _ _ _ r id n text sets ad ex k c d at6).
      - exact Ht.
      - exact Hc.
      - apply le_n.
      - exact K6.
      - apply X8. exact V6.
      - assert (Q : dict_get str_eqb (lit "_to_string") at6 = dict_get str_eqb (lit "_to_string") at3).
        { rewrite !in_app_iff in Ok2. rewrite O6, O5, O4; [reflexivity| | |]; intros C; apply Ok2; auto. }
        rewrite Q. exact H3.
      - intros props a m0 Hin. destruct (All props a m0 Hin) as (Q1 & Q2 & _). split; assumption.
      - intros props a m0 t r' v Hin O R V. destruct (All props a m0 Hin) as (_ & _ & Q3).
        apply (holds_mono ci float_of classes _ _ _ _ _ _ _ _ _ (Q3 t r' v O R V)); [apply Nat.le_succ_diag_r|intros i o _ Hh; exact Hh|apply ext_refl].
    Qed.

    (* lists, queues and stacks *)
    Definition kept (r' : reading) (om om' : option meta) : Prop := match om with None => om' = None | Some _ => exists m', om' = Some m' /\ reads_as m' r' end.
    Lemma seq_step kind q r' (wrap : list value -> value) : kind <> lit "TN" -> kind <> lit "TNRef" ->
      (forall x cm st, shape q cm -> exists om, (forall m, om = Some m -> reads_as m r' /\ strict r' = r') /\ (om = None -> r' = Open) /\
         forall vs om' st', des_entries (desf fuel) om (entries_of kind x) st = Ok (vs, om', st') -> kept r' om om' ->
           exists cm', des_struct xml_text classes (desf fuel) x cm st = Ok (wrap vs, cm', st') /\ as_reading cm' = Some q) ->
      (forall base h e r id n l rest vs, taken r n = Some q -> dict_get str_eqb id e = Some (wrap vs) -> length l = length vs -> each ci float_of classes base h e r' l vs ->
         holds base h e r (Members id n kind l rest) (wrap vs)) ->
      forall r s id n l rest s1 s2, taken r n = Some q -> names s n s1 -> thread (readable r') s1 l s2 -> ~ In id (snd s2) -> ignored rest ->
      good (S fuel) r s (Members id n kind l rest) (known id s2).
    Proof.
      intros Nk1 Nk2 Hstruct Hheld r s id n l rest s1 s2 Ht Hn T1 Hi Hr nm m st D Hm A. cbn [write] in *.
      destruct (types_read (lit "Obj") (attribs nm (id_attr id)) _ n s s1 st (ignored_calm kind (map (write None) l) rest Nk1 Nk2 Hr) Hn A) as (Eg & A1).
      destruct (des_thing ci xml_text float_of classes fuel _ id _ m st _ n r q (own_id nm id _) Hm Ht Eg) as (cm & Sh & Rc & K).
      pose proof (entries_found (attribs nm (id_attr id)) n kind (map (write None) l) rest Nk1 Nk2) as En.
      set (x := Elem (lit "Obj") (attribs nm (id_attr id)) None (naming_xml n ++ Elem kind [] None (map (write None) l) :: rest)) in *.
      destruct (Hstruct x cm (renamed n st) Sh) as (om & O1 & O2 & Hs). rewrite En in Hs.
      destruct (entries_read ci xml_text float_of classes fuel IH r' s1 l s2 T1 om (renamed n st) O1 O2 A1) as (vs & om' & st2 & E2 & R2 & A2 & G2 & X2 & L2 & H2).
      { intros t It. pose proof (depth_child (Elem kind [] None (map (write None) l)) (write None t) (in_map _ _ _ It)) as D1.
        assert (D2 : (depth (Elem kind [] None (map (write None) l)) < depth x)%nat) by (apply depth_child; unfold x; cbn [x_children]; rewrite in_app_iff; right; left; reflexivity). lia. }
      destruct (Hs _ _ _ E2 R2) as (cm' & Es & Rc'). destruct (K _ _ _ Es Rc') as (m' & Ed & Rm').
      rewrite renamed_heap in *. rewrite renamed_obj in *. pose proof (ext_put s2 st2 id (wrap vs) A2 Hi) as X3.
      exists (wrap vs), m', (obj_put id (wrap vs) st2). split; [exact Ed|]. split; [exact Rm'|]. split; [apply agrees_put; exact A2|]. split; [eapply ext_trans; [exact X2|exact X3]|].
      apply Hheld; [exact Ht|cbn [obj_put set_d_obj d_obj]; apply (dict_get_set_same str_eqb str_eqb_spec)|exact L2|].
      apply (each_mono ci float_of classes _ _ _ _ _ _ _ _ _ H2); [apply le_n|intros i o _ Hh; exact Hh|exact X3].
    Qed.
    Lemma list_step r' : strict r' = r' -> forall r s id n l rest s1 s2, taken r n = Some (ListOf r') -> names s n s1 -> thread (readable r') s1 l s2 -> ~ In id (snd s2) -> ignored rest ->
      good (S fuel) r s (Members id n (lit "LST") l rest) (known id s2).
    Proof.
      intros Sr. apply (seq_step (lit "LST") (ListOf r') r' VList); try discriminate.
      - intros x cm st Sh. remember (ListOf r') as q eqn:Eq. destruct Sh as [| |e ts nm o c r0 Re| | |]; try discriminate Eq. injection Eq as Eq.
        exists (Some e). split; [|split; [discriminate|]].
        + intros m E. apply Some_inj in E. subst m. split; [|exact Sr]. destruct r0; cbn [strict] in Eq; subst r'; try (left; exact Re). right. auto.
        + intros vs om' st' E (m' & -> & Rm). exists (with_entry m' (Meta (KList e ts) (lit "LST") nm o c)). split.
          * unfold des_struct. cbn [m_tag]. change (str_eqb (lit "LST") (lit "Obj")) with false. change (str_eqb (lit "LST") (lit "ObjDynamic")) with false. change (str_eqb (lit "LST") (lit "LST")) with true. cbv iota.
            unfold des_lst. cbn [list_info m_kind fst]. rewrite E. reflexivity.
          * cbn [with_entry m_kind set_kind as_reading]. change (str_eqb (lit "LST") (lit "LST")) with true. cbv iota. rewrite Eq. destruct Rm as [-> |(-> & ->)]; [rewrite Sr; reflexivity|reflexivity].
      - intros base h e r id n l rest vs H1 H2 H3 H4. apply (ho_list _ _ _ _ _ _ r id n l rest r' vs); assumption.
    Qed.
    Lemma queue_step : forall r s id n l rest s1 s2, taken r n = Some Que -> names s n s1 -> thread (readable Open) s1 l s2 -> ~ In id (snd s2) -> ignored rest ->
      good (S fuel) r s (Members id n (lit "QUE") l rest) (known id s2).
    Proof.
      apply (seq_step (lit "QUE") Que Open VQueue); try discriminate.
      - intros x cm st Sh. remember Que as q eqn:Eq. destruct Sh as [| | | |e ts nm o c|]; try discriminate Eq.
        exists None. split; [discriminate|]. split; [reflexivity|]. intros vs om' st' E Ek. exists (Meta (KQueue e ts) (lit "QUE") nm o c). split; [|reflexivity].
        unfold des_struct. cbn [m_tag]. change (str_eqb (lit "QUE") (lit "Obj")) with false. change (str_eqb (lit "QUE") (lit "ObjDynamic")) with false. change (str_eqb (lit "QUE") (lit "LST")) with false.
        change (str_eqb (lit "QUE") (lit "QUE")) with true. cbv iota. unfold des_que. rewrite E. reflexivity.
      - intros base h e r id n l rest vs H1 H2 H3 H4. apply (ho_queue _ _ _ _ _ _ r id n l rest vs); assumption.
    Qed.
    Lemma stack_step : forall r s id n l rest s1 s2, taken r n = Some Stk -> names s n s1 -> thread (readable Open) s1 l s2 -> ~ In id (snd s2) -> ignored rest ->
      good (S fuel) r s (Members id n (lit "STK") l rest) (known id s2).
    Proof.
      apply (seq_step (lit "STK") Stk Open VList); try discriminate.
      - intros x cm st Sh. remember Stk as q eqn:Eq. destruct Sh as [| | | | |e ts nm o c]; try discriminate Eq.
        exists None. split; [discriminate|]. split; [reflexivity|]. intros vs om' st' E Ek. exists (Meta (KStack e ts) (lit "STK") nm o c). split; [|reflexivity].
        unfold des_struct. cbn [m_tag]. change (str_eqb (lit "STK") (lit "Obj")) with false. change (str_eqb (lit "STK") (lit "ObjDynamic")) with false. change (str_eqb (lit "STK") (lit "LST")) with false.
        change (str_eqb (lit "STK") (lit "QUE")) with false. change (str_eqb (lit "STK") (lit "STK")) with true. cbv iota. unfold des_stk. rewrite E. reflexivity.
      - intros base h e r id n l rest vs H1 H2 H3 H4. apply (ho_stack _ _ _ _ _ _ r id n l rest vs); assumption.
    Qed.
    Lemma dict_step r s id n l rest ks s1 s2 : taken r n = Some Dict -> names s n s1 ->
      Forall2 (fun e k => exists tag text, fst e = Scalar tag text /\ spelled tag text k) l ks -> distinct_keys (map (fun k => (k, VNone)) ks) ->
      thread (fun s e => readable Open s (snd e)) s1 l s2 -> ~ In id (snd s2) -> ignored rest ->
      good (S fuel) r s (Pairs id n l rest) (known id s2).
    Proof.
      intros Ht Hn F2 Dk T1 Hi Hr nm m st D Hm A. cbn [write] in *.
      change (map (fun e => Elem (lit "En") [] None [write (Some (lit "Key")) (fst e); write (Some (lit "Value")) (snd e)]) l) with (map entry_xml l) in *.
      destruct (types_read (lit "Obj") (attribs nm (id_attr id)) _ n s s1 st (ignored_calm (lit "DCT") (map entry_xml l) rest ltac:(discriminate) ltac:(discriminate) Hr) Hn A) as (Eg & A1).
      destruct (des_thing ci xml_text float_of classes fuel _ id _ m st _ n r Dict (own_id nm id _) Hm Ht Eg) as (cm & Sh & Rc & K).
      pose proof (entries_dict (attribs nm (id_attr id)) n l rest Hr) as En.
      set (x := Elem (lit "Obj") (attribs nm (id_attr id)) None (naming_xml n ++ Elem (lit "DCT") [] None (map entry_xml l) :: rest)) in *.
      destruct (pairs_read ci xml_text float_of classes fuel IH s1 l s2 T1 ks [] (renamed n st) F2 Dk) as (d & st2 & E2 & A2 & G2 & X2 & L2 & H2 & H3).
      { apply Forall_forall. intros k _. apply Forall_nil. } { exact A1. }
      { intros t It. pose proof (depth_child (Elem (lit "DCT") [] None (map entry_xml l)) (entry_xml t) (in_map _ _ _ It)) as D1.
        assert (D2 : (depth (Elem (lit "DCT") [] None (map entry_xml l)) < depth x)%nat) by (apply depth_child; unfold x; cbn [x_children]; rewrite in_app_iff; right; left; reflexivity). lia. }
      cbn [app] in E2.
      assert (Es : des_struct xml_text classes (desf fuel) x cm (renamed n st) = Ok (VDict d, cm, st2)).
      { remember Dict as q eqn:Eq. destruct Sh as [| | |a b ts nm0 o c| |]; try discriminate Eq.
        unfold des_struct. cbn [m_tag]. change (str_eqb (lit "DCT") (lit "Obj")) with false. change (str_eqb (lit "DCT") (lit "ObjDynamic")) with false. change (str_eqb (lit "DCT") (lit "LST")) with false.
        change (str_eqb (lit "DCT") (lit "QUE")) with false. change (str_eqb (lit "DCT") (lit "STK")) with false. change (str_eqb (lit "DCT") (lit "DCT")) with true. cbv iota. unfold des_dct. rewrite En, E2. reflexivity. }
      destruct (K _ _ _ Es Rc) as (m' & Ed & Rm').
      rewrite renamed_heap in *. rewrite renamed_obj in *. pose proof (ext_put s2 st2 id (VDict d) A2 Hi) as X3.
      exists (VDict d), m', (obj_put id (VDict d) st2). split; [exact Ed|]. split; [exact Rm'|]. split; [apply agrees_put; exact A2|]. split; [eapply ext_trans; [exact X2|exact X3]|].
      apply (ho_dict _ _ _ _ _ _ r id n l rest d); [exact Ht|cbn [obj_put set_d_obj d_obj]; apply (dict_get_set_same str_eqb str_eqb_spec)|exact L2| |].
      - intros i e p Q1 Q2. apply (holds_mono ci float_of classes (length (d_heap st)) _ (d_heap st2) _ (d_obj st2)); [|apply le_n|intros i0 o _ Hh; exact Hh|exact X3].
        apply (H2 i); [exact (map_nth_error fst _ _ Q1)|exact (map_nth_error fst _ _ Q2)].
      - intros i e p Q1 Q2. apply (holds_mono ci float_of classes (length (d_heap st)) _ (d_heap st2) _ (d_obj st2)); [|apply le_n|intros i0 o _ Hh; exact Hh|exact X3].
        apply (H3 i); [exact (map_nth_error snd _ _ Q1)|exact (map_nth_error snd _ _ Q2)].
    Qed.
  End Step.

  Lemma listof_strict r n r' m : taken r n = Some (ListOf r') -> reads_as m r -> strict r' = r'.
  Proof.
    intros Ht Hm. assert (E : exists cm, as_reading cm = Some (ListOf r')).
    { destruct r; cbn [taken] in Ht; try (apply Some_inj in Ht; discriminate Ht).
      - destruct (by_types_firm _ _ Ht) as (cm & _ & E & _). eauto.
      - destruct (types_of n); [discriminate Ht|]. destruct (by_types_firm _ _ Ht) as (cm & _ & E & _). eauto.
      - apply Some_inj in Ht. injection Ht as ->. destruct Hm as [Hm|(_ & C)]; [eauto|discriminate C]. }
    destruct E as (cm & E). pose proof (firm_shape _ _ E ltac:(split; discriminate)) as Sh. remember (ListOf r') as q eqn:Eq. destruct Sh; try discriminate Eq. injection Eq as <-. destruct r0; reflexivity.
  Qed.
  Theorem read_item : forall fuel r s t s', readable r s t s' -> good fuel r s t s'.
  Proof.
    induction fuel as [|fuel IH]; intros r s t s' H.
    - intros nm m st D. destruct (depth_S (write nm t)) as (k & E). rewrite E in D. lia.
    - destruct H as [r s tag text v Sp|r s id I1|r s id n text sets ad ex s1 s2 s3 s4 Ht Hi Hn Hs T1 N2 T2 N3 T3|r s id n text sets ad ex c d s1 s2 s3 s4 Ht Hc Ho Hi Hn Hs Pl T1 T2 T3
        |r s id n l rest r' s1 s2 Ht Hn T1 Hi Hr|r s id n l rest s1 s2 Ht Hn T1 Hi Hr|r s id n l rest s1 s2 Ht Hn T1 Hi Hr|r s id n l rest ks s1 s2 Ht Hn F2 Dk T1 Hi Hr].
      + eapply good_leaf. exact Sp.
      + apply good_again. exact I1.
      + eapply generic_step; eassumption.
      + eapply instance_step; eassumption.
      + intros nm m st D Hm A. assert (Sr : strict r' = r') by (eapply listof_strict; [exact Ht|exact Hm]). exact (list_step fuel IH r' Sr r s id n l rest s1 s2 Ht Hn T1 Hi Hr nm m st D Hm A).
      + eapply queue_step; eassumption.
      + eapply stack_step; eassumption.
      + eapply dict_step; eassumption.
  Qed.

  (* the whole: nothing is known at first *)
  Theorem read_document r t s' m heap : readable r ([], []) t s' -> as_reading m = Some r ->
    exists v h env, deserialize ci xml_text float_of classes heap (write None t) m = Ok (v, heap ++ h) /\
      (forall id, In id (snd s') <-> dict_get str_eqb id env <> None) /\ holds (length heap) (heap ++ h) env r t v.
  Proof.
    intros H R. destruct (read_item (depth (write None t)) r ([], []) t s' H None m (clear_dst heap) (le_n _) (or_introl R)) as (v & m' & st' & E & _ & A & _ & Hh).
    { split; [intros tid ts []|]. intros id. cbn [clear_dst d_obj dict_get]. split; [intros []|intros C; apply C; reflexivity]. }
    pose proof (des_grows _ _ _ _ _ _ _ _ _ _ _ E) as (h & G). cbn [clear_dst d_heap] in G, Hh. exists v, h, (d_obj st'). unfold deserialize. rewrite E. cbn [bind]. rewrite G in *.
    split; [reflexivity|]. split; [exact (proj2 A)|exact Hh].
  Qed.
End Rd.
