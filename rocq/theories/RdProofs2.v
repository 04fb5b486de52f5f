(* Reading what a server wrote: the loops. *)
From Verif Require Import Base BaseProofs Lit NumModel TextModel TextSpec TextProofs Utf8Model MsgModel MsgSpec MsgProofs NumProofs XmlModel SerModel SerSpec SerSpec2 SerProofs SerProofs2 SerProofs3 SerProofs5 RdSpec RdProofs.
Require Import Lia ZifyBool ZifyNat ZifyN.
Local Open Scope list_scope.

Lemma at_len {A} (l : list A) k a : nth_error l k = Some a -> (k < length l)%nat.
Proof. intros H. apply nth_error_Some. rewrite H. discriminate. Qed.
Lemma any_open : reads_as any_meta Open. Proof. left. reflexivity. Qed.
Lemma des_children_app rec k : forall xs ys st, des_children rec k (xs ++ ys) st = (do st1 <- des_children rec k xs st; des_children rec k ys st1).
Proof.
  induction xs as [|x xs IH]; intros ys st; [reflexivity|]. cbn [app des_children]. 
  match goal with |- (do st1 <- ?E; _) = _ => destruct E as [st1|e] end; cbn [bind]; [apply IH|reflexivity].
Qed.

Section Rd.
  Context (ci : option cipher) (xml_text : xml -> list N) (float_of : list N -> res (list N)) (classes : list N -> option cdesc).
  Notation desf := (des ci xml_text float_of classes).
  Notation spelled := (spelled ci float_of).
  Notation readable := (readable ci float_of classes).
  Notation holds := (holds ci float_of classes).

  Definition good (fuel : nat) (r : reading) (s : seen) (t : item) (s' : seen) : Prop :=
    forall nm m st, (depth (write nm t) <= fuel)%nat -> reads_as m r -> agrees s st ->
    exists v m' st', desf fuel (write nm t) m st = Ok (v, m', st') /\ (strict r = r -> reads_as m' r) /\ agrees s' st' /\
      ext (d_obj st) (d_obj st') /\ holds (length (d_heap st)) (d_heap st') (d_obj st') r t v.
  Definition each (base : nat) (h : list hobj) (e : list (list N * value)) (r : reading) (l : list item) (vs : list value) : Prop :=
    forall i t v, nth_error l i = Some t -> nth_error vs i = Some v -> holds base h e r t v.
  Lemma each_nil base h e r : each base h e r [] []. Proof. intros i t v H. destruct i; discriminate H. Qed.
  Lemma each_cons base h e r t l v vs : holds base h e r t v -> each base h e r l vs -> each base h e r (t :: l) (v :: vs).
  Proof. intros H H0 [|i] t' v' A B; cbn [nth_error] in *; [apply Some_inj in A, B; subst; exact H|exact (H0 i t' v' A B)]. Qed.
  Lemma each_mono base base' h h' e e' r l vs : each base h e r l vs -> (base' <= base)%nat -> after base h h' -> ext e e' -> each base' h' e' r l vs.
  Proof. intros H L A X i t v P Q. exact (holds_mono ci float_of classes _ _ _ _ _ _ _ _ _ (H i t v P Q) L A X). Qed.

  Section Step.
    Context (fuel : nat) (IH : forall r s t s', readable r s t s' -> good fuel r s t s').

    Lemma entries_read r s l s' : thread (readable r) s l s' -> forall om st,
      (forall m, om = Some m -> reads_as m r /\ strict r = r) -> (om = None -> r = Open) -> agrees s st -> (forall t, In t l -> (depth (write None t) <= fuel)%nat) ->
      exists vs om' st', des_entries (desf fuel) om (map (write None) l) st = Ok (vs, om', st') /\ (match om with None => om' = None | Some _ => exists m', om' = Some m' /\ reads_as m' r end) /\
        agrees s' st' /\ grows (d_heap st) (d_heap st') /\ ext (d_obj st) (d_obj st') /\ length l = length vs /\ each (length (d_heap st)) (d_heap st') (d_obj st') r l vs.
    Proof.
      induction 1 as [s|s t l s1 s2 Ht _ IHl]; intros om st Hm Hn A D.
      - exists [], om, st. split; [reflexivity|]. split; [destruct om as [m|]; [exists m; split; [reflexivity|apply Hm; reflexivity]|reflexivity]|].
        split; [exact A|]. split; [apply grows_refl|]. split; [apply ext_refl|]. split; [reflexivity|apply each_nil].
      - destruct (IH _ _ _ _ Ht None (match om with Some m => m | None => any_meta end) st (D t (or_introl eq_refl))) as (v & m1 & st1 & E1 & R1 & A1 & X1 & H1); [|exact A|].
        { destruct om as [m|]; [apply Hm; reflexivity|]. rewrite (Hn eq_refl). apply any_open. }
        assert (Hm1 : forall m, match om with Some _ => Some m1 | None => None end = Some m -> reads_as m r /\ strict r = r).
        { intros m E. destruct om as [m0|]; [|discriminate E]. apply Some_inj in E. subst m. destruct (Hm m0 eq_refl) as (_ & S0). split; [apply R1|]; exact S0. }
        destruct (IHl (match om with Some _ => Some m1 | None => None end) st1 Hm1) as (vs & om' & st2 & E2 & R2 & A2 & G2 & X2 & L2 & H2);
          [destruct om; [discriminate|exact Hn]|exact A1|intros t' I'; apply D; right; exact I'|].
        pose proof (des_grows _ _ _ _ _ _ _ _ _ _ _ E1) as G1.
        exists (v :: vs), om', st2. split; [cbn [map des_entries]; rewrite E1; cbn [bind]; rewrite E2; reflexivity|].
        split; [destruct om as [m0|]; exact R2|]. split; [exact A2|]. split; [eapply grows_trans; eassumption|]. split; [eapply ext_trans; eassumption|].
        split; [cbn [length]; rewrite L2; reflexivity|]. apply each_cons.
        + apply (holds_mono _ _ _ _ _ _ _ _ _ _ _ _ H1); [apply le_n|apply grows_after; exact G2|exact X2].
        + apply (each_mono _ _ _ _ _ _ _ _ _ H2); [apply grows_len; exact G1|intros n o _ K; exact K|apply ext_refl].
    Qed.

    Section Object.
      Context (k : nat).
      Definition at_gen (g : gobj) (st : dst) : Prop := nth_error (d_heap st) k = Some (HGen g).
      Lemma at_gen_upd f g st : at_gen g st -> at_gen (f g) (upd_obj k (on_gen f) st).
      Proof. intros H. unfold at_gen, upd_obj. cbn [set_d_heap d_heap]. rewrite (upd_nth_same _ _ _ _ H). reflexivity. Qed.
      Lemma at_gen_grows g st st' : at_gen g st -> grows (d_heap st) (d_heap st') -> at_gen g st'.
      Proof. intros H G. unfold at_gen in *. exact (grows_after 0 _ _ G k _ (Nat.le_0_l _) H). Qed.
      Lemma sets_read s l s' : thread (readable Open) s l s' -> forall g st, at_gen g st -> agrees s st -> Forall plain_item l -> (forall t, In t l -> (depth (write None t) <= fuel)%nat) ->
        exists vs st', des_children (desf fuel) k (map (write None) l) st = Ok st' /\ at_gen (mkG (g_types g) (g_text g) (g_sets g ++ vs) (g_adapted g) (g_extended g)) st' /\
          agrees s' st' /\ beside k (d_heap st) (d_heap st') /\ ext (d_obj st) (d_obj st') /\ length l = length vs /\ each (S k) (d_heap st') (d_obj st') Open l vs.
      Proof.
        induction 1 as [s|s t l s1 s2 Ht _ IHl]; intros g st Hk A P D.
        - exists [], st. split; [reflexivity|]. split; [rewrite app_nil_r; destruct g; exact Hk|]. split; [exact A|]. split; [apply beside_refl|]. split; [apply ext_refl|]. split; [reflexivity|apply each_nil].
        - destruct (IH _ _ _ _ Ht None any_meta st (D t (or_introl eq_refl)) any_open A) as (v & m1 & st1 & E1 & _ & A1 & X1 & H1).
          pose proof (des_grows _ _ _ _ _ _ _ _ _ _ _ E1) as G1.
          set (f := fun g => mkG (g_types g) (g_text g) (g_sets g ++ [v]) (g_adapted g) (g_extended g)).
          destruct (IHl (f g) (upd_obj k (on_gen f) st1)) as (vs & st2 & E2 & K2 & A2 & B2 & X2 & L2 & H2);
            [apply at_gen_upd; eapply at_gen_grows; eassumption|exact A1|exact (Forall_inv_tail P)|intros t' I'; apply D; right; exact I'|].
          exists (v :: vs), st2.
          assert (Q : forall w, In w (map lit ["TN"; "TNRef"; "Props"; "MS"; "ToString"]%string) -> str_eqb (x_tag (write None t)) w = false).
          { intros w Iw. rewrite write_tag. apply str_eqb_neq. pose proof (Forall_inv P) as Pt. destruct t as [tag tx| | | |]; cbn [plain_item tag_of] in *;
              try (intros <-; revert Iw; cbn [map In]; intuition discriminate).
            destruct Pt as (Pt & Nt). intros <-. cbn [map In] in Iw. unfold scalar_tags in Pt. cbn [map In] in Pt.
            destruct Iw as [E|[E|[E|[E|[E|[]]]]]]; subst tag; [| | | |apply Nt; reflexivity]; revert Pt; intuition discriminate. }
          split.
          { cbn [map des_children]. rewrite !Q by (cbn [map In]; tauto). rewrite E1. cbn [bind]. exact E2. }
          split; [unfold f in K2; cbn [g_types g_text g_sets g_adapted g_extended] in K2; rewrite <- app_assoc in K2; exact K2|].
          assert (B1 : beside k (d_heap st1) (d_heap st2)) by (eapply beside_trans; [apply upd_beside|exact B2]).
          split; [exact A2|]. split; [eapply beside_trans; [apply grows_beside; exact G1|exact B1]|].
          split; [eapply ext_trans; [exact X1|exact X2]|]. split; [cbn [length]; rewrite L2; reflexivity|]. apply each_cons; [|exact H2].
          apply (holds_mono _ _ _ _ _ _ _ _ _ _ _ _ H1); [exact (at_len _ _ _ Hk)|apply (beside_after k); [exact (at_len _ _ _ Hk)|exact B1]|exact X2].
      Qed.
      Lemma named_read (F : list N -> value -> gobj -> gobj) (G : list (list N * value) -> gobj) :
        (forall a v acc, ~ In a (map fst acc) -> F a v (G acc) = G (acc ++ [(a, v)])) ->
        forall s l s', thread (fun s e => readable Open s (snd e)) s l s' -> forall acc st, NoDup (map fst l) -> (forall a, In a (map fst l) -> ~ In a (map fst acc)) ->
        at_gen (G acc) st -> agrees s st -> (forall e, In e l -> (depth (write (Some (fst e)) (snd e)) <= fuel)%nat) ->
        exists vs st', des_named (desf fuel) (map (fun e => write (Some (fst e)) (snd e)) l) (fun a v => upd_obj k (on_gen (F a v))) st = Ok st' /\ at_gen (G (acc ++ vs)) st' /\
          agrees s' st' /\ beside k (d_heap st) (d_heap st') /\ ext (d_obj st) (d_obj st') /\ map fst l = map fst vs /\ each (S k) (d_heap st') (d_obj st') Open (map snd l) (map snd vs).
      Proof.
        intros HF. induction 1 as [s|s [a t] l s1 s2 Ht _ IHl]; intros acc st Nd Na Hk A D.
        - exists [], st. split; [reflexivity|]. split; [rewrite app_nil_r; exact Hk|]. split; [exact A|]. split; [apply beside_refl|]. split; [apply ext_refl|]. split; [reflexivity|apply each_nil].
        - cbn [snd] in Ht. destruct (IH _ _ _ _ Ht (Some a) any_meta st (D (a, t) (or_introl eq_refl)) any_open A) as (v & m1 & st1 & E1 & _ & A1 & X1 & H1).
          pose proof (des_grows _ _ _ _ _ _ _ _ _ _ _ E1) as G1. cbn [map fst] in Nd. apply NoDup_cons_iff in Nd. destruct Nd as (Nd1 & Nd2).
          destruct (IHl (acc ++ [(a, v)]) (upd_obj k (on_gen (F a v)) st1)) as (vs & st2 & E2 & K2 & A2 & B2 & X2 & L2 & H2).
          + exact Nd2.
          + intros b Ib. rewrite map_app, in_app_iff. cbn [map fst In]. intros [C|[C|[]]]; [exact (Na b (or_intror Ib) C)|subst b; exact (Nd1 Ib)].
          + rewrite <- HF; [apply at_gen_upd; eapply at_gen_grows; eassumption|]. apply Na. left. reflexivity.
          + exact A1.
          + intros e Ie. apply D. right. exact Ie.
          + exists ((a, v) :: vs), st2. split.
            { cbn [map des_named fst snd]. unfold attrib. rewrite write_name. cbn [bind]. rewrite E1. cbn [bind]. exact E2. }
            rewrite <- app_assoc in K2. split; [exact K2|]. assert (B1 : beside k (d_heap st1) (d_heap st2)) by (eapply beside_trans; [apply upd_beside|exact B2]).
            split; [exact A2|]. split; [eapply beside_trans; [apply grows_beside; exact G1|exact B1]|].
            split; [eapply ext_trans; [exact X1|exact X2]|]. split; [cbn [map fst]; rewrite L2; reflexivity|]. cbn [map snd]. apply each_cons; [|exact H2].
            apply (holds_mono _ _ _ _ _ _ _ _ _ _ _ _ H1); [exact (at_len _ _ _ Hk)|apply (beside_after k); [exact (at_len _ _ _ Hk)|exact B1]|exact X2].
      Qed.

      (* the attributes of an instance *)
      Definition at_cls (c : list N) (attrs : list (list N * value)) (st : dst) : Prop := nth_error (d_heap st) k = Some (HCls c attrs).
      Lemma at_cls_set c attrs a v st : at_cls c attrs st -> at_cls c (dict_set str_eqb a v attrs) (upd_obj k (set_field a v) st).
      Proof. intros H. unfold at_cls, upd_obj. cbn [set_d_heap d_heap]. rewrite (upd_nth_same _ _ _ _ H). reflexivity. Qed.
      Lemma at_cls_grows c attrs st st' : at_cls c attrs st -> grows (d_heap st) (d_heap st') -> at_cls c attrs st'.
      Proof. intros H G. unfold at_cls in *. exact (grows_after 0 _ _ G k _ (Nat.le_0_l _) H). Qed.
      Definition attribute (st : dst) (attrs : list (list N * value)) (props : list (option (list N) * item)) (a : list N) (m : meta) : Prop :=
        dict_get str_eqb a attrs <> None /\ (none_suits m props -> dict_get str_eqb a attrs = Some VNone) /\
        forall t r v, only m props t -> as_reading m = Some r -> dict_get str_eqb a attrs = Some v -> holds (S k) (d_heap st) (d_obj st) r t v.
      Lemma attribute_later st st' attrs attrs' props a m : attribute st attrs props a m -> dict_get str_eqb a attrs' = dict_get str_eqb a attrs ->
        beside k (d_heap st) (d_heap st') -> ext (d_obj st) (d_obj st') -> attribute st' attrs' props a m.
      Proof.
        intros (H1 & H2 & H3) E B X. unfold attribute. rewrite E. split; [exact H1|]. split; [exact H2|]. intros t r v O R V.
        apply (holds_mono _ _ _ _ _ _ _ _ _ _ _ _ (H3 t r v O R V)); [apply le_n|apply (beside_after k); [apply le_n|exact B]|exact X].
      Qed.
      Definition findable (g : option (list N)) (x : xml) (props : list (option (list N) * item)) (m : meta) : Prop :=
        (forall t, only m props t -> exists name, find_property (path_of g) m x = Some (write name t) /\ (depth (write name t) <= fuel)%nat) /\
        (none_suits m props -> find_property (path_of g) m x = None) /\
        (forall name, In (name, Scalar (lit "Nil") None) props -> (m_name m = None \/ m_name m = name) -> find_in (path_of g) (lit "Nil") (m_name m) x <> None).
      Lemma only_same m props t t' : only m props t -> only m props t' -> t = t'.
      Proof. intros (n1 & I1 & S1 & U1) (n2 & I2 & S2 & U2). specialize (U1 _ I2 S2). apply pair_inj in U1. symmetry. apply U1. Qed.
      Lemma props_read d g x props c s l s' : thread (filled readable props) s l s' -> forall st attrs, NoDup (map fst l) -> (forall a m, In (a, m) l -> findable g x props m) ->
        at_cls c attrs st -> agrees s st ->
        exists attrs' st', des_properties (desf fuel) d (path_of g) x k l st = Ok st' /\ at_cls c attrs' st' /\ agrees s' st' /\ beside k (d_heap st) (d_heap st') /\ ext (d_obj st) (d_obj st') /\
          (forall a, ~ In a (map fst l) -> dict_get str_eqb a attrs' = dict_get str_eqb a attrs) /\ (forall a m, In (a, m) l -> attribute st' attrs' props a m).
      Proof.
        induction 1 as [s|s [a m] l s1 s2 Ha _ IHl]; intros st attrs Nd Hf Hk A.
        - exists attrs, st. split; [reflexivity|]. split; [exact Hk|]. split; [exact A|]. split; [apply beside_refl|]. split; [apply ext_refl|]. split; [reflexivity|intros a m []].
        - cbn [map fst] in Nd. apply NoDup_cons_iff in Nd. destruct Nd as (Nd1 & Nd2).
          assert (One : exists v st1, des_property (desf fuel) d (path_of g) x k a m st = Ok (upd_obj k (set_field a v) st1) /\ grows (d_heap st) (d_heap st1) /\ ext (d_obj st) (d_obj st1) /\ agrees s1 st1 /\
                   (none_suits m props -> v = VNone) /\ (forall t r, only m props t -> as_reading m = Some r -> holds (length (d_heap st)) (d_heap st1) (d_obj st1) r t v)).
          { destruct (Hf a m (or_introl eq_refl)) as (F1 & F2 & F3). revert A F1 F2 F3. remember (a, m) as am eqn:Eam. destruct Ha as [s a' m' t r s' O R Ht|s a' m' Nn Opt];
              apply pair_inj in Eam; destruct Eam as (-> & ->); intros A F1 F2 F3.
            - destruct (F1 t O) as (name & Fp & Dp). destruct (IH _ _ _ _ Ht name m st Dp (or_introl R) A) as (v & m1 & st1 & E1 & _ & A1 & X1 & H1).
              exists v, st1. split; [unfold des_property; rewrite Fp, E1; reflexivity|]. split; [exact (des_grows _ _ _ _ _ _ _ _ _ _ _ E1)|]. split; [exact X1|]. split; [exact A1|].
              split; [intros C; destruct O as (nm & I1 & S1 & _); destruct (C _ I1 S1)|]. intros t' r' O' R'. rewrite <- (only_same _ _ _ _ O O'). assert (r = r') by congruence. subst r'. exact H1.
            - exists VNone, st. split.
              { unfold des_property. rewrite (F2 Nn). destruct (m_optional m) eqn:Eo; [reflexivity|]. destruct Opt as [C|(name & I1 & Q)]; [discriminate C|].
                destruct (find_in (path_of g) (lit "Nil") (m_name m) x) eqn:Ef; [reflexivity|]. destruct (F3 name I1 Q eq_refl). }
              split; [apply grows_refl|]. split; [apply ext_refl|]. split; [exact A|]. split; [reflexivity|]. intros t r (nm & I1 & S1 & _). destruct (Nn _ I1 S1). }
          destruct One as (v & st1 & E1 & G1 & X1 & A1 & N1 & H1).
          destruct (IHl (upd_obj k (set_field a v) st1) (dict_set str_eqb a v attrs) Nd2) as (attrs' & st2 & E2 & K2 & A2 & B2 & X2 & O2 & H2).
          { intros b mb Ib. exact (Hf b mb (or_intror Ib)). } { apply at_cls_set. eapply at_cls_grows; eassumption. } { exact A1. }
          assert (B1 : beside k (d_heap st1) (d_heap st2)) by (eapply beside_trans; [apply upd_beside|exact B2]).
          exists attrs', st2. split; [cbn [des_properties]; rewrite E1; cbn [bind]; exact E2|]. split; [exact K2|]. split; [exact A2|].
          split; [eapply beside_trans; [apply grows_beside; exact G1|exact B1]|]. split; [eapply ext_trans; [exact X1|exact X2]|]. split.
          + intros b Nb. cbn [map fst In] in Nb. rewrite O2 by tauto. apply (dict_get_set_other str_eqb str_eqb_spec). intros ->. apply Nb. left. reflexivity.
          + intros b mb [Eb|Ib]; [|exact (H2 b mb Ib)]. apply pair_inj in Eb. destruct Eb as (<- & <-).
            assert (Va : dict_get str_eqb a attrs' = Some v) by (rewrite O2 by exact Nd1; apply (dict_get_set_same str_eqb str_eqb_spec)).
            unfold attribute. rewrite Va. split; [discriminate|]. split; [intros Nn; rewrite (N1 Nn); reflexivity|]. intros t r v' O R V. apply Some_inj in V. subst v'.
            apply (holds_mono _ _ _ _ _ _ _ _ _ _ _ _ (H1 t r O R)); [exact (at_len _ _ _ Hk)|apply (beside_after k); [exact (at_len _ _ _ Hk)|exact B1]|exact X2].
      Qed.
    End Object.

    (* the entries of a dictionary *)
    Definition entry_xml (e : item * item) : xml := Elem (lit "En") [] None [write (Some (lit "Key")) (fst e); write (Some (lit "Value")) (snd e)].
    Lemma part_key e : find_in [] star (Some (lit "Key")) (entry_xml e) = Some (write (Some (lit "Key")) (fst e)).
    Proof. unfold find_in, entry_xml, matches. cbn [find_all flat_map x_children app find]. rewrite write_name. reflexivity. Qed.
    Lemma part_value e : find_in [] star (Some (lit "Value")) (entry_xml e) = Some (write (Some (lit "Value")) (snd e)).
    Proof. unfold find_in, entry_xml, matches. cbn [find_all flat_map x_children app find]. rewrite !write_name. reflexivity. Qed.
    Lemma pairs_read s l s' : thread (fun s e => readable Open s (snd e)) s l s' -> forall ks acc st,
      Forall2 (fun e k => exists tag text, fst e = Scalar tag text /\ spelled tag text k) l ks ->
      distinct_keys (map (fun k => (k, VNone)) ks) -> Forall (fun k => Forall (fun a : value * value => key_eqb k (fst a) = false) acc) ks -> agrees s st ->
      (forall e, In e l -> (depth (entry_xml e) <= S fuel)%nat) ->
      exists d st', des_pairs (desf fuel) (map entry_xml l) acc st = Ok (acc ++ d, st') /\ agrees s' st' /\ grows (d_heap st) (d_heap st') /\ ext (d_obj st) (d_obj st') /\
        length l = length d /\ each (length (d_heap st)) (d_heap st') (d_obj st') Open (map fst l) (map fst d) /\ each (length (d_heap st)) (d_heap st') (d_obj st') Open (map snd l) (map snd d).
    Proof.
      induction 1 as [s|s [kt t] l s1 s2 Ht _ IHl]; intros ks acc st F2 Dk Dis A D.
      - exists [], st. split; [rewrite app_nil_r; reflexivity|]. split; [exact A|]. split; [apply grows_refl|]. split; [apply ext_refl|]. split; [reflexivity|]. split; apply each_nil.
      - destruct ks as [|kv ks]; [inversion F2|]. inversion F2 as [|? ? ? ? (tag & text & Ek & Sp) F2']; subst. cbn [fst] in Ek. subst kt. cbn [snd] in Ht.
        cbn [map distinct_keys fst] in Dk. destruct Dk as (Dk1 & Dk2).
        assert (De : (depth (write (Some (lit "Key")) (Scalar tag text)) <= fuel)%nat /\ (depth (write (Some (lit "Value")) t) <= fuel)%nat).
        { pose proof (D _ (or_introl eq_refl)) as De. 
          pose proof (depth_child (entry_xml (Scalar tag text, t)) (write (Some (lit "Key")) (Scalar tag text)) (or_introl eq_refl)).
          pose proof (depth_child (entry_xml (Scalar tag text, t)) (write (Some (lit "Value")) t) (or_intror (or_introl eq_refl))). lia. }
        destruct De as (De1 & De2).
        destruct (IH _ _ _ _ Ht (Some (lit "Value")) any_meta st De2 any_open A) as (v & m1 & st1 & E1 & _ & A1 & X1 & H1).
        pose proof (des_grows _ _ _ _ _ _ _ _ _ _ _ E1) as G1.
        destruct (spelled_leaf ci float_of classes _ _ _ Sp) as (L1 & L2 & L3 & L4).
        assert (Ek : desf fuel (write (Some (lit "Key")) (Scalar tag text)) any_meta st = Ok (kv, next_meta (write (Some (lit "Key")) (Scalar tag text)) any_meta, st)).
        { revert De1 L1 L4. clear. generalize fuel. intros [|f] De1 L1 L4; [cbn [write depth] in De1; lia|]. rewrite (des_scalar ci xml_text float_of classes) by (split; [reflexivity|exact L1]). cbn [write]. rewrite L4. reflexivity. }
        pose proof (Forall_inv Dis) as Dis1. pose proof (Forall_inv_tail Dis) as Dis2. cbn beta in Dis1.
        destruct (IHl ks (acc ++ [(kv, v)]) st1 F2' Dk2) as (d & st2 & E2 & A2 & G2 & X2 & Ln & H2 & H3).
        { rewrite Forall_forall in *. intros k Ik. rewrite Forall_app. split; [exact (Dis2 k Ik)|]. apply Forall_cons; [|apply Forall_nil]. cbn [fst]. exact (Dk1 (k, VNone) (in_map (fun k => (k, VNone)) _ _ Ik)). }
        { exact A1. } { intros e Ie. apply D. right. exact Ie. }
        exists ((kv, v) :: d), st2. split.
        { cbn [map des_pairs]. unfold des_part. rewrite part_key, part_value. cbn [fst snd]. rewrite Ek. cbn [bind]. rewrite E1. cbn [bind]. rewrite L3. rewrite (dict_set_new kv v acc Dis1), E2, <- app_assoc. reflexivity. }
        split; [exact A2|]. split; [eapply grows_trans; eassumption|]. split; [eapply ext_trans; eassumption|]. split; [cbn [length]; rewrite Ln; reflexivity|].
        cbn [map fst snd]. split; apply each_cons.
        + apply ho_scalar. exact Sp.
        + apply (each_mono _ _ _ _ _ _ _ _ _ H2); [apply grows_len; exact G1|intros n o _ K; exact K|apply ext_refl].
        + apply (holds_mono _ _ _ _ _ _ _ _ _ _ _ _ H1); [apply le_n|apply grows_after; exact G2|exact X2].
        + apply (each_mono _ _ _ _ _ _ _ _ _ H3); [apply grows_len; exact G1|intros n o _ K; exact K|apply ext_refl].
    Qed.
  End Step.
End Rd.
