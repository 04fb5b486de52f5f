(* Lemmas about the document that stands for a graph of objects. *)
From Coq Require Import Lia ZifyBool ZifyNat ZifyN Permutation.
From Verif Require Import Base BaseProofs Lit NumModel TextModel MsgModel XmlModel SerModel SerSpec SerSpec2 SerProofs.

Lemma graph_less heap : forall v, graph heap v -> elementless v.
Proof.
  fix IH 2. intros v H. destruct H as [|b|z|t|s|b|g|l Hl|d Hk Hv|n g Hn]; try exact I.
  - apply elementless_list. induction Hl as [|x l Hx Hl IHl]; constructor; [apply IH; exact Hx|exact IHl].
  - apply elementless_dict.
    assert (A : Forall (fun e : value * value => elementless (fst e)) d).
    { clear Hv. induction Hk as [|x l Hx Hl IHl]; constructor; [apply IH; exact Hx|exact IHl]. }
    assert (B : Forall (fun e : value * value => elementless (snd e)) d).
    { clear Hk A. induction Hv as [|x l Hx Hl IHl]; constructor; [apply IH; exact Hx|exact IHl]. }
    clear Hk Hv IH. rewrite Forall_forall in *. intros e He. split; auto.
Qed.

Lemma insert_key_perm {A} (e : list N * A) l : Permutation (e :: l) (insert_key e l).
Proof.
  induction l as [|f l IH]; cbn [insert_key]; [reflexivity|]. destruct (str_leb (fst e) (fst f)); [reflexivity|].
  rewrite perm_swap. constructor. exact IH.
Qed.
Lemma sort_keys_perm {A} (l : list (list N * A)) : Permutation l (sort_keys l).
Proof.
  unfold sort_keys. induction l as [|e l IH]; cbn [fold_right]; [reflexivity|].
  rewrite <- insert_key_perm. constructor. exact IH.
Qed.
Lemma dict_set_fresh {V} k (v : V) d : ~ In k (map fst d) -> dict_set N.eqb k v d = d ++ [(k, v)].
Proof.
  induction d as [|[k' v'] d IH]; cbn [dict_set map fst]; [reflexivity|]. intros H. cbn [In] in H.
  destruct (N.eqb_spec k k') as [E|_]; [exfalso; apply H; left; congruence|]. cbn [app]. f_equal. apply IH. tauto.
Qed.
Lemma nodup_keys_unique {V} (d : list (N * V)) k a b : NoDup (map fst d) -> In (k, a) d -> In (k, b) d -> a = b.
Proof.
  induction d as [|[k' v'] d IH]; cbn [map fst In]; [intros _ []|]. intros Hn Ha Hb. apply NoDup_cons_iff in Hn. destruct Hn as (N1 & N2).
  destruct Ha as [Ea|Ha]; destruct Hb as [Eb|Hb].
  - congruence.
  - apply pair_inj in Ea. destruct Ea as (-> & ->). exfalso. apply N1. apply (in_map fst) in Hb. exact Hb.
  - apply pair_inj in Eb. destruct Eb as (-> & ->). exfalso. apply N1. apply (in_map fst) in Ha. exact Ha.
  - auto.
Qed.
Lemma attribs_named key x : x_attrib x = [] \/ (exists id, x_attrib x = id_attr id) ->
  named (object_meta star key) x = Elem (x_tag x) (attribs key (x_attrib x)) (x_text x) (x_children x).
Proof.
  intros H. destruct x as [t a s c]. unfold named. cbn [m_name object_meta x_attrib x_tag x_text x_children] in *.
  destruct key as [k|]; unfold attribs; [|rewrite app_nil_r; reflexivity]. cbn [set_attr].
  destruct H as [->|(id & ->)]; reflexivity.
Qed.

Section Graph.
  Context (ci : option cipher) (show : value -> list N) (classes : list N -> option cdesc) (heap : list hobj).
  Context (Hheap : Forall (graph_obj heap) heap) (Hco : coherent heap).

  Lemma heap_less : Forall elementless_obj heap.
  Proof.
    eapply Forall_impl; [|exact Hheap]. intros [g|c a]; [|intros []]. intros (_ & A & B & C). cbn [elementless_obj].
    split; [|split]; (eapply Forall_impl; [|eassumption]); intros e He; eapply graph_less; exact He.
  Qed.

  Record tabs (pre : list mark) (st : sst) : Prop := mkTabs {
    t_inv : inv pre st;
    t_use : forall main id, dict_get str_eqb main (s_tn st) = Some id ->
              exists ts, in_use heap ts /\ hd_error ts = Some main /\ In (MTypes (dec id) ts) pre;
    t_keys : NoDup (map fst (s_objs st)) }.
  Definition names (final : list mark) : list N -> list (list N) -> Prop := fun id ts => In (MTypes id ts) final.
  Definition holds (st : sst) (W : list N -> nat -> Prop) : Prop := forall id n, In (id, n) (s_objs st) -> W (dec id) n.
  Definition step (pre : list mark) (st : sst) (ms : list mark) (st' : sst)
    (Q : (list N -> list (list N) -> Prop) -> (list N -> nat -> Prop) -> Prop) : Prop :=
    tabs (pre ++ ms) st' /\ incl (s_objs st) (s_objs st') /\
    forall final W, incl (pre ++ ms) final -> holds st' W -> Q (names final) W.

  Lemma step_seq pre st a st1 b st2 Q1 Q2 : step pre st a st1 Q1 -> step (pre ++ a) st1 b st2 Q2 ->
    step pre st (a ++ b) st2 (fun T W => Q1 T W /\ Q2 T W).
  Proof.
    intros (A & B & C) (D & E & F). rewrite <- app_assoc in D. split; [exact D|split; [eapply incl_tran; eassumption|]].
    intros final W Hf HW. split.
    - apply C; [|intros id n Hin; apply HW, E, Hin]. intros m Hm. apply Hf. apply in_app_iff in Hm. rewrite !in_app_iff. tauto.
    - apply F; [|exact HW]. rewrite <- app_assoc. exact Hf.
  Qed.
  Lemma step_weak pre st a st1 (Q1 Q2 : _ -> _ -> Prop) : (forall T W, Q1 T W -> Q2 T W) -> step pre st a st1 Q1 -> step pre st a st1 Q2.
  Proof. intros H (A & B & C). split; [exact A|split; [exact B|]]. intros final W Hf HW. apply H. apply C; assumption. Qed.
  Lemma step_nil pre st (Q : _ -> _ -> Prop) : tabs pre st -> (forall T W, Q T W) -> step pre st [] st Q.
  Proof. intros H HQ. split; [rewrite app_nil_r; exact H|split; [apply incl_refl|]]. intros. apply HQ. Qed.

  Lemma take_step pre st id st0 : tabs pre st -> take_id st = (id, st0) ->
    step pre st [MObj (dec id)] st0 (fun _ _ => True) /\ (id < s_id st0)%N /\ ~ In id (map fst (s_objs st0)).
  Proof.
    intros [A B C] H. destruct (take_inv _ _ _ _ A H) as (Hi & Hid). unfold take_id in H. apply pair_inj in H. destruct H as (<- & <-).
    split; [split; [constructor|split]|split].
    - exact Hi.
    - intros m i Hm. destruct (B m i Hm) as (ts & U & V & X). exists ts. split; [exact U|split; [exact V|apply in_or_app; auto]].
    - exact C.
    - apply incl_refl.
    - auto.
    - exact Hid.
    - cbn [s_objs]. intros Hin. apply in_map_iff in Hin. destruct Hin as (e & E & He).
      pose proof (i_objs _ _ A) as O. rewrite Forall_forall in O. specialize (O e He). cbv beta in O. rewrite E in O. exact (N.lt_irrefl _ O).
  Qed.
  Lemma register_step pre st id n : tabs pre st -> (id < s_id st)%N -> ~ In id (map fst (s_objs st)) ->
    step pre st [] (register id n st) (fun _ W => W (dec id) n).
  Proof.
    intros [A B C] Hlt Hnew. assert (Hi : inv pre (register id n st)) by (apply register_inv; assumption).
    unfold register in *. rewrite dict_set_fresh in * by exact Hnew.
    split; [rewrite app_nil_r; constructor|split]; auto.
    - cbn [s_objs]. rewrite map_app. cbn [map fst]. apply (Permutation_NoDup (l := id :: map fst (s_objs st))).
      + apply Permutation_cons_append.
      + constructor; assumption.
    - cbn [s_objs]. intros e He. apply in_or_app. auto.
    - intros final W _ HW. apply HW. cbn [s_objs]. apply in_or_app. right. left. reflexivity.
  Qed.
  Lemma tn_step pre st types x st1 : tabs pre st -> in_use heap types -> create_tn types st = Ok (x, st1) ->
    step pre st (marks x) st1 (fun T _ => typed T types [x]).
  Proof.
    intros [A B C] Hu H. pose proof (tn_inv _ _ _ _ _ A H) as Hi. unfold create_tn in H. destruct types as [|main rest]; [discriminate|].
    destruct (dict_get str_eqb main (s_tn st)) as [id|] eqn:G; apply Ok_pair_inj in H; destruct H as (<- & <-).
    - destruct (B main id G) as (ts & U & V & X). assert (E : ts = main :: rest) by (apply Hco; assumption). subst ts.
      split; [constructor|split]; auto.
      + intros m i Hm. destruct (B m i Hm) as (ts & U' & V' & X'). exists ts. split; [exact U'|split; [exact V'|apply in_or_app; auto]].
      + apply incl_refl.
      + intros final W Hf _. apply ty_ref. apply Hf. apply in_or_app. auto.
    - split; [constructor|split]; auto.
      + intros m i Hm. cbn [s_tn] in Hm. destruct (str_eqb m main) eqn:Q.
        * apply str_eqb_spec in Q. subst m. rewrite (dict_get_set_same str_eqb str_eqb_spec) in Hm. apply Some_inj in Hm. subst i.
          destruct (i_tn _ _ Hi main (s_tnid st)) as (ts & Hts); [cbn [s_tn]; apply (dict_get_set_same str_eqb str_eqb_spec)|].
          exists (main :: rest). split; [exact Hu|split; [reflexivity|]]. apply in_or_app. right.
          rewrite marks_elem. apply in_or_app. left. unfold mark_of, attr_get. cbn [x_attrib].
          change (dict_get str_eqb _ _) with (Some (dec (s_tnid st))). cbv iota. cbn [x_tag x_children].
          change (str_eqb (lit "TN") (lit "Obj")) with false. change (str_eqb (lit "TN") (lit "Ref")) with false.
          change (str_eqb (lit "TN") (lit "TN")) with true. cbv iota. left. f_equal. rewrite map_map. cbn [x_text map]. f_equal. apply map_id.
        * rewrite (dict_get_set_other str_eqb str_eqb_spec) in Hm by (intros ->; rewrite str_eqb_refl in Q; discriminate).
          destruct (B m i Hm) as (ts & U' & V' & X'). exists ts. split; [exact U'|split; [exact V'|apply in_or_app; auto]].
      + apply incl_refl.
      + intros final W Hf _. apply ty_full. apply Hf. apply in_or_app. right.
        rewrite marks_elem. apply in_or_app. left. unfold mark_of, attr_get. cbn [x_attrib].
        change (dict_get str_eqb _ _) with (Some (dec (s_tnid st))). cbv iota. cbn [x_tag x_children].
        change (str_eqb (lit "TN") (lit "Obj")) with false. change (str_eqb (lit "TN") (lit "Ref")) with false.
        change (str_eqb (lit "TN") (lit "TN")) with true. cbv iota. left. f_equal. rewrite map_map. cbn [x_text map]. f_equal. apply map_id.
  Qed.
  Lemma tn_if_step pre st types xs st1 : tabs pre st -> in_use heap types -> create_tn_if types st = Ok (xs, st1) ->
    step pre st (flat_map marks xs) st1 (fun T _ => typed T types xs).
  Proof.
    intros Hi Hu H. unfold create_tn_if in H. destruct types as [|main rest].
    - apply Ok_pair_inj in H. destruct H as (<- & <-). apply step_nil; [exact Hi|]. intros. constructor.
    - apply bind_ok in H. destruct H as ([x st2] & Hx & H). apply Ok_pair_inj in H. destruct H as (<- & <-).
      cbn [flat_map]. rewrite app_nil_r. eapply tn_step; eassumption.
  Qed.

  Section Step.
    Context (rec : value -> meta -> sst -> res (option xml * meta * sst)).
    Context (Hrec : forall v key st pre ox m' st', graph heap v -> tabs pre st -> rec v (object_meta star key) st = Ok (ox, m', st') ->
               m_kind m' = KPlain /\ exists x, ox = Some x /\ step pre st (marks x) st' (fun T W => depicts heap T W key v x)).

    Lemma create_obj_step v key st pre xs st1 : graph heap v -> tabs pre st ->
      create_obj rec v key None st = Ok (xs, st1) ->
      exists x, xs = [x] /\ step pre st (marks x) st1 (fun T W => depicts heap T W key v x).
    Proof.
      intros Hv Hi H. pose proof H as H0. unfold create_obj in H.
      destruct (match v with VObj n => find_ref n (s_objs st) | _ => None end) as [id|] eqn:F.
      - apply Ok_pair_inj in H. destruct H as (<- & <-). eexists. split; [reflexivity|].
        destruct v; try discriminate. apply find_ref_in in F.
        set (x := match key with Some k => _ | None => _ end).
        assert (Ex : x = Elem (lit "Ref") (attribs key (id_attr (dec id))) None []) by (unfold x; destruct key; reflexivity).
        assert (Em : marks x = [MRef (dec id)]).
        { unfold x. destruct key; [rewrite marks_set_attr|]; rewrite marks_elem; reflexivity. }
        rewrite Em. rewrite Ex. destruct Hi as [A B C]. split; [constructor|split].
        + destruct A as [A1 A2 A3 A4 A5]. constructor; auto.
          * rewrite obj_ids_app, A1. cbn. apply app_nil_r.
          * rewrite tn_ids_app, A2. cbn. apply app_nil_r.
          * intros m0 i Hm. destruct (A4 m0 i Hm) as (ts' & H'). exists ts'. apply in_or_app. auto.
          * apply preceded_snoc; [exact A5|]. apply in_obj_ids. rewrite A1. apply in_numbers.
            rewrite Forall_forall in A3. exact (A3 _ F).
        + intros m0 i Hm. destruct (B m0 i Hm) as (ts & U & V & X). exists ts. split; [exact U|split; [exact V|apply in_or_app; auto]].
        + exact C.
        + apply incl_refl.
        + intros final W _ HW. apply dp_ref. apply HW. exact F.
      - apply bind_ok in H. destruct H as ([[x m1] st2] & Hx & H). apply Ok_pair_inj in H. destruct H as (<- & <-).
        destruct (Hrec _ _ _ _ _ _ _ Hv Hi Hx) as (_ & y & -> & Hy). exists y. split; [reflexivity|exact Hy].
    Qed.
    Lemma values_step vs : Forall (graph heap) vs -> forall st pre xs st1, tabs pre st ->
      ser_values rec vs st = Ok (xs, st1) -> step pre st (flat_map marks xs) st1 (fun T W => Forall2 (depicts heap T W None) vs xs).
    Proof.
      induction vs as [|v vs IH]; intros Hv st pre xs st1 Hi H; cbn [ser_values] in H.
      - apply Ok_pair_inj in H. destruct H as (<- & <-). apply step_nil; [exact Hi|]. constructor.
      - apply bind_ok in H. destruct H as ([ys st2] & H1 & H). apply bind_ok in H. destruct H as ([zs st3] & H2 & H).
        apply Ok_pair_inj in H. destruct H as (<- & <-).
        destruct (create_obj_step _ _ _ _ _ _ (Forall_inv Hv) Hi H1) as (x & -> & Hx). cbn [app flat_map].
        eapply step_weak; [|eapply step_seq; [exact Hx|eapply IH; [exact (Forall_inv_tail Hv)| |exact H2]]].
        + intros T W (A & B). constructor; assumption.
        + apply Hx.
    Qed.
    Lemma named_step ps : Forall (fun e => graph heap (snd e)) ps -> forall st pre xs st1, tabs pre st ->
      ser_named rec ps st = Ok (xs, st1) ->
      step pre st (flat_map marks xs) st1 (fun T W => Forall2 (fun e x => depicts heap T W (Some (fst e)) (snd e) x) ps xs).
    Proof.
      induction ps as [|[k v] ps IH]; intros Hv st pre xs st1 Hi H; cbn [ser_named] in H.
      - apply Ok_pair_inj in H. destruct H as (<- & <-). apply step_nil; [exact Hi|]. constructor.
      - apply bind_ok in H. destruct H as ([ys st2] & H1 & H). apply bind_ok in H. destruct H as ([zs st3] & H2 & H).
        apply Ok_pair_inj in H. destruct H as (<- & <-).
        destruct (create_obj_step _ _ _ _ _ _ (Forall_inv Hv) Hi H1) as (x & -> & Hx). cbn [app flat_map].
        eapply step_weak; [|eapply step_seq; [exact Hx|eapply IH; [exact (Forall_inv_tail Hv)| |exact H2]]].
        + intros T W (A & B). constructor; assumption.
        + apply Hx.
    Qed.
    Lemma props_step parent ps st pre xs st1 : Forall (fun e => graph heap (snd e)) ps -> tabs pre st ->
      ser_props rec parent ps st = Ok (xs, st1) -> step pre st (flat_map marks xs) st1 (fun T W => section heap T W parent ps xs).
    Proof.
      intros Ha Hi H. unfold ser_props in H. destruct ps as [|p ps].
      - apply Ok_pair_inj in H. destruct H as (<- & <-). apply step_nil; [exact Hi|]. constructor.
      - apply bind_ok in H. destruct H as ([ys st2] & H1 & H). apply Ok_pair_inj in H. destruct H as (<- & <-).
        cbn [flat_map]. rewrite app_nil_r, marks_plain.
        eapply step_weak; [|eapply named_step; [|exact Hi|exact H1]; apply sort_keys_forall; exact Ha].
        intros T W HF. eapply se_some; [discriminate|apply sort_keys_perm|exact HF].
    Qed.
    Lemma text_step v ts pre st : v = VNone \/ (exists s, v = VStr s) -> to_string_elem v = Ok ts -> tabs pre st ->
      step pre st (flat_map marks ts) st (fun _ _ => texted v ts).
    Proof.
      intros Hv H Hi. rewrite (to_string_marks _ _ H). destruct Hv as [->|(s & ->)]; apply Ok_inj in H; subst ts;
        (apply step_nil; [exact Hi|]); constructor.
    Qed.
    Lemma dynamic_step n g st pre x st1 : nth_error heap n = Some (HGen g) -> tabs pre st ->
      ser_dynamic heap rec (VObj n) st = Ok (x, st1) ->
      exists id c, x = Elem (lit "Obj") (id_attr id) None c /\
      step pre st (marks x) st1 (fun T W => exists tn text sets ms ps, c = tn ++ text ++ sets ++ ms ++ ps /\ W id n /\
        typed T (g_types g) tn /\ texted (g_text g) text /\ Forall2 (depicts heap T W None) (g_sets g) sets /\
        section heap T W (lit "MS") (g_extended g) ms /\ section heap T W (lit "Props") (g_adapted g) ps).
    Proof.
      intros Hn Hi H. unfold ser_dynamic in H. destruct (take_id st) as [id st0] eqn:Tk. rewrite Hn in H.
      destruct (take_step _ _ _ _ Hi Tk) as (S0 & Hid & Hnew).
      pose proof (register_step _ _ _ n (proj1 S0) Hid Hnew) as S1.
      assert (Hin : In (HGen g) heap) by (eapply nth_error_In; exact Hn).
      assert (Hg : graph_obj heap (HGen g)) by (rewrite Forall_forall in Hheap; exact (Hheap _ Hin)).
      destruct Hg as (G0 & G1 & G2 & G3).
      apply bind_ok in H. destruct H as ([tn st2] & H1 & H).
      apply bind_ok in H. destruct H as (ts & Hts & H). apply bind_ok in H. destruct H as ([sets st3] & H2 & H).
      apply bind_ok in H. destruct H as ([ms st4] & H3 & H). apply bind_ok in H. destruct H as ([ps st5] & H4 & H).
      apply Ok_pair_inj in H. destruct H as (<- & <-).
      pose proof (tn_if_step _ _ _ _ _ (proj1 S1) (or_intror (or_intror (ex_intro _ g (conj Hin eq_refl)))) H1) as S2.
      pose proof (text_step _ _ _ _ G0 Hts (proj1 S2)) as S3.
      pose proof (values_step _ G1 _ _ _ _ (proj1 S3) H2) as S4.
      pose proof (props_step _ _ _ _ _ _ G3 (proj1 S4) H3) as S5.
      pose proof (props_step _ _ _ _ _ _ G2 (proj1 S5) H4) as S6.
      exists (dec id). eexists. split; [reflexivity|].
      rewrite marks_obj, !flat_map_app. change (MObj (dec id) :: ?r) with ([MObj (dec id)] ++ ([] ++ r)).
      (* associate to the right *)
      eapply step_weak; [|eapply step_seq; [exact S0|eapply step_seq; [exact S1|eapply step_seq; [exact S2|
        eapply step_seq; [exact S3|eapply step_seq; [exact S4|eapply step_seq; [exact S5|exact S6]]]]]]].
      cbv beta. intros T W (_ & A & B & C & D & E & F). exists tn, ts, sets, ms, ps. auto 10.
    Qed.
    Lemma entries_step vs : Forall (graph heap) vs -> forall st pre xs m' st1, tabs pre st ->
      ser_entries rec true any_meta vs st = Ok (xs, m', st1) ->
      step pre st (flat_map marks xs) st1 (fun T W => Forall2 (depicts heap T W None) vs xs).
    Proof.
      induction vs as [|v vs IH]; intros Hv st pre xs m' st1 Hi H; cbn [ser_entries] in H.
      - apply Ok_pair_inj in H. destruct H as (H & <-). apply pair_inj in H. destruct H as (<- & _). apply step_nil; [exact Hi|]. constructor.
      - apply bind_ok in H. destruct H as ([[x m1] st2] & H1 & H). apply bind_ok in H. destruct H as ([[zs m2] st3] & H2 & H).
        apply Ok_pair_inj in H. destruct H as (H & <-). apply pair_inj in H. destruct H as (<- & _).
        destruct (Hrec _ _ _ _ _ _ _ (Forall_inv Hv) Hi H1) as (K & y & -> & Hy). rewrite K in H2. change (set_kind KPlain any_meta) with any_meta in H2.
        cbn [opt_list app flat_map].
        eapply step_weak; [|eapply step_seq; [exact Hy|eapply IH; [exact (Forall_inv_tail Hv)|apply Hy|exact H2]]].
        intros T W (A & B). constructor; assumption.
    Qed.
    Lemma pairs_step d : Forall (fun e => graph heap (fst e)) d -> Forall (fun e => graph heap (snd e)) d -> forall st pre xs km' vm' st1, tabs pre st ->
      ser_pairs rec (object_meta star (Some (lit "Key"))) (object_meta star (Some (lit "Value"))) d st = Ok (xs, km', vm', st1) ->
      step pre st (flat_map marks xs) st1 (fun T W => Forall2 (fun e en => exists x y, depicts heap T W (Some (lit "Key")) (fst e) x /\
         depicts heap T W (Some (lit "Value")) (snd e) y /\ en = Elem (lit "En") [] None [x; y]) d xs).
    Proof.
      induction d as [|[k v] d IH]; intros Hk Hv st pre xs km' vm' st1 Hi H; cbn [ser_pairs] in H.
      - apply Ok_pair_inj in H. destruct H as (H & <-). apply pair_inj in H. destruct H as (H & _).
        apply pair_inj in H. destruct H as (<- & _). apply step_nil; [exact Hi|]. constructor.
      - apply bind_ok in H. destruct H as ([[x m1] st2] & H1 & H). apply bind_ok in H. destruct H as ([[y m2] st3] & H2 & H).
        apply bind_ok in H. destruct H as ([[[zs km2] vm2] st4] & H3 & H).
        apply Ok_pair_inj in H. destruct H as (H & <-). apply pair_inj in H. destruct H as (H & _).
        apply pair_inj in H. destruct H as (<- & _).
        destruct (Hrec _ _ _ _ _ _ _ (Forall_inv Hk) Hi H1) as (K1 & x' & -> & Hx).
        destruct (Hrec _ _ _ _ _ _ _ (Forall_inv Hv) (proj1 Hx) H2) as (K2 & y' & -> & Hy). rewrite K1, K2 in H3.
        change (set_kind KPlain (object_meta star ?q)) with (object_meta star q) in H3.
        cbn [opt_list app]. cbn [flat_map]. rewrite marks_plain. cbn [flat_map]. rewrite app_nil_r, <- app_assoc.
        eapply step_weak; [|eapply step_seq; [exact Hx|eapply step_seq; [exact Hy|eapply IH;
          [exact (Forall_inv_tail Hk)|exact (Forall_inv_tail Hv)|apply Hy|exact H3]]]].
        intros T W (A & B & C). constructor; [exists x', y'; auto|exact C].
    Qed.
  End Step.

  Lemma leaf_step pre st (key : option (list N)) v tag s :
    tabs pre st -> (forall T W, depicts heap T W key v (Elem tag (attribs key []) s [])) ->
    exists x, Some (named (object_meta star key) (Elem tag [] s [])) = Some x /\
      step pre st (marks x) st (fun T W => depicts heap T W key v x).
  Proof.
    intros Hi H. eexists. split; [reflexivity|]. rewrite marks_named, marks_plain. rewrite attribs_named by (left; reflexivity).
    apply step_nil; [exact Hi|exact H].
  Qed.
  Lemma named_step' pre st key x st1 (Q1 Q2 : _ -> _ -> Prop) :
    x_attrib x = [] \/ (exists id, x_attrib x = id_attr id) ->
    step pre st (marks x) st1 Q1 ->
    (forall T W, Q1 T W -> Q2 T W) ->
    step pre st (marks (named (object_meta star key) x)) st1 Q2.
  Proof. intros _ H HQ. rewrite marks_named. eapply step_weak; eassumption. Qed.

  Lemma ser_step fuel : forall v key st pre ox m' st', graph heap v -> tabs pre st ->
    ser ci show classes heap fuel v (object_meta star key) st = Ok (ox, m', st') ->
    m_kind m' = KPlain /\ exists x, ox = Some x /\ step pre st (marks x) st' (fun T W => depicts heap T W key v x).
  Proof.
    induction fuel as [|fuel IH]; intros v key st pre ox m' st' Hv Hi H; [discriminate|].
    rewrite ser_S in H.
    destruct Hv as [|b|z|t|s|b|g|l Hl|d Hk Hv|n g Hn]; cbn [is_vxml] in H.
    1-7: (apply Ok_pair_inj in H; destruct H as (H & <-); apply pair_inj in H; destruct H as (<- & <-); split; [reflexivity|];
          apply leaf_step; [exact Hi|]; intros T W; first [apply dp_none|apply dp_int|apply dp_float|apply dp_str|apply dp_bytes|apply dp_guid|idtac]).
    - destruct b; apply dp_bool.
    - change (tagged heap (VList l) (object_meta star key)) with (lit "LST", VList l) in H. cbv iota beta in H.
      unfold ser_with in H. change (negb _) with false in H. cbn [is_vnone] in H.
      change (pack_text _ _ _ _ _) with (@None (res (list N))) in H. cbv iota in H.
      apply bind_ok in H. destruct H as ([[x m2] st1] & K1 & K). apply Ok_pair_inj in K. destruct K as (K & <-).
      apply pair_inj in K. destruct K as (<- & <-).
      change (pack_struct _ _ _ _ _ _ _) with (ser_lst (ser ci show classes heap fuel) (lit "LST") (object_meta (lit "LST") key) (VList l) st) in K1.
      unfold ser_lst in K1. change (iterate (VList l)) with (Ok l) in K1. cbn [bind] in K1.
      change (list_info _) with (@None (meta * list (list N))) in K1. cbv iota in K1.
      apply bind_ok in K1. destruct K1 as ([[y e] st2] & K1 & K). apply Ok_pair_inj in K. destruct K as (K & <-).
      apply pair_inj in K. destruct K as (<- & <-). split; [reflexivity|]. eexists. split; [reflexivity|].
      unfold ser_list in K1. destruct (take_id st) as [id st0] eqn:Tk. destruct (take_step _ _ _ _ Hi Tk) as (S0 & _ & _).
      apply bind_ok in K1. destruct K1 as ([tn st3] & H1 & H). apply bind_ok in H. destruct H as ([[xs e'] st4] & H2 & H).
      apply Ok_pair_inj in H. destruct H as (H & <-). apply pair_inj in H. destruct H as (<- & _).
      cbn [snd fst] in H1, H2.
      pose proof (tn_step _ _ _ _ _ (proj1 S0) (or_introl eq_refl) H1) as S1.
      pose proof (entries_step _ IH _ Hl _ _ _ _ _ (proj1 S1) H2) as S2.
      rewrite marks_named, marks_obj. cbn [flat_map]. rewrite app_nil_r, marks_plain.
      change (MObj (dec id) :: ?r) with ([MObj (dec id)] ++ r).
      eapply step_weak; [|eapply step_seq; [exact S0|eapply step_seq; [exact S1|exact S2]]].
      intros T W (_ & A & B). rewrite attribs_named by (right; exists (dec id); reflexivity). apply dp_list; assumption.
    - change (tagged heap (VDict d) (object_meta star key)) with (lit "DCT", VDict d) in H. cbv iota beta in H.
      unfold ser_with in H. change (negb _) with false in H. cbn [is_vnone] in H.
      change (pack_text _ _ _ _ _) with (@None (res (list N))) in H. cbv iota in H.
      apply bind_ok in H. destruct H as ([[x m2] st1] & K1 & K). apply Ok_pair_inj in K. destruct K as (K & <-).
      apply pair_inj in K. destruct K as (<- & <-).
      change (pack_struct _ _ _ _ _ _ _) with (ser_dct (ser ci show classes heap fuel) (object_meta (lit "DCT") key) (VDict d) st) in K1.
      unfold ser_dct in K1. cbn [m_kind object_meta] in K1. destruct (take_id st) as [id st0] eqn:Tk. destruct (take_step _ _ _ _ Hi Tk) as (S0 & _ & _).
      cbn [bind] in K1.
      apply bind_ok in K1. destruct K1 as ([tn st3] & H1 & H). apply bind_ok in H. destruct H as ([[[xs km'] vm'] st4] & H2 & H).
      apply Ok_pair_inj in H. destruct H as (H & <-). apply pair_inj in H. destruct H as (<- & <-).
      split; [reflexivity|]. eexists. split; [reflexivity|].
      pose proof (tn_step _ _ _ _ _ (proj1 S0) (or_intror (or_introl eq_refl)) H1) as S1.
      pose proof (pairs_step _ IH _ Hk Hv _ _ _ _ _ _ (proj1 S1) H2) as S2.
      rewrite marks_named, marks_obj. cbn [flat_map]. rewrite app_nil_r, marks_plain.
      change (MObj (dec id) :: ?r) with ([MObj (dec id)] ++ r).
      eapply step_weak; [|eapply step_seq; [exact S0|eapply step_seq; [exact S1|exact S2]]].
      intros T W (_ & A & B). rewrite attribs_named by (right; exists (dec id); reflexivity). apply dp_dict; assumption.
    - assert (Tg : tagged heap (VObj n) (object_meta star key) = (lit "ObjDynamic", VObj n)).
      { unfold tagged. change (str_eqb _ star) with true. cbv iota. cbn [tag_of_value]. rewrite Hn. reflexivity. }
      rewrite Tg in H. cbv iota beta in H.
      unfold ser_with in H. change (negb _) with false in H. cbn [is_vnone] in H.
      change (pack_text _ _ _ _ _) with (@None (res (list N))) in H. cbv iota in H.
      apply bind_ok in H. destruct H as ([[x m2] st1] & K1 & K). apply Ok_pair_inj in K. destruct K as (K & <-).
      apply pair_inj in K. destruct K as (<- & <-).
      change (pack_struct _ _ _ _ ?m _ _) with (do '(x, st1) <- ser_dynamic heap (ser ci show classes heap fuel) (VObj n) st; Ok (x, m, st1)) in K1.
      apply bind_ok in K1. destruct K1 as ([y st2] & K1 & K). apply Ok_pair_inj in K. destruct K as (K & <-).
      apply pair_inj in K. destruct K as (<- & <-). split; [reflexivity|]. eexists. split; [reflexivity|].
      destruct (dynamic_step _ IH _ _ _ _ _ _ Hn Hi K1) as (id & c & -> & Hs). rewrite marks_named.
      eapply step_weak; [|exact Hs]. intros T W (tn & text & sets & ms & ps & -> & A & B & C & D & E & F).
      rewrite attribs_named by (right; exists id; reflexivity). eapply dp_obj; eassumption.
  Qed.

  Lemma tabs_clear : tabs [] clear_sst.
  Proof. constructor; [apply inv_clear|intros m id H; discriminate|constructor]. Qed.
  Lemma serialize_graph fuel v x : graph heap v -> serialize ci show classes heap fuel v any_meta = Ok (Some x) ->
    exists W : list N -> nat -> Prop, (forall id n n', W id n -> W id n' -> n = n') /\
      depicts heap (fun id ts => In (MTypes id ts) (marks x)) W None v x.
  Proof.
    intros Hv H. unfold serialize in H. apply bind_ok in H. destruct H as ([[y m'] st'] & H1 & H). apply Ok_inj in H.
    destruct (ser_step _ _ None _ [] _ _ _ Hv tabs_clear H1) as (_ & z & -> & (A & _ & B)). apply Some_inj in H. subst z.
    exists (fun id n => exists k, id = dec k /\ In (k, n) (s_objs st')). split.
    - intros id n n' (k & -> & Hk) (k' & E & Hk'). apply dec_inj in E. subst k'. eapply nodup_keys_unique; [apply (t_keys _ _ A)|eassumption|eassumption].
    - apply (B (marks x)); [cbn [app]; apply incl_refl|]. intros id n Hin. exists id. auto.
  Qed.
End Graph.
