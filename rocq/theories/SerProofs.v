(* Lemmas about the serializer: numbers of elements, integers and characters. *)
From Coq Require Import Lia ZifyBool ZifyNat ZifyN.
From Verif Require Import Base BaseProofs Lit NumModel NumProofs TextModel MsgModel XmlModel TextSpec SerModel SerSpec.

(* ---- decimal texts ---- *)
Lemma dec_inj a b : dec a = dec b -> a = b.
Proof.
  intros H. destruct (dec_spec a) as (_ & _ & Va & _). destruct (dec_spec b) as (_ & _ & Vb & _). congruence.
Qed.

Fixpoint nseq (k : nat) : list (list N) := match k with O => [] | S k' => nseq k' ++ [dec (N.of_nat k')] end.
Definition numbers (n : N) : list (list N) := nseq (N.to_nat n).
Lemma numbers_succ n : numbers (n + 1) = numbers n ++ [dec n].
Proof. unfold numbers. replace (N.to_nat (n + 1)) with (S (N.to_nat n)) by lia. cbn [nseq]. rewrite N2Nat.id. reflexivity. Qed.
Lemma in_nseq k i : In i (nseq k) <-> exists j, (j < k)%nat /\ i = dec (N.of_nat j).
Proof.
  induction k as [|k IH]; cbn [nseq]; [split; [intros []|intros (j & H & _); lia]|].
  rewrite in_app_iff, IH. cbn [In]. split.
  - intros [(j & Hj & E)|[E|[]]]; [exists j; split; [lia|exact E]|exists k; split; [lia|auto]].
  - intros (j & Hj & E). destruct (Nat.eq_dec j k) as [Ek|Nk]; [right; left; subst; reflexivity|left; exists j; split; [lia|exact E]].
Qed.
Lemma in_numbers n i : (i < n)%N -> In (dec i) (numbers n).
Proof. intros H. apply in_nseq. exists (N.to_nat i). split; [lia|]. rewrite N2Nat.id. reflexivity. Qed.
Lemma nodup_numbers n : NoDup (numbers n).
Proof.
  unfold numbers. generalize (N.to_nat n). intros k. induction k as [|k IH]; [constructor|].
  cbn [nseq]. apply NoDup_rev in IH. rewrite <- (rev_involutive (nseq k ++ _)). apply NoDup_rev.
  rewrite rev_app_distr. cbn [rev app]. constructor; [|exact IH].
  rewrite <- in_rev, in_nseq. intros (j & Hj & E). apply dec_inj in E. lia.
Qed.

(* ---- marks ---- *)
Lemma nodes_elem t a s c : nodes (Elem t a s c) = Elem t a s c :: flat_map nodes c.
Proof. reflexivity. Qed.
Lemma flat_map_flat_map {A B C} (f : B -> list C) (g : A -> list B) l :
  flat_map f (flat_map g l) = flat_map (fun x => flat_map f (g x)) l.
Proof. induction l as [|x l IH]; [reflexivity|]. cbn [flat_map]. rewrite flat_map_app, IH. reflexivity. Qed.
Lemma marks_elem t a s c : marks (Elem t a s c) = mark_of (Elem t a s c) ++ flat_map marks c.
Proof. unfold marks at 1. rewrite nodes_elem. cbn [flat_map]. rewrite flat_map_flat_map. reflexivity. Qed.
Lemma marks_plain t s c : marks (Elem t [] s c) = flat_map marks c.
Proof. rewrite marks_elem. reflexivity. Qed.
Lemma marks_named m x : marks (named m x) = marks x.
Proof.
  unfold named. destruct (m_name m) as [n|]; [|reflexivity]. destruct x as [t a s c]. cbn [set_attr].
  rewrite !marks_elem. f_equal. unfold mark_of, attr_get. cbn [x_attrib x_tag x_children].
  rewrite (dict_get_set_other str_eqb str_eqb_spec); [reflexivity|]. vm_compute. discriminate.
Qed.
Lemma marks_set_attr n x : marks (set_attr (lit "N") n x) = marks x.
Proof.
  destruct x as [t a s c]. cbn [set_attr]. rewrite !marks_elem. f_equal. unfold mark_of, attr_get. cbn [x_attrib x_tag x_children].
  rewrite (dict_get_set_other str_eqb str_eqb_spec); [reflexivity|]. vm_compute. discriminate.
Qed.
Lemma marks_obj id c : marks (obj_elem id c) = MObj (dec id) :: flat_map marks c.
Proof. unfold obj_elem. rewrite marks_elem. reflexivity. Qed.
Lemma obj_ids_app a b : obj_ids (a ++ b) = obj_ids a ++ obj_ids b. Proof. apply flat_map_app. Qed.
Lemma tn_ids_app a b : tn_ids (a ++ b) = tn_ids a ++ tn_ids b. Proof. apply flat_map_app. Qed.
Lemma in_obj_ids i l : In i (obj_ids l) -> In (MObj i) l.
Proof.
  unfold obj_ids. rewrite in_flat_map. intros (m & Hm & Hi). destruct m; cbn [In] in Hi; try destruct Hi as [Hi|[]]; try contradiction.
  rewrite <- Hi. exact Hm.
Qed.
Lemma preceded_nil P : preceded P []. Proof. intros a m b H. destruct a; discriminate. Qed.
Lemma preceded_snoc P a m : preceded P a -> P a m -> preceded P (a ++ [m]).
Proof.
  intros Ha Hm u x w E. destruct (rev w) as [|y w'] eqn:Ew.
  - apply (f_equal (@rev mark)) in Ew. rewrite rev_involutive in Ew. cbn [rev] in Ew. subst w.
    apply app_inj_tail in E. destruct E as (-> & ->). exact Hm.
  - apply (f_equal (@rev mark)) in Ew. rewrite rev_involutive in Ew. cbn [rev] in Ew. subst w.
    rewrite app_comm_cons, app_assoc in E. apply app_inj_tail in E. destruct E as (E & _). eapply Ha. exact E.
Qed.

(* what every reference needs before it *)
Definition resolved (before : list mark) (m : mark) : Prop :=
  match m with
  | MRef i => In (MObj i) before
  | MTypesRef i => exists ts, In (MTypes i ts) before
  | _ => True
  end.

(* ---- the state agrees with what was written ---- *)
Record inv (pre : list mark) (st : sst) : Prop := mkInv {
  i_ids : obj_ids pre = numbers (s_id st);
  i_tns : tn_ids pre = numbers (s_tnid st);
  i_objs : Forall (fun e => (fst e < s_id st)%N) (s_objs st);
  i_tn : forall main id, dict_get str_eqb main (s_tn st) = Some id -> exists ts, In (MTypes (dec id) (main :: ts)) pre;
  i_refs : preceded resolved pre }.

Lemma inv_clear : inv [] clear_sst.
Proof. constructor; try reflexivity; [constructor|intros m id H; discriminate|apply preceded_nil]. Qed.

Lemma take_inv pre st id st0 : inv pre st -> take_id st = (id, st0) -> inv (pre ++ [MObj (dec id)]) st0 /\ (id < s_id st0)%N.
Proof.
  intros [A B C D E] H. unfold take_id in H. apply pair_inj in H. destruct H as (<- & <-).
  split; [constructor; cbn [s_id s_tnid s_objs s_tn]| cbn [s_id]; lia].
  - rewrite obj_ids_app, A, numbers_succ. reflexivity.
  - rewrite tn_ids_app, B. cbn. apply app_nil_r.
  - eapply Forall_impl; [|exact C]. intros e He. cbv beta in *. lia.
  - intros m i Hm. destruct (D m i Hm) as (ts & Hts). exists ts. apply in_or_app. auto.
  - apply preceded_snoc; [exact E|exact I].
Qed.
Lemma Forall_dict_set {V} (P : N * V -> Prop) k v d : Forall P d -> P (k, v) -> Forall P (dict_set N.eqb k v d).
Proof.
  intros Hd Hk. induction d as [|[k' v'] d IH]; cbn [dict_set].
  - constructor; [exact Hk|constructor].
  - destruct (N.eqb_spec k k') as [<-|_]; constructor.
    + exact Hk.
    + exact (Forall_inv_tail Hd).
    + exact (Forall_inv Hd).
    + apply IH. exact (Forall_inv_tail Hd).
Qed.
Lemma register_inv pre st id n : inv pre st -> (id < s_id st)%N -> inv pre (register id n st).
Proof.
  intros [A B C D E] H. constructor; cbn [register s_id s_objs s_tnid s_tn]; auto.
  apply Forall_dict_set; [exact C|exact H].
Qed.
Lemma T_marks types : flat_map marks (map (fun t => Elem (lit "T") [] (Some t) []) types) = [].
Proof. induction types as [|t ts IH]; [reflexivity|]. cbn [map flat_map]. rewrite marks_plain, IH. reflexivity. Qed.
Lemma tn_inv pre st types x st1 : inv pre st -> create_tn types st = Ok (x, st1) -> inv (pre ++ marks x) st1.
Proof.
  intros [A B C D E] H. unfold create_tn in H. destruct types as [|main rest]; [discriminate|].
  destruct (dict_get str_eqb main (s_tn st)) as [id|] eqn:G; apply Ok_pair_inj in H; destruct H as (<- & <-).
  - rewrite marks_elem. cbn [flat_map]. rewrite app_nil_r.
    change (mark_of _) with [MTypesRef (dec id)].
    destruct (D main id G) as (ts & Hts). constructor; auto.
    + rewrite obj_ids_app, A. cbn. apply app_nil_r.
    + rewrite tn_ids_app, B. cbn. apply app_nil_r.
    + intros m i Hm. destruct (D m i Hm) as (ts' & H'). exists ts'. apply in_or_app. auto.
    + apply preceded_snoc; [exact E|]. eexists. exact Hts.
  - rewrite marks_elem, T_marks, app_nil_r.
    set (mk := mark_of _). assert (Em : mk = [MTypes (dec (s_tnid st)) (main :: rest)]).
    { unfold mk, mark_of, attr_get. cbn [x_attrib]. change (dict_get str_eqb _ _) with (Some (dec (s_tnid st))). cbv iota.
      cbn [x_tag x_children]. 
      change (str_eqb (lit "TN") (lit "Obj")) with false. change (str_eqb (lit "TN") (lit "Ref")) with false.
      change (str_eqb (lit "TN") (lit "TN")) with true. cbv iota. f_equal. f_equal. rewrite map_map. cbn [x_text].
      cbn [map]. f_equal. apply map_id. }
    rewrite Em. constructor; cbn [s_id s_tnid s_objs s_tn]; auto.
    + rewrite obj_ids_app, A. cbn. apply app_nil_r.
    + rewrite tn_ids_app, B, numbers_succ. reflexivity.
    + intros m i Hm. destruct (str_eqb m main) eqn:Q.
      * apply str_eqb_spec in Q. subst m. rewrite (dict_get_set_same str_eqb str_eqb_spec) in Hm. apply Some_inj in Hm. subst i.
        exists rest. apply in_or_app. right. left. reflexivity.
      * rewrite (dict_get_set_other str_eqb str_eqb_spec) in Hm by (intros ->; rewrite str_eqb_refl in Q; discriminate).
        destruct (D m i Hm) as (ts & Hts). exists ts. apply in_or_app. auto.
    + apply preceded_snoc; [exact E|exact I].
Qed.
Lemma tn_if_inv pre st types xs st1 : inv pre st -> create_tn_if types st = Ok (xs, st1) -> inv (pre ++ flat_map marks xs) st1.
Proof.
  intros Hi H. unfold create_tn_if in H. destruct types as [|main rest].
  - apply Ok_pair_inj in H. destruct H as (<- & <-). rewrite app_nil_r. exact Hi.
  - apply bind_ok in H. destruct H as ([x st2] & Hx & H). apply Ok_pair_inj in H. destruct H as (<- & <-).
    cbn [flat_map]. rewrite app_nil_r. eapply tn_inv; eassumption.
Qed.
Lemma to_string_marks v xs : to_string_elem v = Ok xs -> flat_map marks xs = [].
Proof.
  unfold to_string_elem. intros H.
  destruct v; try (apply bind_ok in H; destruct H as (s' & _ & H); apply Ok_inj in H; subst xs;
    cbn [flat_map]; rewrite marks_plain; reflexivity).
  apply Ok_inj in H. subst xs. reflexivity.
Qed.
Lemma find_ref_in n objs id : find_ref n objs = Some id -> In (id, n) objs.
Proof.
  induction objs as [|[i k] objs IH]; cbn [find_ref]; [discriminate|].
  destruct (Nat.eqb_spec n k) as [->|_]; intros H; [apply Some_inj in H; subst i; left; reflexivity|right; auto].
Qed.

(* elementless in terms of Forall *)
Lemma elementless_list l : elementless (VList l) <-> Forall elementless l.
Proof.
  change (elementless (VList l)) with ((fix all (l : list value) := match l with [] => True | x :: l' => elementless x /\ all l' end) l).
  induction l as [|x l IH]; [split; intros _; [constructor|exact I]|].
  split.
  - intros (A & B). constructor; [exact A|apply IH; exact B].
  - intros H. split; [exact (Forall_inv H)|apply IH; exact (Forall_inv_tail H)].
Qed.
Lemma elementless_queue l : elementless (VQueue l) <-> Forall elementless l.
Proof. exact (elementless_list l). Qed.
Lemma elementless_dict d : elementless (VDict d) <-> Forall (fun e => elementless (fst e) /\ elementless (snd e)) d.
Proof.
  change (elementless (VDict d)) with ((fix pairs (l : list (value * value)) :=
    match l with [] => True | (x, y) :: l' => elementless x /\ elementless y /\ pairs l' end) d).
  induction d as [|[x y] l IH]; [split; intros _; [constructor|exact I]|].
  split.
  - intros (A & B & C). constructor; [split; assumption|apply IH; exact C].
  - intros H. destruct (Forall_inv H) as (A & B). split; [exact A|split; [exact B|apply IH; exact (Forall_inv_tail H)]].
Qed.
Lemma elementless_tuple d : elementless (VTuple d) <-> Forall (fun e => elementless (fst e) /\ elementless (snd e)) d.
Proof. exact (elementless_dict d). Qed.

Lemma insert_key_forall {A} (P : list N * A -> Prop) e l : P e -> Forall P l -> Forall P (insert_key e l).
Proof.
  intros He Hl. induction l as [|f l IH]; cbn [insert_key]; [repeat constructor; exact He|].
  destruct (str_leb (fst e) (fst f)); constructor; auto.
  - exact (Forall_inv Hl).
  - apply IH. exact (Forall_inv_tail Hl).
Qed.
Lemma sort_keys_forall {A} (P : list N * A -> Prop) l : Forall P l -> Forall P (sort_keys l).
Proof.
  unfold sort_keys. induction l as [|e l IH]; intros H; cbn [fold_right]; [constructor|].
  apply insert_key_forall; [exact (Forall_inv H)|apply IH; exact (Forall_inv_tail H)].
Qed.

(* ---- serialize in two steps ---- *)
Definition is_vnone (v : value) : bool := match v with VNone => true | _ => false end.
Definition is_vxml (v : value) : bool := match v with VXml _ => true | _ => false end.
Definition tagged (heap : list hobj) (v : value) (m : meta) : list N * value :=
  if str_eqb (m_tag m) star
  then match v with VTagged t w => (t, w) | _ => (tag_of_value heap v, v) end
  else (m_tag m, v).
Definition ser_with ci show classes heap rec (tag : list N) (v : value) (m : meta) (st : sst) : res (option xml * meta * sst) :=
  if negb (existsb (str_eqb tag) known_tags) then Err KeyError
  else if is_vnone v then
    if m_optional m then Ok (None, set_tag tag m, st) else Ok (Some (named m (Elem (lit "Nil") [] None [])), set_tag tag m, st)
  else match pack_text ci show (set_tag tag m) tag v with
       | Some r => do s <- r; Ok (Some (named m (Elem tag [] (Some s) [])), set_tag tag m, st)
       | None => do '(x, m2, st1) <- pack_struct classes heap rec tag (set_tag tag m) v st; Ok (Some (named m x), m2, st1)
       end.
Lemma ser_S ci show classes heap fuel v m st : ser ci show classes heap (S fuel) v m st =
  if is_vxml v then match v with VXml x => Ok (Some (named m x), m, st) | _ => Err OtherError end
  else let '(tag, v1) := tagged heap v m in ser_with ci show classes heap (ser ci show classes heap fuel) tag v1 m st.
Proof.
  cbn [ser]. unfold tagged, ser_with. destruct v; cbn [is_vxml is_vnone]; try reflexivity;
  destruct (str_eqb (m_tag m) star); cbv iota beta; cbn [is_vnone]; try reflexivity.
  destruct v; reflexivity.
Qed.

Section Ser.
  Context (ci : option cipher) (show : value -> list N) (classes : list N -> option cdesc) (heap : list hobj).
  Context (Hheap : Forall elementless_obj heap).
  Section Step.
    Context (rec : value -> meta -> sst -> res (option xml * meta * sst)).
    Context (Hrec : forall v m st pre ox m' st', elementless v -> inv pre st -> rec v m st = Ok (ox, m', st') ->
                      inv (pre ++ flat_map marks (opt_list ox)) st').

    Lemma create_obj_inv v key m st pre xs st1 : elementless v -> inv pre st ->
      create_obj rec v key m st = Ok (xs, st1) -> inv (pre ++ flat_map marks xs) st1.
    Proof.
      intros Hv Hi H. unfold create_obj in H.
      destruct (match v with VObj n => find_ref n (s_objs st) | _ => None end) as [id|] eqn:F.
      - apply Ok_pair_inj in H. destruct H as (<- & <-).
        assert (Em : forall k : option (list N), flat_map marks [match k with Some k => set_attr (lit "N") k (Elem (lit "Ref") [(refid, dec id)] None [])
                         | None => Elem (lit "Ref") [(refid, dec id)] None [] end] = [MRef (dec id)]).
        { intros [k|]; cbn [flat_map]; [rewrite marks_set_attr|]; rewrite marks_elem; reflexivity. }
        rewrite Em. destruct v; try discriminate. apply find_ref_in in F.
        destruct Hi as [A B C D E]. constructor; auto.
        + rewrite obj_ids_app, A. cbn. apply app_nil_r.
        + rewrite tn_ids_app, B. cbn. apply app_nil_r.
        + intros m0 i Hm. destruct (D m0 i Hm) as (ts' & H'). exists ts'. apply in_or_app. auto.
        + apply preceded_snoc; [exact E|]. apply in_obj_ids. rewrite A. apply in_numbers.
          rewrite Forall_forall in C. exact (C _ F).
      - apply bind_ok in H. destruct H as ([[x m1] st2] & Hx & H). apply Ok_pair_inj in H. destruct H as (<- & <-).
        eapply Hrec; eassumption.
    Qed.
    Lemma attrs_inv attrs props : Forall (fun e => elementless (snd e)) attrs -> forall st pre xs st1, inv pre st ->
      ser_attrs rec attrs props st = Ok (xs, st1) -> inv (pre ++ flat_map marks xs) st1.
    Proof.
      intros Ha. induction props as [|[a m] props IH]; intros st pre xs st1 Hi H; cbn [ser_attrs] in H.
      - apply Ok_pair_inj in H. destruct H as (<- & <-). rewrite app_nil_r. exact Hi.
      - destruct (dict_get str_eqb a attrs) as [v|] eqn:G; [|discriminate].
        apply bind_ok in H. destruct H as ([ys st2] & H1 & H). apply bind_ok in H. destruct H as ([zs st3] & H2 & H).
        apply Ok_pair_inj in H. destruct H as (<- & <-). rewrite flat_map_app, app_assoc.
        eapply IH; [|exact H2]. eapply create_obj_inv; [|exact Hi|exact H1].
        clear -Ha G. induction attrs as [|[b w] attrs IH]; cbn [dict_get] in G; [discriminate|].
        destruct (str_eqb a b); [apply Some_inj in G; subst w; exact (Forall_inv Ha)|apply IH; [exact (Forall_inv_tail Ha)|exact G]].
    Qed.
    Lemma group_inv parent attrs props st pre xs st1 : Forall (fun e => elementless (snd e)) attrs -> inv pre st ->
      ser_group rec parent attrs props st = Ok (xs, st1) -> inv (pre ++ flat_map marks xs) st1.
    Proof.
      intros Ha Hi H. unfold ser_group in H. destruct props as [|p props].
      - apply Ok_pair_inj in H. destruct H as (<- & <-). rewrite app_nil_r. exact Hi.
      - apply bind_ok in H. destruct H as ([ys st2] & H1 & H). apply Ok_pair_inj in H. destruct H as (<- & <-).
        cbn [flat_map]. rewrite app_nil_r, marks_plain. eapply attrs_inv; eassumption.
    Qed.
    Lemma obj_inv v st pre x st1 : inv pre st -> ser_obj classes heap rec v st = Ok (x, st1) -> inv (pre ++ marks x) st1.
    Proof.
      intros Hi H. unfold ser_obj in H. destruct (take_id st) as [id st0] eqn:T.
      destruct (take_inv _ _ _ _ Hi T) as (Hi0 & Hid).
      destruct v; try discriminate. destruct (nth_error heap n) as [[g|c attrs]|] eqn:Hn; [| |discriminate].
      - apply Ok_pair_inj in H. destruct H as (<- & <-). rewrite marks_obj. exact Hi0.
      - destruct (classes c) as [d|]; [|discriminate].
        assert (Ha : Forall (fun e => elementless (snd e)) attrs).
        { apply nth_error_In in Hn. rewrite Forall_forall in Hheap. exact (Hheap _ Hn). }
        apply bind_ok in H. destruct H as ([tn st2] & H1 & H). apply bind_ok in H. destruct H as (t & _ & H).
        apply bind_ok in H. destruct H as (ts & Hts & H). apply bind_ok in H. destruct H as ([sets st3] & H2 & H).
        apply bind_ok in H. destruct H as ([ms st4] & H3 & H). apply bind_ok in H. destruct H as ([ps st5] & H4 & H).
        apply Ok_pair_inj in H. destruct H as (<- & <-).
        rewrite marks_obj, !flat_map_app, (to_string_marks _ _ Hts). cbn [app].
        change (pre ++ MObj (dec id) :: ?r) with (pre ++ ([MObj (dec id)] ++ r)). rewrite !app_assoc.
        eapply group_inv; [exact Ha| |exact H4]. eapply group_inv; [exact Ha| |exact H3].
        eapply attrs_inv; [exact Ha| |exact H2]. eapply tn_if_inv; [exact Hi0|exact H1].
    Qed.
    Lemma values_inv vs : Forall elementless vs -> forall st pre xs st1, inv pre st ->
      ser_values rec vs st = Ok (xs, st1) -> inv (pre ++ flat_map marks xs) st1.
    Proof.
      induction vs as [|v vs IH]; intros Hv st pre xs st1 Hi H; cbn [ser_values] in H.
      - apply Ok_pair_inj in H. destruct H as (<- & <-). rewrite app_nil_r. exact Hi.
      - apply bind_ok in H. destruct H as ([ys st2] & H1 & H). apply bind_ok in H. destruct H as ([zs st3] & H2 & H).
        apply Ok_pair_inj in H. destruct H as (<- & <-). rewrite flat_map_app, app_assoc.
        eapply IH; [exact (Forall_inv_tail Hv)| |exact H2]. eapply create_obj_inv; [exact (Forall_inv Hv)|exact Hi|exact H1].
    Qed.
    Lemma named_inv ps : Forall (fun e => elementless (snd e)) ps -> forall st pre xs st1, inv pre st ->
      ser_named rec ps st = Ok (xs, st1) -> inv (pre ++ flat_map marks xs) st1.
    Proof.
      induction ps as [|[k v] ps IH]; intros Hv st pre xs st1 Hi H; cbn [ser_named] in H.
      - apply Ok_pair_inj in H. destruct H as (<- & <-). rewrite app_nil_r. exact Hi.
      - apply bind_ok in H. destruct H as ([ys st2] & H1 & H). apply bind_ok in H. destruct H as ([zs st3] & H2 & H).
        apply Ok_pair_inj in H. destruct H as (<- & <-). rewrite flat_map_app, app_assoc.
        eapply IH; [exact (Forall_inv_tail Hv)| |exact H2]. eapply create_obj_inv; [exact (Forall_inv Hv)|exact Hi|exact H1].
    Qed.
    Lemma props_inv parent ps st pre xs st1 : Forall (fun e => elementless (snd e)) ps -> inv pre st ->
      ser_props rec parent ps st = Ok (xs, st1) -> inv (pre ++ flat_map marks xs) st1.
    Proof.
      intros Ha Hi H. unfold ser_props in H. destruct ps as [|p ps].
      - apply Ok_pair_inj in H. destruct H as (<- & <-). rewrite app_nil_r. exact Hi.
      - apply bind_ok in H. destruct H as ([ys st2] & H1 & H). apply Ok_pair_inj in H. destruct H as (<- & <-).
        cbn [flat_map]. rewrite app_nil_r, marks_plain. eapply named_inv; [|exact Hi|exact H1].
        apply sort_keys_forall. exact Ha.
    Qed.
    Lemma dynamic_inv v st pre x st1 : inv pre st -> ser_dynamic heap rec v st = Ok (x, st1) -> inv (pre ++ marks x) st1.
    Proof.
      intros Hi H. unfold ser_dynamic in H. destruct (take_id st) as [id st0] eqn:T.
      destruct (take_inv _ _ _ _ Hi T) as (Hi0 & Hid).
      destruct v; try discriminate. destruct (nth_error heap n) as [[g|c attrs]|] eqn:Hn; [|discriminate|discriminate].
      assert (Hg : elementless_obj (HGen g)).
      { apply nth_error_In in Hn. rewrite Forall_forall in Hheap. exact (Hheap _ Hn). }
      destruct Hg as (G1 & G2 & G3).
      apply bind_ok in H. destruct H as ([tn st2] & H1 & H).
      apply bind_ok in H. destruct H as (ts & Hts & H). apply bind_ok in H. destruct H as ([sets st3] & H2 & H).
      apply bind_ok in H. destruct H as ([ms st4] & H3 & H). apply bind_ok in H. destruct H as ([ps st5] & H4 & H).
      apply Ok_pair_inj in H. destruct H as (<- & <-).
      rewrite marks_obj, !flat_map_app, (to_string_marks _ _ Hts). cbn [app].
      change (pre ++ MObj (dec id) :: ?r) with (pre ++ ([MObj (dec id)] ++ r)). rewrite !app_assoc.
      eapply props_inv; [exact G2| |exact H4]. eapply props_inv; [exact G3| |exact H3].
      eapply values_inv; [exact G1| |exact H2]. eapply tn_if_inv; [|exact H1].
      apply register_inv; assumption.
    Qed.
    Lemma entries_inv copied vs : Forall elementless vs -> forall m st pre xs m' st1, inv pre st ->
      ser_entries rec copied m vs st = Ok (xs, m', st1) -> inv (pre ++ flat_map marks xs) st1.
    Proof.
      induction vs as [|v vs IH]; intros Hv m st pre xs m' st1 Hi H; cbn [ser_entries] in H.
      - apply Ok_pair_inj in H. destruct H as (H & <-). apply pair_inj in H. destruct H as (<- & _). rewrite app_nil_r. exact Hi.
      - apply bind_ok in H. destruct H as ([[x m1] st2] & H1 & H). apply bind_ok in H. destruct H as ([[zs m2] st3] & H2 & H).
        apply Ok_pair_inj in H. destruct H as (H & <-). apply pair_inj in H. destruct H as (<- & _). rewrite flat_map_app, app_assoc.
        eapply IH; [exact (Forall_inv_tail Hv)| |exact H2]. eapply Hrec; [exact (Forall_inv Hv)|exact Hi|exact H1].
    Qed.
    Lemma list_inv tag copied info vs st pre x m' st1 : Forall elementless vs -> inv pre st ->
      ser_list rec tag copied info vs st = Ok (x, m', st1) -> inv (pre ++ marks x) st1.
    Proof.
      intros Hv Hi H. unfold ser_list in H. destruct (take_id st) as [id st0] eqn:T.
      destruct (take_inv _ _ _ _ Hi T) as (Hi0 & Hid).
      apply bind_ok in H. destruct H as ([tn st2] & H1 & H). apply bind_ok in H. destruct H as ([[xs e] st3] & H2 & H).
      apply Ok_pair_inj in H. destruct H as (H & <-). apply pair_inj in H. destruct H as (<- & _).
      rewrite marks_obj. cbn [flat_map]. rewrite app_nil_r, marks_plain.
      change (pre ++ MObj (dec id) :: ?r) with (pre ++ ([MObj (dec id)] ++ r)). rewrite !app_assoc.
      eapply entries_inv; [exact Hv| |exact H2]. eapply tn_inv; [exact Hi0|exact H1].
    Qed.
    Lemma iterate_less v vs : elementless v -> iterate v = Ok vs -> Forall elementless vs.
    Proof.
      intros Hv H. unfold iterate in H. destruct v; try discriminate; apply Ok_inj in H; subst vs.
      - rewrite Forall_map. apply Forall_forall. intros c _. exact I.
      - rewrite Forall_map. apply Forall_forall. intros c _. exact I.
      - apply elementless_list. exact Hv.
      - rewrite Forall_map. apply elementless_dict in Hv. eapply Forall_impl; [|exact Hv]. intros e He. apply He.
    Qed.
    Lemma pairs_inv d : Forall (fun e => elementless (fst e) /\ elementless (snd e)) d -> forall km vm st pre xs km' vm' st1, inv pre st ->
      ser_pairs rec km vm d st = Ok (xs, km', vm', st1) -> inv (pre ++ flat_map marks xs) st1.
    Proof.
      induction d as [|[k v] d IH]; intros Hv km vm st pre xs km' vm' st1 Hi H; cbn [ser_pairs] in H.
      - apply Ok_pair_inj in H. destruct H as (H & <-). apply pair_inj in H. destruct H as (H & _).
        apply pair_inj in H. destruct H as (<- & _). rewrite app_nil_r. exact Hi.
      - apply bind_ok in H. destruct H as ([[x m1] st2] & H1 & H). apply bind_ok in H. destruct H as ([[y m2] st3] & H2 & H).
        apply bind_ok in H. destruct H as ([[[zs km2] vm2] st4] & H3 & H).
        apply Ok_pair_inj in H. destruct H as (H & <-). apply pair_inj in H. destruct H as (H & _).
        apply pair_inj in H. destruct H as (<- & _). cbn [flat_map]. rewrite marks_plain, flat_map_app, !app_assoc.
        destruct (Forall_inv Hv) as (Hk & Hw). cbn [fst snd] in Hk, Hw.
        eapply IH; [exact (Forall_inv_tail Hv)| |exact H3].
        eapply Hrec; [exact Hw| |exact H2]. eapply Hrec; [exact Hk|exact Hi|exact H1].
    Qed.
    Lemma struct_inv tag m v st pre x m' st1 : elementless v -> inv pre st ->
      pack_struct classes heap rec tag m v st = Ok (x, m', st1) -> inv (pre ++ marks x) st1.
    Proof.
      intros Hv Hi H. unfold pack_struct in H.
      destruct (str_eqb tag (lit "Obj")).
      { apply bind_ok in H. destruct H as ([y st2] & H1 & H). apply Ok_pair_inj in H. destruct H as (H & <-).
        apply pair_inj in H. destruct H as (<- & _). eapply obj_inv; eassumption. }
      destruct (str_eqb tag (lit "ObjDynamic")).
      { apply bind_ok in H. destruct H as ([y st2] & H1 & H). apply Ok_pair_inj in H. destruct H as (H & <-).
        apply pair_inj in H. destruct H as (<- & _). eapply dynamic_inv; eassumption. }
      assert (HL : forall t, ser_lst rec t m v st = Ok (x, m', st1) -> inv (pre ++ marks x) st1).
      { intros t HL. unfold ser_lst in HL. apply bind_ok in HL. destruct HL as (vs & Hvs & HL). apply (iterate_less _ _ Hv) in Hvs.
        destruct (list_info m) as [i|]; apply bind_ok in HL; destruct HL as ([[y e] st2] & H1 & HL);
          apply Ok_pair_inj in HL; destruct HL as (HL & <-); apply pair_inj in HL; destruct HL as (<- & _);
          eapply list_inv; eassumption. }
      destruct (str_eqb tag (lit "LST")); [exact (HL _ H)|]. destruct (str_eqb tag (lit "IE")); [exact (HL _ H)|].
      destruct (str_eqb tag (lit "QUE")).
      { unfold ser_que in H. destruct v; try discriminate. apply elementless_queue in Hv.
        destruct (m_kind m); apply bind_ok in H; destruct H as ([[y e] st2] & H1 & H);
          apply Ok_pair_inj in H; destruct H as (H & <-); apply pair_inj in H; destruct H as (<- & _);
          eapply list_inv; eassumption. }
      destruct (str_eqb tag (lit "STK")).
      { unfold ser_stk in H. destruct (list_info m) as [i|]; [|discriminate]. destruct v; try discriminate.
        apply elementless_list in Hv. apply bind_ok in H; destruct H as ([[y e] st2] & H1 & H);
          apply Ok_pair_inj in H; destruct H as (H & <-); apply pair_inj in H; destruct H as (<- & _).
        eapply list_inv; [|exact Hi|exact H1]. apply Forall_rev. exact Hv. }
      destruct (str_eqb tag (lit "DCT")); [|discriminate].
      unfold ser_dct in H.
      destruct (match m_kind m with KDict km vm ts => (km, vm, ts) | _ => _ end) as [[km vm] ts].
      destruct (take_id st) as [id st0] eqn:T. destruct (take_inv _ _ _ _ Hi T) as (Hi0 & Hid).
      apply bind_ok in H. destruct H as (d & Hd & H). apply bind_ok in H. destruct H as ([tn st2] & H1 & H).
      apply bind_ok in H. destruct H as ([[[xs km'] vm'] st3] & H2 & H).
      apply Ok_pair_inj in H; destruct H as (H & <-); apply pair_inj in H; destruct H as (<- & _).
      assert (Hd' : Forall (fun e => elementless (fst e) /\ elementless (snd e)) d).
      { destruct v; try discriminate; apply Ok_inj in Hd; subst d; [apply elementless_tuple|apply elementless_dict]; exact Hv. }
      rewrite marks_obj. cbn [flat_map]. rewrite app_nil_r, marks_plain.
      change (pre ++ MObj (dec id) :: ?r) with (pre ++ ([MObj (dec id)] ++ r)). rewrite !app_assoc.
      eapply pairs_inv; [exact Hd'| |exact H2]. eapply tn_inv; [exact Hi0|exact H1].
    Qed.
  End Step.

  Lemma ser_with_inv rec tag v m st pre ox m' st' :
    (forall v m st pre ox m' st', elementless v -> inv pre st -> rec v m st = Ok (ox, m', st') ->
                      inv (pre ++ flat_map marks (opt_list ox)) st') ->
    elementless v -> inv pre st ->
    ser_with ci show classes heap rec tag v m st = Ok (ox, m', st') -> inv (pre ++ flat_map marks (opt_list ox)) st'.
  Proof.
    intros Hrec Hv Hi K. unfold ser_with in K. destruct (negb _); [discriminate|].
    destruct (is_vnone v).
    - destruct (m_optional m); apply Ok_pair_inj in K; destruct K as (K & <-); apply pair_inj in K; destruct K as (<- & _).
      + cbn. rewrite app_nil_r. exact Hi.
      + cbn [opt_list flat_map]. rewrite marks_named, marks_plain. cbn. rewrite app_nil_r. exact Hi.
    - destruct (pack_text _ _ _ tag v) as [r|].
      + apply bind_ok in K. destruct K as (s & _ & K). apply Ok_pair_inj in K. destruct K as (K & <-).
        apply pair_inj in K. destruct K as (<- & _). cbn [opt_list flat_map]. rewrite marks_named, marks_plain, app_nil_r. cbn [flat_map].
        exact Hi.
      + apply bind_ok in K. destruct K as ([[x m2] st1] & K1 & K). apply Ok_pair_inj in K. destruct K as (K & <-).
        apply pair_inj in K. destruct K as (<- & _). cbn [opt_list flat_map]. rewrite marks_named, app_nil_r.
        eapply struct_inv; [exact Hrec|exact Hv|exact Hi|exact K1].
  Qed.
  Lemma ser_inv fuel : forall v m st pre ox m' st', elementless v -> inv pre st ->
    ser ci show classes heap fuel v m st = Ok (ox, m', st') -> inv (pre ++ flat_map marks (opt_list ox)) st'.
  Proof.
    induction fuel as [|fuel IH]; intros v m st pre ox m' st' Hv Hi H; [discriminate|].
    rewrite ser_S in H. destruct (is_vxml v) eqn:X.
    - destruct v; try discriminate. destruct Hv.
    - destruct (tagged heap v m) as [tag v1] eqn:T. eapply ser_with_inv; [exact IH| |exact Hi|exact H].
      unfold tagged in T. destruct (str_eqb (m_tag m) star); [|apply pair_inj in T; destruct T as (_ & <-); exact Hv].
      destruct v; apply pair_inj in T; destruct T as (_ & <-); exact Hv.
  Qed.

  Lemma serialize_marks fuel v m x : elementless v -> serialize ci show classes heap fuel v m = Ok (Some x) ->
    exists n k, obj_ids (marks x) = numbers n /\ tn_ids (marks x) = numbers k /\ preceded resolved (marks x).
  Proof.
    intros Hv H. unfold serialize in H. apply bind_ok in H. destruct H as ([[y m'] st'] & H1 & H). apply Ok_inj in H. subst y.
    apply (ser_inv _ _ _ _ [] _ _ _ Hv inv_clear) in H1. cbn [opt_list flat_map app] in H1. rewrite app_nil_r in H1.
    exists (s_id st'), (s_tnid st'). split; [apply (i_ids _ _ H1)|split; [apply (i_tns _ _ H1)|apply (i_refs _ _ H1)]].
  Qed.
End Ser.

Lemma reparse_marks x : marks (reparse x) = marks x.
Proof.
  revert x. fix IH 1. intros [t a s c]. cbn [reparse]. rewrite !marks_elem. f_equal.
  - unfold mark_of. unfold attr_get. cbn [x_attrib x_tag x_children]. destruct (dict_get str_eqb (lit "RefId") a); [|reflexivity].
    destruct (str_eqb t (lit "Obj")); [reflexivity|]. destruct (str_eqb t (lit "Ref")); [reflexivity|].
    destruct (str_eqb t (lit "TN")); [|reflexivity]. f_equal. f_equal. rewrite map_map. apply map_ext. intros [t' a' s' c'].
    cbn [reparse x_text]. destruct s' as [[|? ?]|]; reflexivity.
  - induction c as [|y c IHc]; [reflexivity|]. cbn [map flat_map]. rewrite IH, IHc. reflexivity.
Qed.
