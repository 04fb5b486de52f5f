(* C71: arrays on the wire. *)
From Verif Require Import Base BaseProofs Lit NumModel TextModel TextSpec MsgModel XmlModel XtModel XtSpec XtProofs SerModel SerClasses SerSpec SerSpec2 SendClasses ClsSpec ClsProofs3 WfModel WfSpec WfProofs2 WfProofs3 StartModel StartSpec StartProofs ArrModel ArrSpec ArrProofs.
Require Import Lia ZifyNat.
Local Open Scope list_scope.

Lemma arrays_tidy : tidy_classes with_arrays.
Proof.
  intros c d H. unfold with_arrays in H. destruct (str_eqb c (lit "Array")); [|exact (sending_tidy c d H)]. apply Some_inj in H. subst d.
  assert (K : (forallb rawb (cd_types array_desc) && forallb (fun a => tidyb (snd a)) (attributes array_desc))%bool = true) by (vm_compute; reflexivity).
  apply andb_true_iff in K. destruct K as (K1 & K2). split; [exact (rawsb_ok _ K1)|]. intros a m Hm. rewrite forallb_forall in K2. exact (tidyb_ok _ (K2 _ Hm)).
Qed.
Lemma array_plain : plainly_described sending_canon array_desc.
Proof.
  split; [left; reflexivity|]. split; [|split; [|split; [left; reflexivity|split; [|split; [|left; reflexivity]]]]].
  - repeat (apply NoDup_cons; [intros K; vm_compute in K; repeat (destruct K as [K|K]; [discriminate K|]); destruct K|]). apply NoDup_nil.
  - intros K; vm_compute in K; repeat (destruct K as [K|K]; [discriminate K|]); destruct K.
  - repeat (apply NoDup_cons; [intros K; vm_compute in K; repeat (destruct K as [K|K]; [discriminate K|]); destruct K|]). apply NoDup_nil.
  - repeat (apply Forall_cons; [discriminate|]). apply Forall_nil.
Qed.
Lemma map_ints l : mapM (fun v => match v with VInt z => Ok z | _ => Err TypeError end) (map VInt l) = Ok l.
Proof. induction l as [|z l IH]; [reflexivity|]. cbn [map mapM bind]. rewrite IH. reflexivity. Qed.
Lemma all_conform {P : value -> Prop} l : Forall P l -> forall v, In v l -> P v.
Proof. intros H. apply Forall_forall. exact H. Qed.
Lemma entries_simple dims a : simple_elements dims a -> rectangular dims a -> Forall (fun n => 1 <= n) dims -> list_entries a <> [].
Proof. intros E R F C. pose proof (proj1 (entries_rectangular dims a R E)) as L. rewrite C in L. pose proof (size_pos dims F). cbn [length] in L. lia. Qed.

Section Wire.
  Context (ci : option cipher) (show : value -> list N) (xml_text : xml -> list N) (float_of : list N -> res (list N)) (reg : list (list N * list N)) (U : usable_registry reg).
  Theorem array_wire heap k n dims a o :
    dims <> [] -> Forall (fun n => 1 <= n) dims -> rectangular dims a -> simple_elements dims a ->
    array_seen n (new_array (Some a)) = Some (Ok o) -> nth_error heap k = Some o ->
    (forall idx v, within idx dims -> element idx a = Some v -> conforms ci float_of with_arrays sending_canon heap said raw any_meta v) ->
    exists f0, forall fuel, f0 <= fuel -> exists t, serialize_text ci show with_arrays reg heap fuel (VObj k) (class_meta (lit "Array")) = Ok (Some t) /\
      forall heap0, exists k' e attrs o', deserialize_text ci xml_text float_of with_arrays heap0 t (class_meta (lit "Array")) = Ok (VObj k', heap0 ++ e) /\
        nth_error (heap0 ++ e) k' = Some (HCls (lit "Array") attrs) /\ array_read attrs = Some o' /\
        forall m, size dims <= m -> exists a' o'', get_array m o' = Some (Ok (a', o'')) /\ rectangular dims a' /\
          forall idx v, within idx dims -> element idx a = Some v -> exists w, element idx a' = Some w /\ copy with_arrays heap (length heap0) (heap0 ++ e) v w.
  Proof.
    intros Nn F R E S Hk C. destruct (entries_rectangular dims a R E) as (Le & Ee). pose proof (count_rectangular dims a F R E) as Ct.
    unfold array_seen, get_mae, get_mal, get_array, new_array in S. cbn [a_array] in S. rewrite Ct in S. cbn [bind] in S. apply Some_inj in S. apply Ok_inj in S. subst o.
    set (attrs0 := [(lit "mae", VList (list_entries a)); (lit "mal", VList (map VInt (map Z.of_nat dims))); (lit "_to_string", VNone)]) in *.
    assert (Cl : coded sending_canon list_names) by exact (sending_coded _ (or_introl eq_refl)).
    assert (Cd : coded sending_canon dict_names) by exact (sending_coded _ (or_intror (or_introl eq_refl))).
    assert (Ce : Forall (conforms ci float_of with_arrays sending_canon heap said raw any_meta) (list_entries a)).
    { clear -C E R. revert a C E R. induction dims as [|d dims IH]; intros a C E R.
      - cbn [simple_elements] in E. replace (list_entries a) with [a] by (destruct a; try reflexivity; destruct E). constructor; [|constructor]. exact (C [] a (Forall2_nil _) eq_refl).
      - cbn [simple_elements rectangular] in *. destruct R as (l & -> & L & R). cbn [list_entries]. apply Forall_forall. intros v Hv. apply in_flat_map in Hv. destruct Hv as (w & Hw & Hv).
        rewrite Forall_forall in E, R. refine (all_conform _ (IH w _ (E w Hw) (R w Hw)) v Hv). intros idx u Hi Hu. apply In_nth_error in Hw. destruct Hw as (i & Hi').
        apply (C (i :: idx) u); [constructor; [rewrite <- L; apply nth_error_Some; congruence|exact Hi]|]. cbn [element]. rewrite Hi'. exact Hu. }
    assert (Cf : conforms ci float_of with_arrays sending_canon heap said raw (class_meta (lit "Array")) (VObj k)).
    { unfold class_meta. eapply (cf_class ci float_of with_arrays sending_canon heap said raw _ _ _ k (lit "Array") attrs0 array_desc); [left; reflexivity|exact Hk|reflexivity|exact array_plain|left; reflexivity| |].
      - intros x m Hm. destruct Hm as [Hm|[Hm|[]]]; apply pair_inj in Hm; destruct Hm as (<- & _); discriminate.
      - intros x m v Hm Hv. destruct Hm as [Hm|[Hm|[]]]; apply pair_inj in Hm; destruct Hm as (<- & <-).
        + change (Some (VList (list_entries a)) = Some v) in Hv. apply Some_inj in Hv. subst v. apply cf_list; [exact Cl|reflexivity|reflexivity|right; reflexivity|exact (all_conform _ Ce)].
        + change (Some (VList (map VInt (map Z.of_nat dims))) = Some v) in Hv. apply Some_inj in Hv. subst v. apply cf_list; [exact Cl|reflexivity|reflexivity|right; reflexivity|].
          intros v Hv. apply in_map_iff in Hv. destruct Hv as (z & <- & _). apply cf_scalar. apply be_int. vm_compute. tauto. }
    assert (Td : tidy (class_meta (lit "Array"))) by (apply tidyb_ok; vm_compute; reflexivity).
    assert (Nv : VObj k <> VNone \/ m_optional (class_meta (lit "Array")) = false) by (left; discriminate).
    pose proof (text_roundtrip ci show xml_text float_of with_arrays sending_canon heap reg (class_meta (lit "Array")) (VObj k) U arrays_tidy Td Cl Cd Cf Nv) as TR. destruct TR as (f0 & K).
    exists f0. intros fuel Lf. destruct (K fuel Lf) as (t & T1 & T2). exists t. split; [exact T1|]. intros heap0. destruct (T2 heap0) as (w & e & D1 & D2).
    inversion D2 as [| | | | | | | | | |n' k' c attrs attrs' d Hb H1 H2 H3 H4 H5 H6 H7]; subst. assert (Q : HCls c attrs = HCls (lit "Array") attrs0) by congruence.
    assert (c = lit "Array") by congruence. assert (attrs = attrs0) by congruence. subst c attrs. clear Q. change (Some array_desc = Some d) in H3. apply Some_inj in H3. subst d.
    assert (I1 : In (lit "mae", lm "mae" false any_meta ["System.Object[]"; "System.Array"; "System.Object"]%string) (attributes array_desc)) by (left; reflexivity).
    assert (I2 : In (lit "mal", lm "mal" false (plain "I32") ["System.Object[]"; "System.Array"; "System.Object"]%string) (attributes array_desc)) by (right; left; reflexivity).
    destruct (dict_get str_eqb (lit "mae") attrs') as [wa|] eqn:Ea; [|exfalso; exact (H4 _ _ I1 Ea)]. destruct (dict_get str_eqb (lit "mal") attrs') as [wl|] eqn:El; [|exfalso; exact (H4 _ _ I2 El)].
    pose proof (H5 _ _ _ _ I1 eq_refl Ea) as Ca. pose proof (H5 _ _ _ _ I2 eq_refl El) as Cm. inversion Ca as [| | | | | | | |l mae' La Ha| |]; subst. inversion Cm as [| | | | | | | |l mal' Lm Hm| |]; subst.
    assert (Mq : mal' = map VInt (map Z.of_nat dims)).
    { clear -Lm Hm. revert mal' Lm Hm. generalize (map Z.of_nat dims) as zs. induction zs as [|z zs IH]; intros [|m mal'] L H; try discriminate L; [reflexivity|]. cbn [map]. f_equal.
      - specialize (H 0 _ _ eq_refl eq_refl). inversion H; subst. reflexivity.
      - apply IH; [cbn [map length] in L; lia|]. intros i. exact (H (S i)). }
    subst mal'. eexists. exists e, attrs'. eexists. split; [exact D1|]. split; [exact H2|]. split; [unfold array_read; rewrite Ea, El, map_ints; reflexivity|].
    intros m Lm'. destruct (built dims mae' m Nn F) as (a' & B & Ra & Ea'); [congruence|exact Lm'|]. exists a'. eexists. unfold get_array, set_mal, set_mae, new_array. cbn [a_array a_mae a_mal]. rewrite B. split; [reflexivity|]. split; [exact Ra|].
    intros idx v Hi Hv. rewrite <- (Ee idx Hi) in Hv. rewrite (Ea' idx Hi). destruct (nth_error mae' (position idx dims)) as [w|] eqn:Ew.
    - exists w. split; [reflexivity|]. exact (Ha _ _ _ Hv Ew).
    - exfalso. apply nth_error_None in Ew. assert (position idx dims < length (list_entries a)) by (apply nth_error_Some; congruence). lia.
  Qed.
End Wire.

(* ---- building comes to an end ---- *)
Lemma rows_count n : (0 < n)%Z -> forall fuel mae vs, pop_rows fuel n mae = Some (Ok vs) -> length vs <= length mae.
Proof.
  intros Hn. induction fuel as [|fuel IH]; intros mae vs H; [discriminate H|]. cbn [pop_rows] in H.
  destruct (Nat.ltb_spec (length mae) (Z.to_nat n)) as [Q|Q]; [rewrite (pop_front_short _ _ Q) in H; discriminate H|].
  rewrite <- (firstn_skipn (Z.to_nat n) mae), (pop_front_app (Z.to_nat n)) in H by (rewrite firstn_length; lia).
  assert (Ls : length (skipn (Z.to_nat n) mae) = length mae - Z.to_nat n) by apply skipn_length.
  destruct (skipn (Z.to_nat n) mae) as [|v rest].
  - apply Some_inj, Ok_inj in H. subst vs. cbn [length]. lia.
  - destruct (pop_rows fuel n (v :: rest)) as [[vs'|e]|] eqn:E; try discriminate H. apply Some_inj, Ok_inj in H. subst vs. pose proof (IH _ _ E). cbn [length] in *. lia.
Qed.
Theorem build_ends fuel mae mal : Forall (fun z => (0 < z)%Z) mal -> length mae < fuel -> build_array fuel mae mal <> None.
Proof.
  intros F. unfold build_array. apply Forall_rev in F. generalize dependent (rev mal). intros lam F. revert mae. induction lam as [|n lam IH]; intros mae L; cbn [build_rows]; [discriminate|].
  pose proof (Forall_inv F) as Hn. cbn beta in Hn. destruct (pop_rows fuel n mae) as [[vs|e]|] eqn:E; [|discriminate|exfalso; exact (rows_end n Hn mae fuel L E)].
  pose proof (rows_count n Hn _ _ _ E). destruct lam as [|z [|z2 lam]]; [discriminate|discriminate|]. apply IH; [exact (Forall_inv_tail F)|lia].
Qed.
