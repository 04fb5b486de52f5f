(* C71: arrays are flattened and built again. *)
From Verif Require Import Base BaseProofs Lit NumModel MsgModel SerModel ArrModel ArrSpec.
Require Import Lia ZifyNat.
Local Open Scope list_scope.

Lemma pop_front_app n a rest : length a = n -> pop_front n (a ++ rest) = Ok (a, rest).
Proof. revert a. induction n as [|n IH]; intros [|v a] L; try discriminate L; [reflexivity|]. cbn [pop_front app]. rewrite (IH a) by (cbn [length] in L; lia). reflexivity. Qed.
Lemma pop_front_short n : forall mae, length mae < n -> pop_front n mae = Err IndexError.
Proof. induction n as [|n IH]; intros mae L; [lia|]. destruct mae as [|v mae]; [reflexivity|]. cbn [pop_front length] in *. rewrite IH by lia. reflexivity. Qed.

(* groups of n *)
Lemma pop_rows_groups n : 1 <= n -> forall groups fuel, groups <> [] -> Forall (fun g => length g = n) groups -> length groups <= fuel ->
  pop_rows fuel (Z.of_nat n) (concat groups) = Some (Ok (map VList groups)).
Proof.
  intros Hn. induction groups as [|g groups IH]; intros fuel Nn F L; [contradiction|]. destruct fuel as [|fuel]; [cbn [length] in L; lia|].
  cbn [pop_rows concat]. rewrite Nat2Z.id. rewrite (pop_front_app n g _ (Forall_inv F)). destruct groups as [|g' groups].
  - cbn [concat]. reflexivity.
  - pose proof (Forall_inv_tail F) as F'. destruct (concat (g' :: groups)) as [|v mae] eqn:E.
    + exfalso. assert (length (concat (g' :: groups)) = 0) by (rewrite E; reflexivity). cbn [concat] in H. rewrite app_length in H. pose proof (Forall_inv F'). cbn beta in *. lia.
    + rewrite (IH fuel); [reflexivity|discriminate|exact F'|cbn [length] in *; lia].
Qed.

(* ---- cutting a list in groups ---- *)
Fixpoint groups_of {A} (k n : nat) (l : list A) : list (list A) :=
  match k with 0 => [] | S k => firstn n l :: groups_of k n (skipn n l) end.
Lemma groups_length {A} n : forall k (l : list A), length (groups_of k n l) = k.
Proof. induction k as [|k IH]; intros l; [reflexivity|]. cbn [groups_of length]. rewrite IH. reflexivity. Qed.
Lemma groups_concat {A} n : forall k (l : list A), length l = k * n -> concat (groups_of k n l) = l.
Proof.
  induction k as [|k IH]; intros l L; [destruct l; [reflexivity|discriminate L]|]. cbn [groups_of concat]. rewrite IH; [apply firstn_skipn|]. rewrite skipn_length. lia.
Qed.
Lemma groups_each {A} n : forall k (l : list A), length l = k * n -> Forall (fun g => length g = n) (groups_of k n l).
Proof. induction k as [|k IH]; intros l L; [apply Forall_nil|]. cbn [groups_of]. apply Forall_cons; [rewrite firstn_length; lia|]. apply IH. rewrite skipn_length. lia. Qed.
Lemma nth_firstn {A} : forall n i (l : list A), i < n -> nth_error (firstn n l) i = nth_error l i.
Proof. induction n as [|n IH]; intros i l L; [lia|]. destruct l as [|x l]; [reflexivity|]. destruct i as [|i]; [reflexivity|]. cbn [firstn nth_error]. apply IH. lia. Qed.
Lemma nth_skipn {A} : forall n i (l : list A), nth_error (skipn n l) i = nth_error l (n + i).
Proof. induction n as [|n IH]; intros i l; [reflexivity|]. destruct l as [|x l]; [destruct i; reflexivity|]. cbn [skipn Nat.add nth_error]. apply IH. Qed.
Lemma groups_nth {A} n : forall k (l : list A) i j, i < k -> j < n -> exists g, nth_error (groups_of k n l) i = Some g /\ nth_error g j = nth_error l (i * n + j).
Proof.
  induction k as [|k IH]; intros l i j Hi Hj; [lia|]. cbn [groups_of]. destruct i as [|i].
  - exists (firstn n l). split; [reflexivity|]. apply nth_firstn. exact Hj.
  - destruct (IH (skipn n l) i j) as (g & H1 & H2); [lia|exact Hj|]. exists g. split; [exact H1|]. rewrite H2, nth_skipn. f_equal. lia.
Qed.

(* the innermost lengths first *)
Lemma size_app a b : size (a ++ b) = size a * size b.
Proof. unfold size. induction a as [|n a IH]; cbn [app fold_right]; [lia|]. rewrite IH. lia. Qed.
Lemma size_pos dims : Forall (fun n => 1 <= n) dims -> 1 <= size dims.
Proof. unfold size. induction 1 as [|n dims H _ IH]; cbn [fold_right]; [lia|]. nia. Qed.
Lemma position_snoc idx dims j n : length idx = length dims -> position (idx ++ [j]) (dims ++ [n]) = position idx dims * n + j.
Proof.
  revert dims. induction idx as [|i idx IH]; intros [|d dims] L; try discriminate L; cbn [app position fold_right]; [lia|].
  rewrite IH by (cbn [length] in L; lia). fold (size (dims ++ [n])). rewrite size_app. fold (size dims). unfold size at 2. cbn [fold_right]. nia.
Qed.
Lemma element_snoc idx : forall v j, element (idx ++ [j]) v = match element idx v with Some (VList l) => nth_error l j | _ => None end.
Proof.
  induction idx as [|i idx IH]; intros v j; cbn [app element].
  - destruct v; try reflexivity. destruct (nth_error l j); reflexivity.
  - destruct v; try reflexivity. destruct (nth_error l i) as [w|]; [apply IH|reflexivity].
Qed.
Lemma rectangular_snoc dims n v : rectangular dims v -> (forall idx, within idx dims -> exists l, element idx v = Some (VList l) /\ length l = n) -> rectangular (dims ++ [n]) v.
Proof.
  revert v. induction dims as [|d dims IH]; intros v R E; cbn [app rectangular] in *.
  - destruct (E [] (Forall2_nil _)) as (l & H & L). cbn [element] in H. apply Some_inj in H. subst v. exists l. split; [reflexivity|]. split; [exact L|]. clear. induction l; constructor; auto; exact Logic.I.
  - destruct R as (l & -> & L & F). exists l. split; [reflexivity|]. split; [exact L|]. apply Forall_forall. intros w Hw. apply IH; [rewrite Forall_forall in F; exact (F w Hw)|].
    intros idx Hi. apply In_nth_error in Hw. destruct Hw as (i & Hw). destruct (E (i :: idx)) as (l' & H & L'); [constructor; [rewrite <- L; apply nth_error_Some; congruence|exact Hi]|].
    cbn [element] in H. rewrite Hw in H. exists l'. auto.
Qed.
Lemma within_length idx dims : within idx dims -> length idx = length dims.
Proof. induction 1; cbn [length]; congruence. Qed.
Lemma position_size idx dims : within idx dims -> position idx dims < size dims.
Proof. induction 1 as [|i d idx dims H _ IH]; cbn [position size fold_right] in *; [lia|]. unfold size in *. nia. Qed.
Lemma size_snoc dims n : size (dims ++ [n]) = size dims * n.
Proof. rewrite size_app. unfold size at 2. cbn [fold_right]. lia. Qed.

(* what is built from as many elements as the lengths ask for *)
Lemma built : forall dims mae fuel, dims <> [] -> Forall (fun n => 1 <= n) dims -> length mae = size dims -> size dims <= fuel ->
  exists a, build_array fuel mae (map Z.of_nat dims) = Some (Ok a) /\ rectangular dims a /\ forall idx, within idx dims -> element idx a = nth_error mae (position idx dims).
Proof.
  unfold build_array. induction dims as [|n dims IH] using rev_ind; intros mae fuel Nn F L Lf; [contradiction|]. clear Nn. apply Forall_app in F. destruct F as (F & Fn). pose proof (Forall_inv Fn) as Hn. cbn beta in Hn.
  rewrite size_snoc in L, Lf. pose proof (size_pos dims F) as Sp. rewrite map_app, rev_app_distr. cbn [map rev app build_rows].
  set (gs := groups_of (size dims) n mae).
  assert (R : pop_rows fuel (Z.of_nat n) mae = Some (Ok (map VList gs))).
  { rewrite <- (groups_concat n (size dims) mae L). fold gs. apply (pop_rows_groups n Hn); [|exact (groups_each n (size dims) mae L)|].
    - unfold gs. destruct (size dims); [lia|]. discriminate.
    - unfold gs. rewrite groups_length. nia. }
  rewrite R.
  assert (K : forall a, rectangular dims a -> (forall idx, within idx dims -> element idx a = nth_error (map VList gs) (position idx dims)) ->
    rectangular (dims ++ [n]) a /\ forall idx, within idx (dims ++ [n]) -> element idx a = nth_error mae (position idx (dims ++ [n]))).
  { intros a Ra Ea. split.
    - apply rectangular_snoc; [exact Ra|]. intros idx Hi. rewrite (Ea idx Hi). pose proof (position_size idx dims Hi) as P. rewrite nth_error_map.
      destruct (nth_error gs (position idx dims)) as [g|] eqn:G; [|apply nth_error_None in G; unfold gs in G; rewrite groups_length in G; lia].
      exists g. split; [reflexivity|]. apply nth_error_In in G. pose proof (groups_each n (size dims) mae L) as Q. rewrite Forall_forall in Q. exact (Q g G).
    - intros idx Hi. unfold within in Hi. apply Forall2_app_inv_r in Hi. destruct Hi as (i1 & i2 & H1 & H2 & ->). inversion H2 as [|j ? ? ? Hj H3]; subst. inversion H3; subst.
      rewrite element_snoc, (Ea i1 H1), nth_error_map, (position_snoc i1 dims j n (within_length _ _ H1)).
      destruct (groups_nth n (size dims) mae (position i1 dims) j (position_size _ _ H1) Hj) as (g & G1 & G2). fold gs in G1. rewrite G1. cbn [option_map]. exact G2. }
  destruct dims as [|d dims].
  - cbn [map rev]. unfold gs in *. cbn [size fold_right groups_of map] in *. eexists. split; [reflexivity|]. apply K; [exact Logic.I|]. intros idx Hi. inversion Hi; subst. reflexivity.
  - destruct dims as [|d2 dims].
    + cbn [map rev app]. eexists. split; [reflexivity|]. apply K.
      * exists (map VList gs). split; [reflexivity|]. split; [unfold gs; rewrite map_length, groups_length; unfold size; cbn [fold_right]; lia|]. apply Forall_forall. intros w _. exact Logic.I.
      * intros idx Hi. inversion Hi as [|i ? ? ? H1 H2]; subst. inversion H2; subst. cbn [element position fold_right]. replace (i * 1 + 0) with i by lia. destruct (nth_error (map VList gs) i); reflexivity.
    + set (ds := d :: d2 :: dims) in *. destruct (IH (map VList gs) fuel) as (a & B & Ra & Ea).
      * discriminate.
      * exact F.
      * rewrite map_length. unfold gs. apply groups_length.
      * nia.
      * exists a. destruct (K a Ra Ea) as (K1 & K2). split; [|split; assumption]. rewrite <- B.
        assert (Lr : 2 <= length (rev (map Z.of_nat ds))) by (rewrite rev_length, map_length; unfold ds; cbn [length]; lia).
        destruct (rev (map Z.of_nat ds)) as [|z1 [|z2 zs]]; [cbn [length] in Lr; lia|cbn [length] in Lr; lia|reflexivity].
Qed.

(* ---- flattening ---- *)
Lemma count_rectangular : forall dims a, Forall (fun n => 1 <= n) dims -> rectangular dims a -> simple_elements dims a -> list_count a = Ok (map Z.of_nat dims).
Proof.
  induction dims as [|n dims IH]; intros a F R E; cbn [rectangular simple_elements map] in *.
  - destruct a; try reflexivity. destruct E.
  - destruct R as (l & -> & L & R). pose proof (Forall_inv F) as Hn. destruct l as [|x l]; [cbn [length] in *; cbn beta in Hn; lia|].
    cbn [list_count]. rewrite (IH x (Forall_inv_tail F) (Forall_inv R) (Forall_inv E)). cbn [bind]. rewrite <- L. reflexivity.
Qed.
Lemma entries_rectangular : forall dims a, rectangular dims a -> simple_elements dims a -> length (list_entries a) = size dims /\
  forall idx, within idx dims -> nth_error (list_entries a) (position idx dims) = element idx a.
Proof.
  induction dims as [|n dims IH]; intros a R E; cbn [rectangular simple_elements] in *.
  - assert (Q : list_entries a = [a]) by (destruct a; try reflexivity; destruct E). rewrite Q. split; [reflexivity|]. intros idx Hi. inversion Hi; subst. reflexivity.
  - destruct R as (l & -> & L & R). cbn [list_entries].
    assert (Q : forall v, In v l -> length (list_entries v) = size dims /\ forall idx, within idx dims -> nth_error (list_entries v) (position idx dims) = element idx v).
    { intros v Hv. rewrite Forall_forall in R, E. exact (IH v (R v Hv) (E v Hv)). }
    clear R E. subst n. split.
    + unfold size. cbn [fold_right]. fold (size dims). clear IH. induction l as [|v l IHl]; [reflexivity|]. cbn [flat_map length]. rewrite app_length. rewrite (proj1 (Q v (or_introl eq_refl))), IHl; [lia|]. intros w Hw. apply Q. right. exact Hw.
    + intros idx Hi. inversion Hi as [|i ? idx' ? H1 H2]; subst. cbn [position element]. fold (size dims). clear IH Hi. revert i H1. induction l as [|v l IHl]; intros i H1; [cbn [length] in H1; lia|].
      cbn [flat_map]. destruct (Q v (or_introl eq_refl)) as (Lv & Ev). destruct i as [|i].
      * cbn [nth_error]. rewrite nth_error_app1; [cbn [Nat.mul Nat.add]; exact (Ev _ H2)|]. rewrite Lv. pose proof (position_size _ _ H2). lia.
      * cbn [nth_error]. rewrite nth_error_app2 by (rewrite Lv; lia). rewrite Lv. replace (S i * size dims + position idx' dims - size dims) with (i * size dims + position idx' dims) by lia.
        apply IHl; [intros w Hw; apply Q; right; exact Hw|cbn [length] in H1; lia].
Qed.
(* an array is what its elements are *)
Lemma rectangular_ext : forall dims a b, rectangular dims a -> rectangular dims b -> (forall idx, within idx dims -> element idx a = element idx b) -> a = b.
Proof.
  induction dims as [|n dims IH]; intros a b Ra Rb E; cbn [rectangular] in *.
  - pose proof (E [] (Forall2_nil _)) as Q. cbn [element] in Q. congruence.
  - destruct Ra as (la & -> & La & Fa), Rb as (lb & -> & Lb & Fb). f_equal.
    assert (Q : forall i, nth_error la i = nth_error lb i).
    { intros i. destruct (nth_error la i) as [v|] eqn:Ev, (nth_error lb i) as [w|] eqn:Ew.
      - f_equal. rewrite Forall_forall in Fa, Fb. apply IH; [exact (Fa v (nth_error_In _ _ Ev))|exact (Fb w (nth_error_In _ _ Ew))|]. intros idx Hi.
        assert (Li : i < n) by (rewrite <- La; apply nth_error_Some; congruence). specialize (E (i :: idx) (Forall2_cons _ _ Li Hi)). cbn [element] in E. rewrite Ev, Ew in E. exact E.
      - exfalso. apply nth_error_None in Ew. assert (i < length la) by (apply nth_error_Some; congruence). lia.
      - exfalso. apply nth_error_None in Ev. assert (i < length lb) by (apply nth_error_Some; congruence). lia.
      - reflexivity. }
    clear -Q. revert lb Q. induction la as [|v la IHl]; intros [|w lb] Q; [reflexivity|specialize (Q 0); discriminate Q|specialize (Q 0); discriminate Q|].
    pose proof (Q 0) as Q0. cbn [nth_error] in Q0. apply Some_inj in Q0. subst w. f_equal. apply IHl. intros i. exact (Q (S i)).
Qed.
Theorem rebuilt dims a fuel : dims <> [] -> Forall (fun n => 1 <= n) dims -> rectangular dims a -> simple_elements dims a -> size dims <= fuel ->
  list_count a = Ok (map Z.of_nat dims) /\ build_array fuel (list_entries a) (map Z.of_nat dims) = Some (Ok a).
Proof.
  intros Nn F R E L. split; [exact (count_rectangular dims a F R E)|]. destruct (entries_rectangular dims a R E) as (Le & Ee).
  destruct (built dims (list_entries a) fuel Nn F Le L) as (b & B & Rb & Eb). rewrite B. do 2 f_equal. apply (rectangular_ext dims b a Rb R). intros idx Hi. rewrite (Eb idx Hi). exact (Ee idx Hi).
Qed.
(* more turns change nothing *)
Lemma rows_more n : forall fuel mae r, pop_rows fuel n mae = Some r -> forall fuel', fuel <= fuel' -> pop_rows fuel' n mae = Some r.
Proof.
  induction fuel as [|fuel IH]; intros mae r H fuel' L; [discriminate H|]. destruct fuel' as [|fuel']; [lia|]. cbn [pop_rows] in *. destruct (pop_front (Z.to_nat n) mae) as [(entry, rest)|e]; [|exact H]. destruct rest as [|v rest]; [exact H|].
  destruct (pop_rows fuel n (v :: rest)) as [r'|] eqn:E; [|discriminate H]. rewrite (IH _ _ E fuel') by lia. exact H.
Qed.
Lemma rows_stuck n : (n <= 0)%Z -> forall fuel v mae, pop_rows fuel n (v :: mae) = None.
Proof.
  intros Hn. induction fuel as [|fuel IH]; intros v mae; [reflexivity|]. cbn [pop_rows]. replace (Z.to_nat n) with 0 by lia. cbn [pop_front]. rewrite IH. reflexivity.
Qed.
Lemma rows_end n : (0 < n)%Z -> forall mae fuel, length mae < fuel -> pop_rows fuel n mae <> None.
Proof.
  intros Hn mae. remember (length mae) as k eqn:E. revert mae E. induction k as [k IH] using lt_wf_ind. intros mae -> fuel L. destruct fuel as [|fuel]; [lia|]. cbn [pop_rows].
  destruct (Nat.ltb_spec (length mae) (Z.to_nat n)) as [Q|Q].
  - rewrite (pop_front_short _ _ Q). discriminate.
  - rewrite <- (firstn_skipn (Z.to_nat n) mae), (pop_front_app (Z.to_nat n)) by (rewrite firstn_length; lia).
    destruct (skipn (Z.to_nat n) mae) as [|v rest] eqn:Es; [discriminate|].
    assert (Lr : length (v :: rest) < length mae) by (rewrite <- Es, skipn_length; lia).
    pose proof (IH _ Lr (v :: rest) eq_refl fuel ltac:(lia)) as K. destruct (pop_rows fuel n (v :: rest)) as [[vs|e]|]; [discriminate|discriminate|contradiction].
Qed.
