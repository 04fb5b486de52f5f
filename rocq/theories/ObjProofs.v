From Coq Require Import Lia ZifyBool ZifyNat ZifyN.
From Verif Require Import Base BaseProofs Lit NumModel NumProofs UtilModel UtilSpec UtilProofs ObjModel ObjSpec.
Ltac Zify.zify_post_hook ::= Z.div_mod_to_equations.

(* ------------------------------------------------------------------ *)
(* arrays *)
Section Arrays.
Context {A : Type}.
Implicit Types a : arr A.

(* all sub-arrays at depth k *)
Fixpoint layer (k : nat) (a : arr A) : list (arr A) :=
  match k with
  | O => [a]
  | S k' => match a with Node l => flat_map (layer k') l | Leaf _ => [] end
  end.
Definition children (a : arr A) : list (arr A) := match a with Node l => l | Leaf _ => [] end.

Lemma concat_flat_map {X Y} (f : X -> list Y) (l : list X) : concat (map f l) = flat_map f l.
Proof. induction l as [|x l IH]; [reflexivity|]. cbn [map concat flat_map]. now rewrite IH. Qed.

Lemma flat_map_flat_map {X Y W} (f : X -> list Y) (g : Y -> list W) l :
  flat_map g (flat_map f l) = flat_map (fun x => flat_map g (f x)) l.
Proof. induction l as [|x l IH]; [reflexivity|]. cbn [flat_map]. rewrite flat_map_app. now rewrite IH. Qed.

Lemma layer_next k a : layer (S k) a = concat (map children (layer k a)).
Proof.
  revert a. induction k as [|k IH]; intros a.
  - cbn [layer map concat]. destruct a as [x|l]; cbn [children app]; [reflexivity|].
    rewrite app_nil_r. induction l as [|y l IHl]; [reflexivity|]. cbn [flat_map]. cbn [app]. now rewrite IHl.
  - destruct a as [x|l]; [reflexivity|].
    change (layer (S (S k)) (Node l)) with (flat_map (layer (S k)) l).
    change (layer (S k) (Node l)) with (flat_map (layer k) l).
    rewrite concat_flat_map, flat_map_flat_map. apply flat_map_ext. intros y. rewrite IH. apply concat_flat_map.
Qed.

Lemma layer_shape : forall k ds a, (k <= length ds)%nat -> shaped ds a ->
  Forall (shaped (skipn k ds)) (layer k a).
Proof.
  induction k as [|k IH]; intros ds a Hk H.
  - cbn [layer skipn]. apply Forall_cons; [exact H|apply Forall_nil].
  - destruct ds as [|d ds]; [cbn [length] in Hk; lia|]. cbn [skipn].
    destruct a as [x|l]; [destruct H|]. destruct H as [_ H]. cbn [layer].
    apply Forall_forall. intros y Hy. apply in_flat_map in Hy. destruct Hy as (z & Hz & Hy).
    rewrite Forall_forall in H. specialize (H z Hz). cbn [length] in Hk.
    pose proof (IH ds z ltac:(lia) H) as F. rewrite Forall_forall in F. now apply F.
Qed.

Lemma layer_nonempty : forall k ds a, (k <= length ds)%nat -> Forall (fun d => (0 < d)%nat) ds -> shaped ds a -> layer k a <> [].
Proof.
  induction k as [|k IH]; intros ds a Hk Hp H; [discriminate|].
  destruct ds as [|d ds]; [cbn [length] in Hk; lia|]. destruct a as [x|l]; [destruct H|]. destruct H as [Hd H].
  pose proof (Forall_inv Hp) as Hd0. cbv beta in Hd0. destruct l as [|y l]; [cbn [length] in Hd; lia|].
  cbn [layer flat_map]. cbn [length] in Hk.
  pose proof (IH ds y ltac:(lia) (Forall_inv_tail Hp) (Forall_inv H)) as Hn.
  intros E. apply app_eq_nil in E. destruct E. contradiction.
Qed.

Lemma layer_full : forall ds a, shaped ds a -> layer (length ds) a = map Leaf (entries a).
Proof.
  induction ds as [|d ds IH]; intros a H.
  - destruct a as [x|l]; [reflexivity|destruct H].
  - destruct a as [x|l]; [destruct H|]. destruct H as [_ H]. cbn [length layer entries].
    clear d. induction l as [|y l IHl]; [reflexivity|]. cbn [flat_map]. rewrite map_app.
    rewrite (IH y (Forall_inv H)). f_equal. apply IHl. exact (Forall_inv_tail H).
Qed.

Lemma pop_entries_app {X} (e r : list X) : pop_entries (length e) (e ++ r) = Ok (e, r).
Proof. induction e as [|x e IH]; [reflexivity|]. cbn [length app pop_entries]. rewrite IH. reflexivity. Qed.

Lemma groups_ok n : (0 < n)%nat -> forall (ls : list (arr A)) fuel, ls <> [] -> (length ls <= fuel)%nat ->
  Forall (fun a => exists l, a = Node l /\ length l = n) ls ->
  groups fuel n (concat (map children ls)) = Ok ls.
Proof.
  intros Hn. induction ls as [|a ls IH]; intros fuel Hne Hf H; [congruence|].
  destruct (Forall_inv H) as (l & -> & El). destruct fuel as [|fuel]; [cbn [length] in Hf; lia|].
  cbn [map concat children groups]. rewrite <- El at 1. rewrite pop_entries_app. cbn [bind].
  destruct ls as [|b ls].
  - reflexivity.
  - destruct (Forall_inv (Forall_inv_tail H)) as (lb & Eb & Elb).
    destruct (concat (map children (b :: ls))) as [|x r] eqn:E.
    + exfalso. cbn [map concat] in E. rewrite Eb in E. cbn [children] in E.
      apply app_eq_nil in E. destruct E as [E _]. rewrite E in Elb. cbn [length] in Elb. lia.
    + cbv iota. rewrite IH; [reflexivity|discriminate|cbn [length] in *; lia|exact (Forall_inv_tail H)].
Qed.

Lemma length_layer_le k ds a : (k < length ds)%nat -> Forall (fun d => (0 < d)%nat) ds -> shaped ds a ->
  (length (layer k a) <= length (layer (S k) a))%nat.
Proof.
  intros Hk Hp H. rewrite layer_next.
  pose proof (layer_shape k ds a ltac:(lia) H) as F.
  assert (E : exists d rest, skipn k ds = d :: rest /\ (0 < d)%nat).
  { clear -Hk Hp. revert ds Hk Hp. induction k as [|k IH]; intros ds Hk Hp.
    - destruct ds as [|d ds]; [cbn [length] in Hk; lia|]. exists d, ds. split; [reflexivity|exact (Forall_inv Hp)].
    - destruct ds as [|d ds]; [cbn [length] in Hk; lia|]. cbn [skipn]. apply IH; [cbn [length] in Hk; lia|exact (Forall_inv_tail Hp)]. }
  destruct E as (d & rest & E & Hd). rewrite E in F. clear -F Hd.
  induction (layer k a) as [|x xs IH]; [reflexivity|]. cbn [map concat length]. rewrite app_length.
  specialize (IH (Forall_inv_tail F)). pose proof (Forall_inv F) as Fx. destruct x as [y|l]; [destruct Fx|].
  destruct Fx as [El _]. cbn [children]. lia.
Qed.

Lemma skipn_nth_cons {X} : forall k (l : list X) d, (k < length l)%nat -> exists x rest, skipn k l = x :: rest /\ nth k l d = x.
Proof.
  induction k as [|k IH]; intros l d Hk; destruct l as [|x l]; cbn [length] in Hk; try lia.
  - exists x, l. auto.
  - cbn [skipn nth]. apply IH. lia.
Qed.

Lemma groups_layer k ds a : (k < length ds)%nat -> Forall (fun d => (0 < d)%nat) ds -> shaped ds a ->
  groups (S (length (layer (S k) a))) (nth k ds 0%nat) (layer (S k) a) = Ok (layer k a).
Proof.
  intros Hk Hp H. rewrite (layer_next k a) at 2.
  pose proof (layer_shape k ds a ltac:(lia) H) as F.
  destruct (skipn_nth_cons k ds 0%nat Hk) as (d & rest & E & En). rewrite En, E in *.
  apply groups_ok.
  - rewrite Forall_forall in Hp. apply Hp. rewrite <- En. apply nth_In. exact Hk.
  - now apply (layer_nonempty k ds a); [lia| |].
  - pose proof (length_layer_le k ds a Hk Hp H). lia.
  - eapply Forall_impl; [|exact F]. intros b Hb. destruct b as [x|l]; [destruct Hb|]. exists l. split; [reflexivity|exact (proj1 Hb)].
Qed.

(* rebuilding from the layer at depth k+1 with the first k+1 dimensions *)
Lemma build_layer : forall k ds (l : list (arr A)), (k < length ds)%nat -> Forall (fun d => (0 < d)%nat) ds -> shaped ds (Node l) ->
  build_rev (layer (S k) (Node l)) (rev (map Z.of_nat (firstn (S k) ds))) = Ok l.
Proof.
  induction k as [|k IH]; intros ds l Hk Hp H.
  - pose proof (groups_layer 0 ds (Node l) Hk Hp H) as G. 
    destruct ds as [|d ds]; [cbn [length] in Hk; lia|]. cbn [firstn map rev app].
    unfold build_rev. rewrite Nat2Z.id. cbn [nth] in G. rewrite G. cbn [bind layer]. reflexivity.
  - assert (E : rev (map Z.of_nat (firstn (S (S k)) ds)) = Z.of_nat (nth (S k) ds 0%nat) :: rev (map Z.of_nat (firstn (S k) ds))).
    { assert (Ef : firstn (S (S k)) ds = firstn (S k) ds ++ [nth (S k) ds 0%nat]).
      { clear -Hk. revert ds Hk. induction (S k) as [|n IHn]; intros ds Hk; destruct ds as [|d ds]; cbn [length] in Hk; try lia.
        - reflexivity.
        - change (firstn (S (S n)) (d :: ds)) with (d :: firstn (S n) ds).
          rewrite (IHn ds ltac:(lia)). reflexivity. }
      rewrite Ef, map_app, rev_app_distr. reflexivity. }
    rewrite E. cbn [build_rev]. rewrite Nat2Z.id. rewrite (groups_layer (S k) ds (Node l) Hk Hp H). cbn [bind].
    assert (Hk' : (k < length ds)%nat) by lia.
    specialize (IH ds l Hk' Hp H).
    destruct (rev (map Z.of_nat (firstn (S k) ds))) as [|z [|z2 r]] eqn:Er.
    + exfalso. apply (f_equal (@length Z)) in Er. rewrite rev_length, map_length, firstn_length in Er. cbn [length] in Er. lia.
    + f_equal. assert (k = 0)%nat.
      { apply (f_equal (@length Z)) in Er. rewrite rev_length, map_length, firstn_length in Er. cbn [length] in Er. lia. }
      subst k. cbn [layer]. clear. induction l as [|x l IHl]; [reflexivity|]. cbn [flat_map app]. now rewrite IHl.
    + exact IH.
Qed.

Lemma array_build ds (l : list (arr A)) : ds <> [] -> Forall (fun d => (0 < d)%nat) ds -> shaped ds (Node l) ->
  build_array (map Leaf (get_list_entries l)) (map Z.of_nat ds) = Ok l.
Proof.
  intros Hn Hp H. unfold build_array, get_list_entries. change (flat_map entries l) with (entries (Node l)).
  rewrite <- (layer_full ds (Node l) H). destruct ds as [|d ds]; [congruence|].
  pose proof (build_layer (length ds) (d :: ds) l ltac:(cbn [length]; lia) Hp H) as B.
  change (S (length ds)) with (length (d :: ds)) in B. rewrite firstn_all in B. exact B.
Qed.

Lemma array_count : forall ds a, Forall (fun d => (0 < d)%nat) ds -> shaped ds a -> list_count a = Ok ds.
Proof.
  induction ds as [|d ds IH]; intros a Hp H.
  - destruct a; [reflexivity|destruct H].
  - destruct a as [x|l]; [destruct H|]. destruct H as [Hd H]. pose proof (Forall_inv Hp) as Hd0. cbv beta in Hd0.
    destruct l as [|y l]; [cbn [length] in Hd; lia|]. cbn [list_count]. rewrite (IH y (Forall_inv_tail Hp) (Forall_inv H)).
    cbn [bind]. now rewrite Hd.
Qed.

Lemma entries_length : forall ds a, shaped ds a -> length (entries a) = product ds.
Proof.
  induction ds as [|d ds IH]; intros a H.
  - destruct a; [reflexivity|destruct H].
  - destruct a as [x|l]; [destruct H|]. destruct H as [Hd H]. cbn [entries product]. subst d.
    induction l as [|y l IHl]; [reflexivity|]. cbn [flat_map length]. rewrite app_length, (IH y (Forall_inv H)).
    rewrite IHl by exact (Forall_inv_tail H). lia.
Qed.

Lemma array_order : forall ds a idx, shaped ds a -> in_bounds ds idx ->
  exists x, at_index a idx = Some x /\ nth_error (entries a) (row_major ds idx) = Some x.
Proof.
  induction ds as [|d ds IH]; intros a idx H B.
  - inversion B; subst. destruct a as [x|l]; [|destruct H]. exists x. split; reflexivity.
  - inversion B as [|d' i ds' idx' Hi B']; subst. destruct a as [x|l]; [destruct H|]. destruct H as [Hd H]. subst d.
    cbn [at_index row_major entries].
    assert (G : forall (l : list (arr A)) i, Forall (shaped ds) l -> (i < length l)%nat ->
      exists b, nth_error l i = Some b /\ shaped ds b /\ forall j, (j < product ds)%nat ->
        nth_error (flat_map entries l) (i * product ds + j) = nth_error (entries b) j).
    { clear -A. induction l as [|y l IHl]; intros i H Hi; [cbn [length] in Hi; lia|].
      pose proof (entries_length ds y (Forall_inv H)) as Ey.
      destruct i as [|i].
      - exists y. split; [reflexivity|]. split; [exact (Forall_inv H)|]. intros j Hj. cbn [flat_map Nat.mul Nat.add].
        now rewrite nth_error_app1 by lia.
      - destruct (IHl i (Forall_inv_tail H) ltac:(cbn [length] in Hi; lia)) as (b & Hb & Sb & Hj).
        exists b. split; [exact Hb|]. split; [exact Sb|]. intros j Hlt. cbn [flat_map].
        rewrite nth_error_app2 by (rewrite Ey; nia). rewrite Ey.
        replace (S i * product ds + j - product ds)%nat with (i * product ds + j)%nat by nia. now apply Hj. }
    destruct (G l i H Hi) as (b & Hb & Sb & Hj). rewrite Hb.
    destruct (IH b idx' Sb B') as (x & Hx & Hn). exists x. split; [exact Hx|].
    rewrite Hj; [exact Hn|]. rewrite <- (entries_length ds b Sb). apply nth_error_Some. now rewrite Hn.
Qed.

(* every list of the right length is the element list of some array *)
Lemma array_exists : forall ds (xs : list A), length xs = product ds -> exists a, shaped ds a /\ entries a = xs.
Proof.
  induction ds as [|d ds IH]; intros xs H.
  - cbn [product] in H. destruct xs as [|x [|y xs]]; cbn [length] in H; try lia. exists (Leaf x). split; [exact I|reflexivity].
  - cbn [product] in H. revert xs H. induction d as [|d IHd]; intros xs H.
    + destruct xs; [|cbn [length] in H; lia]. exists (Node []). split; [split; [reflexivity|constructor]|reflexivity].
    + destruct (IH (firstn (product ds) xs)) as (y & Sy & Ey); [rewrite firstn_length; lia|].
      destruct (IHd (skipn (product ds) xs)) as (r & Sr & Er); [rewrite skipn_length; lia|].
      destruct r as [z|l]; [destruct Sr|]. destruct Sr as [Hl Hf]. exists (Node (y :: l)). split.
      * split; [cbn [length]; lia|now constructor].
      * cbn [entries] in *. cbn [flat_map]. rewrite Ey, Er. apply firstn_skipn.
Qed.

Lemma array_received ds (xs : list A) : ds <> [] -> Forall (fun d => (0 < d)%nat) ds -> length xs = product ds ->
  exists l, build_array (map Leaf xs) (map Z.of_nat ds) = Ok l /\ shaped ds (Node l) /\ get_list_entries l = xs.
Proof.
  intros Hn Hp Hl. destruct (array_exists ds xs Hl) as (a & Sa & Ea).
  destruct ds as [|d ds]; [congruence|]. destruct a as [x|l]; [destruct Sa|]. exists l.
  split; [|split; [exact Sa|exact Ea]]. rewrite <- Ea. now apply array_build.
Qed.

(* a zero dimension never ends *)
Lemma groups_zero (x : arr A) xs : forall fuel, groups fuel 0 (x :: xs) = Err OutOfFuel.
Proof. induction fuel as [|fuel IH]; [reflexivity|]. cbn [groups pop_entries bind]. rewrite IH. reflexivity. Qed.

Lemma pop_entries_short {X} : forall n (l : list X), (length l < n)%nat -> pop_entries n l = Err IndexError.
Proof.
  induction n as [|n IH]; intros l H; [lia|]. destruct l as [|x l]; [reflexivity|].
  cbn [pop_entries]. rewrite IH by (cbn [length] in H; lia). reflexivity.
Qed.

(* the number of elements not a multiple of the last dimension: IndexError *)
Lemma groups_mismatch n : (0 < n)%nat -> forall fuel (mae : list (arr A)),
  (length mae < fuel)%nat -> (length mae mod n <> 0)%nat -> groups fuel n mae = Err IndexError.
Proof.
  intros Hn. induction fuel as [|fuel IH]; intros mae Hf Hm; [lia|]. cbn [groups].
  destruct (Nat.lt_ge_cases (length mae) n) as [Hlt|Hge].
  - rewrite pop_entries_short by exact Hlt. reflexivity.
  - rewrite <- (firstn_skipn n mae).
    replace n with (length (firstn n mae)) at 1 by (rewrite firstn_length; lia).
    rewrite pop_entries_app. cbn [bind].
    destruct (skipn n mae) as [|x r] eqn:E.
    + exfalso. apply (f_equal (@length _)) in E. rewrite skipn_length in E. cbn [length] in E.
      assert (length mae = n) by lia. rewrite H in Hm. rewrite Nat.mod_same in Hm by lia. lia.
    + rewrite <- E. rewrite IH; [reflexivity|rewrite skipn_length; lia|].
      rewrite skipn_length. intros K. apply Hm.
      replace (length mae) with ((length mae - n) + 1 * n)%nat by lia.
      rewrite Nat.mod_add by lia. exact K.
Qed.

Lemma array_mismatch (mae : list (arr A)) mal d : (0 < d)%Z -> (length mae mod Z.to_nat d <> 0)%nat ->
  build_array mae (mal ++ [d]) = Err IndexError.
Proof.
  intros Hd Hm. unfold build_array. rewrite rev_app_distr. cbn [rev app build_rev].
  rewrite groups_mismatch; [reflexivity|lia|lia|exact Hm].
Qed.
End Arrays.
