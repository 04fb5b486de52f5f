(* Lemmas about the shared vocabulary of Base.v. *)
From Coq Require Import Lia ZifyBool ZifyNat ZifyN.
From Verif Require Import Base.
Ltac Zify.zify_post_hook ::= Z.div_mod_to_equations.

Lemma Ok_inj {A} (a b : A) : Ok a = Ok b -> a = b.
Proof. now inversion 1. Qed.

Lemma pair_inj {A B} (a c : A) (b d : B) : (a, b) = (c, d) -> a = c /\ b = d.
Proof. now inversion 1. Qed.

Lemma Ok_pair_inj {A B} (a c : A) (b d : B) : Ok (a, b) = Ok (c, d) -> a = c /\ b = d.
Proof. now inversion 1. Qed.

Lemma bind_ok {A C} (x : res A) (f : A -> res C) r :
  bind x f = Ok r -> exists a, x = Ok a /\ f a = Ok r.
Proof. destruct x as [a|e]; [|discriminate]. intros H. now exists a. Qed.

Lemma cons_inj {A} (x y : A) a b : x :: a = y :: b -> x = y /\ a = b.
Proof. now inversion 1. Qed.

Lemma Some_inj {A} (a b : A) : Some a = Some b -> a = b.
Proof. now inversion 1. Qed.

Lemma skipn_skipn {A} x y (l : list A) : skipn x (skipn y l) = skipn (x + y) l.
Proof.
  revert l; induction y as [|y IH]; intros l.
  - now rewrite Nat.add_0_r.
  - rewrite Nat.add_succ_r. destruct l as [|a l]; [now rewrite !skipn_nil|]. apply IH.
Qed.

Lemma zlen_nonneg {A} (l : list A) : (0 <= zlen l)%Z.
Proof. unfold zlen; lia. Qed.

Lemma zlen_app {A} (a b : list A) : zlen (a ++ b) = (zlen a + zlen b)%Z.
Proof. unfold zlen; rewrite app_length; lia. Qed.

Lemma zlen_cons {A} (x : A) l : zlen (x :: l) = (1 + zlen l)%Z.
Proof. unfold zlen; simpl length; lia. Qed.

Lemma zlen_nil_iff {A} (l : list A) : zlen l = 0%Z <-> l = [].
Proof. destruct l; unfold zlen; simpl; split; intro H; try reflexivity; try discriminate; lia. Qed.

(* ---- slices ---- *)
Lemma firstn_min {A} n (l : list A) : firstn (Nat.min n (length l)) l = firstn n l.
Proof.
  destruct (Nat.le_ge_cases n (length l)).
  - now rewrite Nat.min_l by lia.
  - rewrite Nat.min_r by lia. now rewrite !firstn_all2 by lia.
Qed.

Lemma py_slice_nonneg {A} (l : list A) a b :
  (0 <= a)%Z -> (0 <= b)%Z ->
  py_slice l a b = firstn (Z.to_nat b - Z.to_nat a) (skipn (Z.to_nat a) l).
Proof.
  intros Ha Hb. unfold py_slice, slice_index.
  destruct (Z.ltb_spec a 0); [lia|]. destruct (Z.ltb_spec b 0); [lia|].
  unfold zlen.
  destruct (Nat.le_ge_cases (length l) (Z.to_nat a)) as [Hl|Hl].
  - rewrite !(skipn_all2 l) by lia. now rewrite !firstn_nil.
  - replace (Z.to_nat (Z.min a (Z.of_nat (length l)))) with (Z.to_nat a) by lia.
    destruct (Nat.le_ge_cases (length l) (Z.to_nat b)) as [Hb'|Hb'].
    + rewrite !firstn_all2; [reflexivity| |]; rewrite skipn_length; lia.
    + f_equal. lia.
Qed.

Lemma slice_to_nonneg {A} (l : list A) b :
  (0 <= b)%Z -> slice_to l b = firstn (Z.to_nat b) l.
Proof.
  intros Hb. unfold slice_to. rewrite py_slice_nonneg by lia.
  cbn [Z.to_nat]. rewrite Nat.sub_0_r. reflexivity.
Qed.

Lemma slice_from_nonneg {A} (l : list A) a :
  (0 <= a)%Z -> slice_from l a = skipn (Z.to_nat a) l.
Proof.
  intros Ha. unfold slice_from. rewrite py_slice_nonneg by (unfold zlen; lia).
  apply firstn_all2. rewrite skipn_length. unfold zlen. lia.
Qed.

Lemma py_slice_app_l {A} (p q r : list A) a b :
  a = zlen p -> b = (zlen p + zlen q)%Z -> py_slice (p ++ q ++ r) a b = q.
Proof.
  intros -> ->. rewrite py_slice_nonneg by (unfold zlen; lia).
  unfold zlen. rewrite Nat2Z.id.
  replace (Z.to_nat (Z.of_nat (length p) + Z.of_nat (length q))) with (length p + length q) by lia.
  rewrite skipn_app, skipn_all, Nat.sub_diag. simpl.
  replace (length p + length q - length p) with (length q) by lia.
  rewrite firstn_app, Nat.sub_diag, firstn_all. simpl. apply app_nil_r.
Qed.

Lemma py_slice_app0 {A} (q r : list A) b :
  b = zlen q -> py_slice (q ++ r) 0 b = q.
Proof. intros ->. apply (py_slice_app_l [] q r); unfold zlen; simpl; lia. Qed.

Lemma slice_from_app {A} (p r : list A) a :
  a = zlen p -> slice_from (p ++ r) a = r.
Proof.
  intros ->. rewrite slice_from_nonneg by apply zlen_nonneg. unfold zlen.
  rewrite Nat2Z.id, skipn_app, skipn_all, Nat.sub_diag. reflexivity.
Qed.

(* ---- fixed width integers ---- *)
Lemma le_bytes_length w v : length (le_bytes w v) = w.
Proof. revert v; induction w as [|w IH]; intros v; simpl; [reflexivity|now rewrite IH]. Qed.

Lemma le_bytes_ok w v : bytes_ok (le_bytes w v).
Proof.
  revert v; induction w as [|w IH]; intros v; cbn [le_bytes]; constructor.
  - apply N.mod_lt. discriminate.
  - apply IH.
Qed.

Lemma pow256_succ w : (256 ^ N.of_nat (S w) = 256 * 256 ^ N.of_nat w)%N.
Proof. rewrite Nat2N.inj_succ, N.pow_succ_r'. reflexivity. Qed.

Lemma le_val_le_bytes w v :
  (v < 256 ^ N.of_nat w)%N -> le_val (le_bytes w v) = v.
Proof.
  revert v; induction w as [|w IH]; intros v Hv; cbn [le_bytes le_val].
  - change (256 ^ N.of_nat 0)%N with 1%N in Hv. lia.
  - rewrite pow256_succ in Hv. rewrite IH.
    + pose proof (N.div_mod v 256). lia.
    + apply N.div_lt_upper_bound; lia.
Qed.

Lemma le_val_bound l : bytes_ok l -> (le_val l < 256 ^ N.of_nat (length l))%N.
Proof.
  induction 1 as [|b l Hb Hl IH]; cbn [le_val length].
  - reflexivity.
  - rewrite pow256_succ. lia.
Qed.

Lemma le_bytes_le_val l : bytes_ok l -> le_bytes (length l) (le_val l) = l.
Proof.
  induction 1 as [|b l Hb Hl IH]; cbn [le_val length le_bytes]; [reflexivity|].
  f_equal.
  - rewrite (N.mul_comm 256). rewrite N.mod_add by discriminate.
    now apply N.mod_small.
  - rewrite (N.mul_comm 256), N.div_add by discriminate.
    rewrite N.div_small by assumption. rewrite N.add_0_l. exact IH.
Qed.

Lemma bytes_ok_rev l : bytes_ok l -> bytes_ok (rev l).
Proof. unfold bytes_ok. intros H. rewrite Forall_forall in *. intros x Hx. apply H. now apply in_rev. Qed.

Lemma bytes_ok_app a b : bytes_ok (a ++ b) <-> bytes_ok a /\ bytes_ok b.
Proof. unfold bytes_ok. apply Forall_app. Qed.

Lemma be_bytes_length w v : length (be_bytes w v) = w.
Proof. unfold be_bytes. now rewrite rev_length, le_bytes_length. Qed.

Lemma be_bytes_ok w v : bytes_ok (be_bytes w v).
Proof. apply bytes_ok_rev, le_bytes_ok. Qed.

Lemma be_val_be_bytes w v :
  (v < 256 ^ N.of_nat w)%N -> be_val (be_bytes w v) = v.
Proof. intros H. unfold be_val, be_bytes. rewrite rev_involutive. now apply le_val_le_bytes. Qed.

Lemma be_bytes_be_val l : bytes_ok l -> be_bytes (length l) (be_val l) = l.
Proof.
  intros H. unfold be_bytes, be_val. rewrite <- (rev_length l).
  rewrite le_bytes_le_val by now apply bytes_ok_rev. apply rev_involutive.
Qed.

Lemma be_val_bound l : bytes_ok l -> (be_val l < 256 ^ N.of_nat (length l))%N.
Proof.
  intros H. unfold be_val. rewrite <- (rev_length l). apply le_val_bound.
  now apply bytes_ok_rev.
Qed.

Lemma struct_pack_be_ok w v b :
  struct_pack_be w v = Ok b <->
  (0 <= v < 256 ^ Z.of_nat w)%Z /\ b = be_bytes w (Z.to_N v).
Proof.
  unfold struct_pack_be. set (m := (256 ^ Z.of_nat w)%Z).
  destruct ((0 <=? v)%Z && (v <? m)%Z) eqn:E.
  - split; [intros H'; inversion H'; subst; split; [lia|reflexivity]|].
    intros [_ ->]; reflexivity.
  - split; [discriminate|]. intros [H1 _]. lia.
Qed.

Lemma struct_pack_be_err w v e :
  struct_pack_be w v = Err e <->
  ~ (0 <= v < 256 ^ Z.of_nat w)%Z /\ e = StructError.
Proof.
  unfold struct_pack_be. set (m := (256 ^ Z.of_nat w)%Z).
  destruct ((0 <=? v)%Z && (v <? m)%Z) eqn:E.
  - split; [discriminate|]. intros [H1 _]. lia.
  - split; [intros H'; inversion H'; subst; split; [lia|reflexivity]|].
    intros [_ ->]; reflexivity.
Qed.

Lemma N_of_Z_pow256 w : Z.of_N (256 ^ N.of_nat w) = (256 ^ Z.of_nat w)%Z.
Proof. rewrite N2Z.inj_pow. rewrite nat_N_Z. reflexivity. Qed.

Lemma struct_unpack_be_pack w v :
  (0 <= v < 256 ^ Z.of_nat w)%Z ->
  struct_unpack_be w (be_bytes w (Z.to_N v)) = Ok (Z.to_N v).
Proof.
  intros H. unfold struct_unpack_be. rewrite be_bytes_length, Nat.eqb_refl.
  rewrite be_val_be_bytes; [reflexivity|].
  pose proof (N_of_Z_pow256 w). lia.
Qed.

Lemma struct_unpack_le_pack w v :
  (0 <= v < 256 ^ Z.of_nat w)%Z ->
  struct_unpack_le w (le_bytes w (Z.to_N v)) = Ok (Z.to_N v).
Proof.
  intros H. unfold struct_unpack_le. rewrite le_bytes_length, Nat.eqb_refl.
  rewrite le_val_le_bytes; [reflexivity|].
  pose proof (N_of_Z_pow256 w). lia.
Qed.

(* ---- dictionaries ---- *)
Section DictFacts.
  Context {K V : Type} (eqb : K -> K -> bool).
  Hypothesis eqb_spec : forall a b, eqb a b = true <-> a = b.

  Lemma eqb_refl' k : eqb k k = true.
  Proof. now apply eqb_spec. Qed.

  Lemma eqb_neq' a b : a <> b -> eqb a b = false.
  Proof.
    intros H. destruct (eqb a b) eqn:E; [|reflexivity].
    apply eqb_spec in E. contradiction.
  Qed.

  Lemma dict_get_set_same k (v : V) d : dict_get eqb k (dict_set eqb k v d) = Some v.
  Proof.
    induction d as [|[k' v'] d IH]; simpl.
    - now rewrite eqb_refl'.
    - destruct (eqb k k') eqn:E; simpl; rewrite E; [reflexivity|exact IH].
  Qed.

  Lemma dict_get_set_other k k' (v : V) d :
    k <> k' -> dict_get eqb k (dict_set eqb k' v d) = dict_get eqb k d.
  Proof.
    intros Hn. induction d as [|[k2 v2] d IH]; simpl.
    - now rewrite (eqb_neq' k k').
    - destruct (eqb k' k2) eqn:E; simpl.
      + apply eqb_spec in E; subst. now rewrite !(eqb_neq' k k2).
      + destruct (eqb k k2); [reflexivity|exact IH].
  Qed.

  Lemma dict_get_del_same k (d : list (K * V)) : dict_get eqb k (dict_del eqb k d) = None.
  Proof.
    induction d as [|[k' v'] d IH]; simpl; [reflexivity|].
    destruct (eqb k k') eqn:E; simpl; [exact IH|]. now rewrite E.
  Qed.

  Lemma dict_get_del_other k k' (d : list (K * V)) :
    k <> k' -> dict_get eqb k (dict_del eqb k' d) = dict_get eqb k d.
  Proof.
    intros Hn. induction d as [|[k2 v2] d IH]; simpl; [reflexivity|].
    destruct (eqb k' k2) eqn:E; simpl.
    - apply eqb_spec in E; subst. now rewrite (eqb_neq' k k2).
    - destruct (eqb k k2); [reflexivity|exact IH].
  Qed.

  Lemma dict_del_absent k (d : list (K * V)) : dict_get eqb k d = None -> dict_del eqb k d = d.
  Proof.
    induction d as [|[k' v'] d IH]; simpl; intros H; [reflexivity|].
    destruct (eqb k k') eqn:E; [discriminate|]. now rewrite IH.
  Qed.

  Lemma dict_del_set k (v : V) d : dict_del eqb k (dict_set eqb k v d) = dict_del eqb k d.
  Proof.
    induction d as [|[k' v'] d IH]; simpl.
    - now rewrite eqb_refl'.
    - destruct (eqb k k') eqn:E; simpl; rewrite E; [reflexivity|now rewrite IH].
  Qed.

  Lemma dict_set_set k (v v' : V) d : dict_set eqb k v (dict_set eqb k v' d) = dict_set eqb k v d.
  Proof.
    induction d as [|[k2 v2] d IH]; simpl.
    - now rewrite eqb_refl'.
    - destruct (eqb k k2) eqn:E; simpl; rewrite E; [reflexivity|now rewrite IH].
  Qed.
End DictFacts.

Lemma list_eqb_spec {A} (eqb : A -> A -> bool) :
  (forall a b, eqb a b = true <-> a = b) ->
  forall a b, list_eqb eqb a b = true <-> a = b.
Proof.
  intros He. induction a as [|x a IH]; destruct b as [|y b]; simpl; split; intros H;
    try reflexivity; try discriminate.
  - apply andb_prop in H as [H1 H2]. apply He in H1. apply IH in H2. now subst.
  - inversion H; subst. apply andb_true_intro. split; [now apply He|now apply IH].
Qed.

Lemma str_eqb_spec a b : str_eqb a b = true <-> a = b.
Proof. apply list_eqb_spec. intros; apply N.eqb_eq. Qed.

Lemma str_eqb_refl a : str_eqb a a = true.
Proof. now apply str_eqb_spec. Qed.

Lemma str_eqb_neq a b : a <> b -> str_eqb a b = false.
Proof. intros H. destruct (str_eqb a b) eqn:E; [|reflexivity]. apply str_eqb_spec in E. contradiction. Qed.

Lemma mapM_ok_length {A B} (f : A -> res B) l ys : mapM f l = Ok ys -> length ys = length l.
Proof.
  revert ys; induction l as [|x l IH]; simpl; intros ys H.
  - now inversion H.
  - unfold bind in H. destruct (f x); [|discriminate]. destruct (mapM f l) as [ys'|]; [|discriminate].
    inversion H; simpl. now rewrite (IH ys').
Qed.
