(* Proofs about the text primitives. *)
From Coq Require Import Lia ZifyBool ZifyNat ZifyN.
From Verif Require Import Base BaseProofs NumModel.
Ltac Zify.zify_post_hook ::= Z.div_mod_to_equations.

(* ---- splitting and joining ---- *)
Lemma split_on_nonempty sep s : split_on sep s <> [].
Proof. destruct s as [|c s]; cbn [split_on]; [discriminate|]. destruct (N.eqb c sep); [discriminate|]. destruct (split_on sep s); discriminate. Qed.

Lemma split_on_free sep p : ~ In sep p -> split_on sep p = [p].
Proof.
  induction p as [|c p IH]; intros H; [reflexivity|]. cbn [split_on].
  destruct (N.eqb_spec c sep) as [->|Hne]; [exfalso; apply H; now left|].
  rewrite IH; [reflexivity|]. intros K. apply H. now right.
Qed.

Lemma split_on_app sep p s : ~ In sep p -> split_on sep (p ++ sep :: s) = p :: split_on sep s.
Proof.
  induction p as [|c p IH]; intros H; cbn [app split_on].
  - now rewrite N.eqb_refl.
  - destruct (N.eqb_spec c sep) as [->|Hne]; [exfalso; apply H; now left|].
    rewrite IH; [reflexivity|]. intros K. apply H. now right.
Qed.

Lemma split_join sep ps : ps <> [] -> Forall (fun p => ~ In sep p) ps -> split_on sep (join [sep] ps) = ps.
Proof.
  induction ps as [|p ps IH]; intros Hn H; [congruence|].
  pose proof (Forall_inv H) as Hp. pose proof (Forall_inv_tail H) as Hps. cbv beta in Hp.
  destruct ps as [|q ps].
  - cbn [join]. now apply split_on_free.
  - cbn [join]. cbn [app]. rewrite split_on_app by exact Hp. f_equal. apply IH; [discriminate|exact Hps].
Qed.

Lemma join_split sep s : join [sep] (split_on sep s) = s.
Proof.
  induction s as [|c s IH]; [reflexivity|]. cbn [split_on].
  pose proof (split_on_nonempty sep s) as Hn.
  destruct (N.eqb_spec c sep) as [->|Hne].
  - destruct (split_on sep s) as [|p ps]; [congruence|]. cbn [join app] in *. now rewrite IH.
  - destruct (split_on sep s) as [|p ps]; [congruence|]. 
    destruct ps; cbn [join app] in *; now rewrite IH.
Qed.

(* ---- strip ---- *)
Lemma drop_while_all {A} (p : A -> bool) s : forallb p s = true -> drop_while p s = [].
Proof. induction s as [|c s IH]; cbn [forallb drop_while]; [reflexivity|]. destruct (p c); [exact IH|discriminate]. Qed.

Lemma drop_while_app {A} (p : A -> bool) a b :
  drop_while p (a ++ b) = if forallb p a then drop_while p b else drop_while p a ++ b.
Proof.
  induction a as [|c a IH]; cbn [app drop_while forallb]; [reflexivity|].
  destruct (p c); [exact IH|reflexivity].
Qed.

Definition head_ok (p : N -> bool) (s : list N) : Prop := match s with c :: _ => p c = false | [] => True end.
Definition last_ok (p : N -> bool) (s : list N) : Prop := head_ok p (rev s).

Lemma drop_while_head p s : head_ok p (drop_while p s).
Proof. induction s as [|c s IH]; cbn [drop_while]; [exact I|]. destruct (p c) eqn:E; [exact IH|exact E]. Qed.

Lemma drop_while_id p s : head_ok p s -> drop_while p s = s.
Proof. destruct s as [|c s]; cbn [head_ok drop_while]; [reflexivity|]. now intros ->. Qed.

Lemma strip_by_id p s : head_ok p s -> last_ok p s -> strip_by p s = s.
Proof. intros H1 H2. unfold strip_by. rewrite (drop_while_id p s H1), (drop_while_id p _ H2). apply rev_involutive. Qed.

Lemma drop_while_suffix {A} (p : A -> bool) s : exists a, s = a ++ drop_while p s /\ forallb p a = true.
Proof.
  induction s as [|c s IH]; [exists []; auto|]. cbn [drop_while]. destruct (p c) eqn:E.
  - destruct IH as (a & Ha & Fa). exists (c :: a). cbn [app forallb]. rewrite E, <- Ha. auto.
  - exists []. auto.
Qed.

(* stripping removes a prefix and a suffix of such characters and nothing else *)
Lemma strip_by_spec p s : exists a b,
  s = a ++ strip_by p s ++ b /\ forallb p a = true /\ forallb p b = true /\
  head_ok p (strip_by p s) /\ last_ok p (strip_by p s).
Proof.
  unfold strip_by. destruct (drop_while_suffix p s) as (a & Ha & Fa).
  set (t := drop_while p s) in *. destruct (drop_while_suffix p (rev t)) as (b & Hb & Fb).
  exists a, (rev b). split.
  - rewrite Ha at 1. f_equal. rewrite <- rev_app_distr, <- Hb. now rewrite rev_involutive.
  - split; [exact Fa|]. split.
    + apply forallb_forall. intros x Hx. rewrite forallb_forall in Fb. apply Fb. now apply in_rev.
    + split.
      * pose proof (drop_while_head p s) as Hh. fold t in Hh.
        assert (Et : t = rev (drop_while p (rev t)) ++ rev b).
        { rewrite <- rev_app_distr, <- Hb. now rewrite rev_involutive. }
        destruct (rev (drop_while p (rev t))) as [|c r] eqn:Er; [exact I|].
        rewrite Et in Hh. exact Hh.
      * unfold last_ok. rewrite rev_involutive. apply drop_while_head.
Qed.

Lemma strip_by_idem p s : strip_by p (strip_by p s) = strip_by p s.
Proof. destruct (strip_by_spec p s) as (_ & _ & _ & _ & _ & H1 & H2). now apply strip_by_id. Qed.

Lemma strip_by_empty p s : strip_by p s = [] <-> forallb p s = true.
Proof.
  split.
  - intros E. destruct (strip_by_spec p s) as (a & b & H & Fa & Fb & _). rewrite E in H. cbn [app] in H.
    rewrite H, forallb_app, Fa, Fb. reflexivity.
  - intros H. unfold strip_by. now rewrite (drop_while_all p s H).
Qed.

(* ---- numbers ---- *)
Definition digit (c : N) : Prop := (48 <= c <= 57)%N.
Fixpoint value_from (acc : N) (s : list N) : N :=
  match s with [] => acc | c :: s' => value_from (10 * acc + (c - 48))%N s' end.

Lemma is_digit_true c : digit c -> is_digit c = true.
Proof. unfold digit, is_digit. lia. Qed.

Lemma int_digits_value s : forall acc, Forall digit s -> int_digits acc s = Ok (value_from acc s).
Proof.
  induction s as [|c s IH]; intros acc H; [reflexivity|].
  cbn [int_digits value_from]. rewrite (is_digit_true c (Forall_inv H)). apply IH. exact (Forall_inv_tail H).
Qed.

Lemma int_body_value s : s <> [] -> Forall digit s -> int_body s = Ok (value_from 0 s).
Proof.
  intros Hn H. destruct s as [|c s]; [congruence|]. cbn [int_body value_from].
  rewrite (is_digit_true c (Forall_inv H)). rewrite int_digits_value by exact (Forall_inv_tail H).
  reflexivity.
Qed.

Lemma digit_not_space c : digit c -> is_space c = false.
Proof. unfold digit, is_space. lia. Qed.

Lemma digits_strip s : Forall digit s -> py_strip s = s.
Proof.
  intros H. unfold py_strip. apply strip_by_id.
  - destruct H as [|c s Hc _]; [exact I|]. cbn [head_ok]. now apply digit_not_space.
  - unfold last_ok. apply Forall_rev in H. destruct H as [|c r Hc _]; [exact I|]. now apply digit_not_space.
Qed.

Lemma py_int_digits s : s <> [] -> Forall digit s -> py_int s = Ok (Z.of_N (value_from 0 s)).
Proof.
  intros Hn H. unfold py_int. rewrite (digits_strip s H).
  destruct s as [|c s]; [congruence|].
  assert (Hc := Forall_inv H). unfold digit in Hc.
  cbv zeta. replace (N.eqb c 45) with false by lia. replace (N.eqb c 43) with false by lia.
  rewrite int_body_value by (auto; discriminate). reflexivity.
Qed.

(* ---- printing ---- *)
Lemma value_from_app a b : forall acc, value_from acc (a ++ b) = value_from (value_from acc a) b.
Proof. induction a as [|c a IH]; intros acc; [reflexivity|]. cbn [app value_from]. apply IH. Qed.

Lemma value_from_acc s : forall acc, (value_from acc s = acc * 10 ^ N.of_nat (length s) + value_from 0 s)%N.
Proof.
  induction s as [|c s IH]; intros acc.
  - cbn [value_from length]. change (10 ^ N.of_nat 0)%N with 1%N. lia.
  - cbn [value_from length]. rewrite IH, (IH (10 * 0 + (c - 48))%N).
    rewrite Nat2N.inj_succ, N.pow_succ_r'. 
    generalize (value_from 0 s). generalize (10 ^ N.of_nat (length s))%N. intros p v. lia.
Qed.

Lemma dec_digits_spec : forall fuel n acc,
  (n < 10 ^ N.of_nat fuel)%N -> (0 < fuel)%nat -> 
  exists ds, dec_digits fuel n acc = ds ++ acc /\ ds <> [] /\ Forall digit ds /\ value_from 0 ds = n /\
             (1 <= n -> match ds with c :: _ => c <> 48 | [] => True end)%N.
Proof.
  induction fuel as [|fuel IH]; intros n acc Hn Hf; [lia|].
  cbn [dec_digits]. destruct (N.ltb_spec n 10) as [Hlt|Hge].
  - exists [(48 + n)%N]. split; [reflexivity|]. split; [discriminate|].
    split; [apply Forall_cons; [unfold digit; lia|apply Forall_nil]|].
    split; [cbn [value_from]; lia|]. intros H1. lia.
  - assert (Hp : (10 ^ N.of_nat (S fuel) = 10 * 10 ^ N.of_nat fuel)%N) by (rewrite Nat2N.inj_succ; apply N.pow_succ_r').
    destruct fuel as [|fuel]; [change (10 ^ N.of_nat 1)%N with 10%N in Hn; lia|].
    destruct (IH (n / 10)%N ((48 + n mod 10)%N :: acc)) as (ds & E & Hne & Fd & V & Nz).
    { rewrite Hp in Hn. apply N.div_lt_upper_bound; lia. }
    { lia. }
    exists (ds ++ [(48 + n mod 10)%N]). rewrite E, <- app_assoc. split; [reflexivity|].
    split; [destruct ds; discriminate|].
    split; [apply Forall_app; split; [exact Fd|apply Forall_cons; [unfold digit; lia|apply Forall_nil]]|].
    split.
    + rewrite value_from_app, V. cbn [value_from]. lia.
    + intros _. specialize (Nz ltac:(lia)). destruct ds as [|d ds]; [congruence|]. exact Nz.
Qed.

Lemma dec_spec n : dec n <> [] /\ Forall digit (dec n) /\ value_from 0 (dec n) = n /\
  (1 <= n -> match dec n with c :: _ => c <> 48 | [] => True end)%N.
Proof.
  unfold dec. destruct (dec_digits_spec (S (N.to_nat (N.log2 n))) n []) as (ds & E & Hne & Fd & V & Nz).
  - rewrite Nat2N.inj_succ, N2Nat.id.
    apply N.lt_le_trans with (2 ^ N.succ (N.log2 n))%N.
    + destruct (N.eq_dec n 0) as [->|H0]; [reflexivity|]. apply N.log2_spec. lia.
    + apply N.pow_le_mono_l. lia.
  - lia.
  - rewrite E, app_nil_r. auto.
Qed.

Lemma py_int_str z : py_int (py_str z) = Ok z.
Proof.
  unfold py_str. destruct (Z.ltb_spec z 0) as [Hz|Hz].
  - destruct (dec_spec (Z.to_N (- z))) as (Hne & Fd & V & _). set (d := dec _) in *.
    unfold py_int.
    assert (S : py_strip (45%N :: d) = 45%N :: d).
    { unfold py_strip. apply strip_by_id; [reflexivity|]. unfold last_ok. cbn [rev].
      destruct (rev d) as [|c r] eqn:Er; [reflexivity|].
      cbn [app head_ok]. apply digit_not_space.
      apply Forall_rev in Fd. rewrite Er in Fd. exact (Forall_inv Fd). }
    rewrite S. cbv zeta. cbn [N.eqb Pos.eqb]. rewrite (int_body_value d Hne Fd), V. cbn [bind]. f_equal. lia.
  - destruct (dec_spec (Z.to_N z)) as (Hne & Fd & V & _). rewrite (py_int_digits _ Hne Fd), V. f_equal. lia.
Qed.
