(* int(text) reads the numerals and nothing else. *)
From Coq Require Import Lia ZifyBool ZifyNat ZifyN.
From Verif Require Import Base BaseProofs NumModel NumSpec NumProofs.

Lemma blank_space c : In c blanks <-> is_space c = true.
Proof.
  unfold is_space, blanks. cbn [In]. split.
  - intros H. repeat (destruct H as [<-|H]; [reflexivity|]). destruct H.
  - intros H. assert (c <= 12288)%N by lia. lia.
Qed.
Lemma digit_spec c : decimal_digit c <-> is_digit c = true.
Proof. unfold decimal_digit, is_digit. cbn [In]. lia. Qed.

Inductive tail_of : N -> list N -> N -> Prop :=
| ta_nil : forall a, tail_of a [] a
| ta_digit : forall a c s v, decimal_digit c -> tail_of (10 * a + (c - 48)) s v -> tail_of a (c :: s) v
| ta_under : forall a c s v, decimal_digit c -> tail_of (10 * a + (c - 48)) s v -> tail_of a (95%N :: c :: s) v.
Lemma digits_tail n : forall s a v, (length s <= n)%nat -> int_digits a s = Ok v -> tail_of a s v.
Proof.
  induction n as [|n IH]; intros s a v L H; (destruct s as [|c s]; [cbn [int_digits] in H; apply Ok_inj in H; subst v; constructor|]); cbn [length] in L; [lia|].
  cbn [int_digits] in H. destruct (is_digit c) eqn:D.
  - apply ta_digit; [apply digit_spec; exact D|]. apply IH; [lia|exact H].
  - destruct (N.eqb c 95) eqn:U; [|discriminate H]. apply N.eqb_eq in U. subst c. destruct s as [|d s]; [discriminate H|].
    destruct (is_digit d) eqn:D2; [|discriminate H]. apply ta_under; [apply digit_spec; exact D2|]. apply IH; [cbn [length] in L; lia|exact H].
Qed.
Lemma tail_digits a s v : tail_of a s v -> int_digits a s = Ok v.
Proof.
  induction 1 as [a|a c s v D T IH|a c s v D T IH]; cbn [int_digits]; [reflexivity| |]; apply digit_spec in D.
  - rewrite D. exact IH.
  - change (is_digit 95) with false. change (N.eqb 95 95) with true. cbv iota. rewrite D. exact IH.
Qed.
Lemma tail_snoc a s v c : tail_of a s v -> decimal_digit c -> tail_of a (s ++ [c]) (10 * v + (c - 48)).
Proof. induction 1; intros D; cbn [app]; [apply ta_digit; [exact D|constructor]|apply ta_digit; auto|apply ta_under; auto]. Qed.
Lemma tail_snoc2 a s v c : tail_of a s v -> decimal_digit c -> tail_of a (s ++ [95; c]%N) (10 * v + (c - 48)).
Proof. induction 1; intros D; cbn [app]; [apply ta_under; [exact D|constructor]|apply ta_digit; auto|apply ta_under; auto]. Qed.
Lemma groups_tail s v : groups s v -> exists c r, s = c :: r /\ decimal_digit c /\ tail_of (c - 48) r v.
Proof.
  induction 1 as [c D|s v c G (c0 & r & -> & D0 & T) D|s v c G (c0 & r & -> & D0 & T) D].
  - exists c, []. split; [reflexivity|]. split; [exact D|constructor].
  - exists c0, (r ++ [c]). split; [reflexivity|]. split; [exact D0|]. apply tail_snoc; assumption.
  - exists c0, (r ++ [95; c]%N). split; [reflexivity|]. split; [exact D0|]. apply tail_snoc2; assumption.
Qed.
Lemma tail_groups a r v : tail_of a r v -> forall s, groups s a -> groups (s ++ r) v.
Proof.
  induction 1 as [a|a c r v D T IH|a c r v D T IH]; intros s G.
  - rewrite app_nil_r. exact G.
  - replace (s ++ c :: r) with ((s ++ [c]) ++ r) by (rewrite <- app_assoc; reflexivity). apply IH. apply gr_more; assumption.
  - replace (s ++ 95%N :: c :: r) with ((s ++ [95; c]%N) ++ r) by (rewrite <- app_assoc; reflexivity). apply IH. apply gr_under; assumption.
Qed.
Lemma body_groups s v : int_body s = Ok v <-> groups s v.
Proof.
  split.
  - intros H. destruct s as [|c r]; [discriminate H|]. cbn [int_body] in H. destruct (is_digit c) eqn:D; [|discriminate H].
    apply (tail_groups (c - 48) r v (digits_tail (length r) r _ v (le_n _) H) [c]). constructor. apply digit_spec. exact D.
  - intros G. destruct (groups_tail s v G) as (c & r & -> & D & T). cbn [int_body]. apply digit_spec in D. rewrite D. apply tail_digits. exact T.
Qed.

(* the text without the blanks *)
Definition core (s : list N) (z : Z) : Prop :=
  exists v, (groups s v /\ z = Z.of_N v) \/ (exists r, s = 43%N :: r /\ groups r v /\ z = Z.of_N v) \/ (exists r, s = 45%N :: r /\ groups r v /\ z = (- Z.of_N v)%Z).
Lemma groups_head s v : groups s v -> exists c r, s = c :: r /\ is_digit c = true.
Proof. intros G. destruct (groups_tail s v G) as (c & r & E & D & _). exists c, r. split; [exact E|]. apply digit_spec. exact D. Qed.
Lemma groups_last s v : groups s v -> exists r c, s = r ++ [c] /\ is_digit c = true.
Proof.
  intros G. destruct G as [c D|s v c G D|s v c G D].
  - exists [], c. split; [reflexivity|]. apply digit_spec. exact D.
  - exists s, c. split; [reflexivity|]. apply digit_spec. exact D.
  - exists (s ++ [95%N]), c. split; [rewrite <- app_assoc; reflexivity|]. apply digit_spec. exact D.
Qed.
Lemma core_int s z : py_strip s = s -> (py_int s = Ok z <-> core s z).
Proof.
  intros Hs. unfold py_int. rewrite Hs. split.
  - intros H. destruct s as [|c r]; [discriminate H|]. destruct (N.eqb c 45) eqn:E; [|destruct (N.eqb c 43) eqn:E2].
    + apply N.eqb_eq in E. subst c. destruct (int_body r) as [v|e] eqn:B; [|discriminate H]. cbn [bind] in H. apply Ok_inj in H. exists v. right. right. exists r.
      split; [reflexivity|]. split; [apply body_groups; exact B|]. symmetry. exact H.
    + apply N.eqb_eq in E2. subst c. destruct (int_body r) as [v|e] eqn:B; [|discriminate H]. cbn [bind] in H. apply Ok_inj in H. exists v. right. left. exists r.
      split; [reflexivity|]. split; [apply body_groups; exact B|]. symmetry. exact H.
    + destruct (int_body (c :: r)) as [v|e] eqn:B; [|discriminate H]. cbn [bind] in H. apply Ok_inj in H. exists v. left. split; [apply body_groups; exact B|]. symmetry. exact H.
  - intros (v & [(G & ->)|[(r & -> & G & ->)|(r & -> & G & ->)]]).
    + destruct (groups_head s v G) as (c & r & -> & D). unfold is_digit in D. replace (N.eqb c 45) with false by lia. replace (N.eqb c 43) with false by lia.
      apply body_groups in G. rewrite G. reflexivity.
    + change (N.eqb 43 45) with false. change (N.eqb 43 43) with true. cbv iota. apply body_groups in G. rewrite G. reflexivity.
    + change (N.eqb 45 45) with true. cbv iota. apply body_groups in G. rewrite G. reflexivity.
Qed.
Lemma core_strip s z : core s z -> py_strip s = s.
Proof.
  intros H.
  assert (A : exists c r, s = c :: r /\ is_space c = false).
  { destruct H as (v & [(G & _)|[(r & -> & G & _)|(r & -> & G & _)]]).
    - destruct (groups_head s v G) as (c & r & -> & D). exists c, r. split; [reflexivity|]. unfold is_digit in D. unfold is_space. lia.
    - exists 43%N, r. split; reflexivity.
    - exists 45%N, r. split; reflexivity. }
  assert (B : exists r c, s = r ++ [c] /\ is_space c = false).
  { destruct H as (v & [(G & _)|[(r & -> & G & _)|(r & -> & G & _)]]).
    - destruct (groups_last s v G) as (r & c & -> & D). exists r, c. split; [reflexivity|]. unfold is_digit in D. unfold is_space. lia.
    - destruct (groups_last r v G) as (r' & c & -> & D). exists (43%N :: r'), c. split; [reflexivity|]. unfold is_digit in D. unfold is_space. lia.
    - destruct (groups_last r v G) as (r' & c & -> & D). exists (45%N :: r'), c. split; [reflexivity|]. unfold is_digit in D. unfold is_space. lia. }
  apply strip_by_id.
  - destruct A as (c & r & -> & Sp). exact Sp.
  - destruct B as (r & c & -> & Sp). unfold last_ok. rewrite rev_app_distr. exact Sp.
Qed.
Lemma wrap_before a s z : forallb is_space a = true -> numeral s z -> numeral (a ++ s) z.
Proof.
  induction a as [|c a IH]; intros F H; [exact H|]. cbn [forallb] in F. apply andb_true_iff in F. destruct F as (F1 & F2). cbn [app]. apply nu_before; [apply blank_space; exact F1|apply IH; assumption].
Qed.
Lemma wrap_after b : forall s z, forallb is_space b = true -> numeral s z -> numeral (s ++ b) z.
Proof.
  induction b as [|c b IH]; intros s z F H; [rewrite app_nil_r; exact H|]. cbn [forallb] in F. apply andb_true_iff in F. destruct F as (F1 & F2).
  replace (s ++ c :: b) with ((s ++ [c]) ++ b) by (rewrite <- app_assoc; reflexivity). apply IH; [exact F2|]. apply nu_after; [apply blank_space; exact F1|exact H].
Qed.
Lemma drop_all_app (p : N -> bool) a s : forallb p a = true -> drop_while p (a ++ s) = drop_while p s.
Proof. induction a as [|c a IH]; intros F; [reflexivity|]. cbn [forallb] in F. apply andb_true_iff in F. destruct F as (F1 & F2). cbn [app drop_while]. rewrite F1. apply IH. exact F2. Qed.
Lemma strip_wrapped a s b : forallb is_space a = true -> forallb is_space b = true -> py_strip s = s -> py_strip (a ++ s ++ b) = s.
Proof.
  intros Fa Fb Hs. destruct (strip_by_spec is_space s) as (_ & _ & _ & _ & _ & Hh & Hl). unfold py_strip in Hs. rewrite Hs in Hh, Hl.
  unfold py_strip, strip_by. rewrite (drop_all_app _ a _ Fa).
  destruct s as [|c s].
  - cbn [app]. rewrite (drop_while_all is_space b Fb). reflexivity.
  - assert (E : drop_while is_space ((c :: s) ++ b) = (c :: s) ++ b) by (apply drop_while_id; exact Hh). rewrite E, rev_app_distr.
    rewrite drop_all_app; [|apply forallb_forall; intros x Hx; rewrite forallb_forall in Fb; apply Fb; apply in_rev; exact Hx].
    rewrite (drop_while_id _ _ Hl). apply rev_involutive.
Qed.
Lemma numeral_split s z : numeral s z -> exists a t b, s = a ++ t ++ b /\ forallb is_space a = true /\ forallb is_space b = true /\ core t z.
Proof.
  induction 1 as [s v G|s v G|s v G|c s z B H (a & t & b & -> & Fa & Fb & C)|c s z B H (a & t & b & -> & Fa & Fb & C)].
  - exists [], s, []. rewrite app_nil_r. repeat split. exists v. left. split; [exact G|reflexivity].
  - exists [], (43%N :: s), []. rewrite app_nil_r. repeat split. exists v. right. left. exists s. repeat split. exact G.
  - exists [], (45%N :: s), []. rewrite app_nil_r. repeat split. exists v. right. right. exists s. repeat split. exact G.
  - exists (c :: a), t, b. split; [reflexivity|]. split; [cbn [forallb]; apply blank_space in B; rewrite B; exact Fa|]. split; assumption.
  - exists a, t, (b ++ [c]). split; [rewrite <- !app_assoc; reflexivity|]. split; [exact Fa|]. split; [|exact C]. rewrite forallb_app. cbn [forallb]. apply blank_space in B. rewrite Fb, B. reflexivity.
Qed.
Lemma int_numeral s z : py_int s = Ok z <-> numeral s z.
Proof.
  split.
  - intros H. destruct (strip_by_spec is_space s) as (a & b & E & Fa & Fb & _). rewrite E. apply wrap_before; [exact Fa|]. apply wrap_after; [exact Fb|].
    assert (Hs : py_strip (strip_by is_space s) = strip_by is_space s) by (apply strip_by_idem).
    assert (H' : py_int (strip_by is_space s) = Ok z) by (unfold py_int in *; rewrite Hs; exact H).
    apply (core_int _ z Hs) in H'. destruct H' as (v & [(G & ->)|[(r & -> & G & ->)|(r & -> & G & ->)]]); constructor; exact G.
  - intros H. destruct (numeral_split s z H) as (a & t & b & -> & Fa & Fb & C). pose proof (core_strip t z C) as Ht.
    assert (E : py_int (a ++ t ++ b) = py_int t) by (unfold py_int; rewrite (strip_wrapped a t b Fa Fb Ht), Ht; reflexivity).
    rewrite E. apply core_int; assumption.
Qed.
