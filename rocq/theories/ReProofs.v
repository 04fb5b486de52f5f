(* Lemmas about leftmost scanning. *)
From Coq Require Import Lia ZifyBool ZifyNat ZifyN.
From Verif Require Import Base BaseProofs ReModel.

Lemma after_spec p : forall s r, after p s = Some r <-> s = p ++ r.
Proof.
  induction p as [|x p IH]; intros s r; cbn [after app].
  - split; intros H; [now injection H|now subst].
  - destruct s as [|y s]; [split; discriminate|].
    destruct (N.eqb_spec x y) as [->|Hn].
    + rewrite IH. split; intros H; [now subst|]. now injection H.
    + split; [discriminate|]. intros H. injection H as H1 _. congruence.
Qed.

Lemma after_none p s : after p s = None <-> forall r, s <> p ++ r.
Proof.
  split.
  - intros H r E. apply after_spec in E. congruence.
  - intros H. destruct (after p s) as [r|] eqn:E; [|reflexivity]. apply after_spec in E. now apply H in E.
Qed.

Lemma m_lit_spec p s n : m_lit p s = Some n <-> n = length p /\ exists r, s = p ++ r.
Proof.
  unfold m_lit. destruct (after p s) as [r|] eqn:E.
  - apply after_spec in E. split.
    + intros H. split; [congruence|now exists r].
    + intros [-> _]. reflexivity.
  - split; [discriminate|]. intros [_ [r Hr]]. apply after_spec in Hr. congruence.
Qed.

Lemma m_lit_none p s : m_lit p s = None <-> forall r, s <> p ++ r.
Proof. unfold m_lit. rewrite <- after_none. destruct (after p s); split; congruence. Qed.

Definition quiet (m : list N -> option nat) (p rest : list N) : Prop :=
  forall a c, p = a ++ c -> c <> [] -> m (c ++ rest) = None.

Lemma quiet_cons m x p rest : quiet m (x :: p) rest <-> m (x :: p ++ rest) = None /\ quiet m p rest.
Proof.
  split.
  - intros H. split; [apply (H [] (x :: p)); [reflexivity|discriminate]|].
    intros a c E Hc. apply (H (x :: a) c); [now rewrite E|exact Hc].
  - intros [H1 H2] a c E Hc. destruct a as [|y a]; cbn [app] in E.
    + subst c. exact H1.
    + injection E as _ E. now apply (H2 a c).
Qed.

Lemma quiet_app m p q rest : quiet m p (q ++ rest) -> quiet m q rest -> quiet m (p ++ q) rest.
Proof.
  induction p as [|x p IH]; intros H1 H2; [exact H2|]. cbn [app].
  apply quiet_cons in H1. apply quiet_cons. rewrite <- app_assoc. split; [apply H1|]. now apply IH.
Qed.

Lemma quiet_nil m rest : quiet m [] rest.
Proof. intros a c H Hc. destruct a; [|discriminate]. cbn in H. congruence. Qed.

Lemma re_split_skip m : forall k s, k <= length s -> re_split m k s = re_split m 0 (skipn k s).
Proof.
  induction k as [|k IH]; intros s H; [reflexivity|].
  destruct s as [|c s]; cbn [length] in H; [lia|]. cbn [re_split skipn]. apply IH. lia.
Qed.

Lemma re_split_nonempty m k s : re_split m k s <> [].
Proof.
  revert k; induction s as [|c s IH]; intros k; cbn [re_split]; [discriminate|].
  destruct k; [|apply IH]. destruct (m (c :: s)) as [[|n]|]; [| discriminate |];
  (destruct (re_split m 0 s); discriminate).
Qed.

Lemma re_split_here m rest n : m rest = Some (S n) -> S n <= length rest ->
  re_split m 0 rest = [] :: re_split m 0 (skipn (S n) rest).
Proof.
  intros Hm Hl. destruct rest as [|c rest]; cbn [length] in Hl; [lia|].
  cbn [re_split skipn]. rewrite Hm. f_equal. apply re_split_skip. lia.
Qed.

Lemma re_split_quiet m p rest : quiet m p rest ->
  re_split m 0 (p ++ rest) =
  match re_split m 0 rest with q :: ps => (p ++ q) :: ps | [] => [p] end.
Proof.
  induction p as [|x p IH]; intros H; cbn [app].
  - destruct (re_split m 0 rest) eqn:E; [|reflexivity]. now apply re_split_nonempty in E.
  - apply quiet_cons in H. destruct H as [H1 H2]. cbn [re_split]. rewrite H1. rewrite (IH H2).
    destruct (re_split m 0 rest) eqn:E; [|reflexivity]. reflexivity.
Qed.

Lemma re_split_step m p rest n : quiet m p rest -> m rest = Some (S n) -> S n <= length rest ->
  re_split m 0 (p ++ rest) = p :: re_split m 0 (skipn (S n) rest).
Proof.
  intros Hq Hm Hl. rewrite re_split_quiet by exact Hq. rewrite (re_split_here m rest n Hm Hl).
  now rewrite app_nil_r.
Qed.

Lemma re_split_none m s : quiet m s [] -> re_split m 0 s = [s].
Proof.
  intros H. rewrite <- (app_nil_r s) at 1. rewrite re_split_quiet by exact H. cbn [re_split]. now rewrite app_nil_r.
Qed.

Lemma re_del_skip m : forall k s, k <= length s -> re_del m k s = re_del m 0 (skipn k s).
Proof.
  induction k as [|k IH]; intros s H; [reflexivity|].
  destruct s as [|c s]; cbn [length] in H; [lia|]. cbn [re_del skipn]. apply IH. lia.
Qed.

Lemma re_del_here m rest n : m rest = Some (S n) -> S n <= length rest ->
  re_del m 0 rest = re_del m 0 (skipn (S n) rest).
Proof.
  intros Hm Hl. destruct rest as [|c rest]; cbn [length] in Hl; [lia|].
  cbn [re_del skipn]. rewrite Hm. apply re_del_skip. lia.
Qed.

Lemma re_del_quiet m p rest : quiet m p rest -> re_del m 0 (p ++ rest) = p ++ re_del m 0 rest.
Proof.
  induction p as [|x p IH]; intros H; cbn [app]; [reflexivity|].
  apply quiet_cons in H. destruct H as [H1 H2]. cbn [re_del]. rewrite H1. now rewrite (IH H2).
Qed.

Lemma re_del_none m s : quiet m s [] -> re_del m 0 s = s.
Proof. intros H. rewrite <- (app_nil_r s) at 1. rewrite re_del_quiet by exact H. cbn. apply app_nil_r. Qed.

Lemma skipn_app_length {A} (p r : list A) : skipn (length p) (p ++ r) = r.
Proof. rewrite skipn_app, skipn_all, Nat.sub_diag. reflexivity. Qed.
