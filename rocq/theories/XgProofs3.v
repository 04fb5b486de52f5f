(* Bodies of responses. *)
From Coq Require Import Lia ZifyBool ZifyNat ZifyN.
From Verif Require Import Base BaseProofs Lit NumModel TextModel TextSpec Utf8Model XmlModel XtModel XtSpec XtProofs XtProofs2 XtProofs3 XgModel XgSpec XgProofs XgProofs2.
Local Open Scope list_scope.

Lemma skip_ws_split s : exists g, blank g /\ s = g ++ skip_ws s.
Proof.
  induction s as [|c s (g & G & IH)]; [exists []; split; [constructor|reflexivity]|]. cbn [skip_ws]. destruct (is_ws c) eqn:E; [|exists []; split; [constructor|reflexivity]].
  exists (c :: g). split; [constructor; [apply space_ws; exact E|exact G]|]. cbn [app]. f_equal. exact IH.
Qed.
Lemma after_word_split w s r : after_word w s = Some r -> s = w ++ r.
Proof.
  unfold after_word. destruct (starts_with w s) eqn:E; [|discriminate]. intros H. apply Some_inj in H. subst r. revert s E.
  induction w as [|c w IH]; intros s E; [reflexivity|]. destruct s as [|d s]; [discriminate E|]. cbn [starts_with] in E. apply Bool.andb_true_iff in E. destruct E as (E1 & E2). apply N.eqb_eq in E1. subst d.
  cbn [length skipn app]. f_equal. exact (IH s E2).
Qed.
Lemma quoted_split q s : forall v r, quoted q s = Some (v, r) -> s = v ++ q :: r /\ Forall sign v.
Proof.
  induction s as [|c s IH]; intros v r; [discriminate|]. cbn [quoted]. destruct (N.eqb_spec c q) as [-> |_].
  - intros H. apply Some_inj, pair_inj in H. destruct H as (<- & <-). split; [reflexivity|constructor].
  - destruct (decl_char c) eqn:D; [|discriminate]. destruct (quoted q s) as [[v' r']|]; [|discriminate]. intros H. apply Some_inj, pair_inj in H. destruct H as (<- & <-).
    destruct (IH v' r' eq_refl) as (-> & F). split; [reflexivity|]. constructor; [|exact F]. clear - D. unfold decl_char, is_alpha, is_digit in D. unfold sign, letter. lia.
Qed.
Lemma pseudo_split w s v r : pseudo w s = Some (v, r) -> exists e, s = e ++ r /\ setting w v e.
Proof.
  destruct s as [|c s]; [discriminate|]. cbn [pseudo]. destruct (is_ws c) eqn:Ec; [|discriminate]. destruct (skip_ws_split s) as (g & G & Eg).
  destruct (after_word w (skip_ws s)) as [s2|] eqn:E2; [|discriminate]. apply after_word_split in E2. destruct (skip_ws_split s2) as (b & B & Eb).
  destruct (skip_ws s2) as [|e s3] eqn:E3; [discriminate|]. destruct (N.eqb_spec e 61) as [-> |_]; [|discriminate]. destruct (skip_ws_split s3) as (b' & B' & Eb').
  destruct (skip_ws s3) as [|q s4] eqn:E4; [discriminate|]. destruct (N.eqb q 34 || N.eqb q 39)%bool eqn:Q; [|discriminate]. intros H. apply quoted_split in H. destruct H as (H & F).
  exists ((c :: g) ++ w ++ b ++ [61%N] ++ b' ++ [q] ++ v ++ [q]). split.
  - rewrite <- !app_assoc. cbn [app]. f_equal. rewrite Eg. f_equal. rewrite E2. f_equal. rewrite Eb. f_equal. f_equal. rewrite Eb'. f_equal. f_equal. exact H.
  - exists (c :: g), b, b', q. split; [reflexivity|]. split; [split; [constructor; [apply space_ws; exact Ec|exact G]|discriminate]|]. split; [exact B|]. split; [exact B'|]. split; [|exact F].
    unfold quote_mark. lia.
Qed.
Lemma utf8_named n : utf8_name n -> str_eqb (map lower n) (lit "utf-8") = true.
Proof.
  intros H. apply str_eqb_spec. unfold utf8_name in H. change (lit "utf-8") with [117; 116; 102; 45; 56]%N in *.
  revert H. generalize [117; 116; 102; 45; 56]%N (eq_refl : forallb (fun d => negb (N.leb 65 d && N.leb d 90)) [117; 116; 102; 45; 56]%N = true). intros l Hl. intros H. revert Hl.
  induction H as [|c d n l Hc _ IH]; [reflexivity|]. cbn [forallb map]. rewrite Bool.andb_true_iff. intros (Hd & Hl). rewrite (IH Hl). f_equal. unfold lower.
  destruct (N.leb 65 c && N.leb c 90)%bool eqn:E; lia.
Qed.
Theorem body_read b txt x : utf8_decode b = Ok txt -> says txt x -> (forall n, announces txt n -> utf8_name n) -> body_tree b = Some x.
Proof.
  intros E S1 A. unfold body_tree. rewrite E, (parse_says txt x S1). destruct (named_encoding (eol (drop_bom txt))) as [n|] eqn:En; [|reflexivity].
  rewrite utf8_named; [reflexivity|]. apply A. destruct S1 as (bom & body & s & y & sc & -> & Hb & L & M & _).
  exists bom, body, s. unfold named_encoding in En. destruct (markup_read s y M) as (_ & _ & _ & c & t & Es & Nc).
  assert (D : drop_bom (bom ++ body) = body).
  { destruct Hb as [-> | ->]; [|reflexivity]. cbn [app]. destruct body as [|d body]; [reflexivity|]. cbn [drop_bom]. destruct (N.eqb_spec d 65279) as [-> |_]; [|reflexivity].
    exfalso. subst s. inversion L; subst; congruence. }
  rewrite D, (eol_line_fed body s L) in En. destruct (after_word (lit "<?xml") s) as [s1|] eqn:E1; [|discriminate]. apply after_word_split in E1.
  destruct (pseudo (lit "version") s1) as [[m s2]|] eqn:E2; [|discriminate]. apply pseudo_split in E2. destruct E2 as (v & -> & V).
  destruct (pseudo (lit "encoding") s2) as [[n' s3]|] eqn:E3; [|discriminate]. apply Some_inj in En. subst n'. apply pseudo_split in E3. destruct E3 as (e & -> & E3).
  exists v, m, e, s3. split; [reflexivity|]. split; [exact Hb|]. split; [exact L|]. split; [exact E1|]. split; [exact V|exact E3].
Qed.

(* ---- computing the side conditions ---- *)
Lemma chars_computed s : forallb is_char s = true -> Forall xml_char s.
Proof. intros H. apply Forall_forall. intros c Hc. apply is_char_spec. rewrite forallb_forall in H. exact (H c Hc). Qed.
Lemma within_computed p s : forallb (fun i => negb (starts_with p (skipn i s))) (seq 0 (S (length s))) = true -> ~ within p s.
Proof.
  intros H (u & v & ->). rewrite forallb_forall in H. specialize (H (length u)). rewrite skipn_app, skipn_all, Nat.sub_diag in H. cbn [skipn app] in H.
  assert (E : starts_with p (p ++ v) = true) by (clear; induction p as [|c p IH]; [reflexivity|]; cbn [app starts_with]; rewrite N.eqb_refl; exact IH).
  rewrite E in H. cbn [negb] in H. assert (K : In (length u) (seq 0 (S (length (u ++ p ++ v))))) by (apply in_seq; rewrite app_length; lia). specialize (H K). discriminate H.
Qed.
Lemma blank_computed s : forallb is_ws s = true -> blank s.
Proof. intros H. apply Forall_forall. intros c Hc. apply space_ws. rewrite forallb_forall in H. exact (H c Hc). Qed.
Definition wordb (s : list N) : bool := match s with c :: s' => (name_start c && forallb name_char s')%bool | [] => false end.
Lemma word_computed s : wordb s = true -> word s.
Proof. intros H. apply word_raw. destruct s as [|c s]; [discriminate H|]. cbn [wordb] in H. apply Bool.andb_true_iff in H. exact H. Qed.
Lemma ncname_computed s : ncname s = true -> nc_name s.
Proof. exact (ncname_nc s). Qed.
Lemma sign_computed s : forallb decl_char s = true -> Forall sign s.
Proof.
  intros H. apply Forall_forall. intros c Hc. rewrite forallb_forall in H. specialize (H c Hc). unfold decl_char, is_alpha, is_digit in H. unfold sign, letter. lia.
Qed.
