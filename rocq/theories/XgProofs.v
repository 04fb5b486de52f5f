(* The reader reads every text the grammar allows: markup. *)
From Coq Require Import Lia ZifyBool ZifyNat ZifyN.
From Verif Require Import Base BaseProofs Lit NumModel TextModel TextSpec XmlModel XtModel XtSpec XtProofs XgSpec.
Local Open Scope list_scope.

(* ---- characters ---- *)
Lemma space_ws c : space c <-> is_ws c = true.
Proof. unfold space, is_ws. lia. Qed.
Lemma space_not c : ~ space c -> is_ws c = false.
Proof. unfold space, is_ws. lia. Qed.
Lemma word_raw s : word s <-> raw_name s.
Proof.
  destruct s as [|c s]; [reflexivity|]. cbn [word raw_name]. rewrite name_start_spec, forallb_forall, Forall_forall.
  assert (K : forall d, name_char d = true <-> name_more d \/ d = 58%N) by (intros d; unfold name_char; rewrite Bool.orb_true_iff, nc_char_spec, N.eqb_eq; reflexivity).
  split; intros (A & B); (split; [exact A|]); intros d Hd; apply K; exact (B d Hd).
Qed.
Lemma blank_ws s : blank s -> forallb is_ws s = true.
Proof. intros H. apply forallb_forall. intros c Hc. apply space_ws. exact (proj1 (Forall_forall _ _) H c Hc). Qed.

(* ---- references ---- *)
Lemma digits_value_app base digit s : forall acc t,
  digits_value base digit acc (s ++ t) = match digits_value base digit acc s with Some n => digits_value base digit n t | None => None end.
Proof. induction s as [|c s IH]; intros acc t; [reflexivity|]. cbn [app digits_value]. destruct (digit c); [apply IH|reflexivity]. Qed.
Lemma numeral_dec s n : numeral 10 s n -> digits_value 10 dec_value 0 s = Some n.
Proof.
  assert (K : forall c d, digit_of 10 c d -> dec_value c = Some d).
  { intros c d [(H & ->)|(H & _)]; [|discriminate H]. unfold dec_value, is_digit. assert (E : (N.leb 48 c && N.leb c 57)%bool = true) by lia. rewrite E. reflexivity. }
  induction 1 as [c d H|s n c d _ IH H]; [|rewrite digits_value_app, IH]; cbn [digits_value]; rewrite (K c d H); f_equal; lia.
Qed.
Lemma numeral_hex s n : numeral 16 s n -> digits_value 16 hex_value 0 s = Some n.
Proof.
  assert (K : forall c d, digit_of 16 c d -> hex_value c = Some d).
  { intros c d H. unfold hex_value. unfold digit_of in H.
    destruct (N.leb 48 c && N.leb c 57)%bool eqn:E1; [f_equal; lia|]. destruct (N.leb 65 c && N.leb c 70)%bool eqn:E2; [f_equal; lia|].
    destruct (N.leb 97 c && N.leb c 102)%bool eqn:E3; [f_equal; lia|]. lia. }
  induction 1 as [c d H|s n c d _ IH H]; [|rewrite digits_value_app, IH]; cbn [digits_value]; rewrite (K c d H); f_equal; lia.
Qed.
Lemma numeral_chars base s n : numeral base s n -> s <> [] /\ Forall (fun c => ref_char c = true /\ c <> 120%N /\ c <> 35%N) s.
Proof.
  assert (K : forall c d, digit_of base c d -> ref_char c = true /\ c <> 120%N /\ c <> 35%N).
  { intros c d H. unfold digit_of in H. unfold ref_char, name_char, nc_char, name_start, is_alpha, is_digit. lia. }
  induction 1 as [c d H|s n c d _ (IH1 & IH2) H].
  - split; [discriminate|]. constructor; [exact (K c d H)|constructor].
  - split; [intros C; apply app_eq_nil in C; destruct C; discriminate|]. apply Forall_app. split; [exact IH2|]. constructor; [exact (K c d H)|constructor].
Qed.
(* & r ; *)
Lemma refers_shape r c : refers r c -> exists m, r = 38%N :: m ++ [59%N] /\ Forall (fun c => ref_char c = true /\ c <> 59%N) m /\ deref m = Some c.
Proof.
  assert (Q : forall d, ref_char d = true -> d <> 59%N) by (intros d H; unfold ref_char, name_char, nc_char, name_start, is_alpha, is_digit in H; lia).
  intros H. destruct H as [| | | | |s c H X|s c H X].
  1-5: (match goal with |- exists m, ?r = _ /\ _ /\ _ => exists (removelast (tl r)) end; split; [reflexivity|]; split; [repeat constructor; discriminate|reflexivity]).
  - exists (35%N :: s). split; [reflexivity|]. destruct (numeral_chars _ _ _ H) as (Ne & F). split.
    + constructor; [split; [reflexivity|discriminate]|]. eapply Forall_impl; [|exact F]. intros d (A & _). split; [exact A|exact (Q d A)].
    + destruct s as [|d s]; [congruence|]. unfold deref. 
      assert (Dd : N.eqb d 120 = false) by (apply Forall_inv in F; lia).
      change (str_eqb (35%N :: d :: s) (lit "amp")) with false. change (str_eqb (35%N :: d :: s) (lit "lt")) with false. change (str_eqb (35%N :: d :: s) (lit "gt")) with false.
      change (str_eqb (35%N :: d :: s) (lit "quot")) with false. change (str_eqb (35%N :: d :: s) (lit "apos")) with false. change (N.eqb 35 35) with true. cbv iota.
      unfold char_number. rewrite Dd, (numeral_dec _ _ H). cbn [checked]. rewrite (proj2 (is_char_spec c) X). reflexivity.
  - exists (35%N :: 120%N :: s). split; [reflexivity|]. destruct (numeral_chars _ _ _ H) as (Ne & F). split.
    + constructor; [split; [reflexivity|discriminate]|]. constructor; [split; [reflexivity|discriminate]|]. eapply Forall_impl; [|exact F]. intros d (A & _). split; [exact A|exact (Q d A)].
    + destruct s as [|d s]; [congruence|]. unfold deref.
      change (str_eqb (35%N :: 120%N :: d :: s) (lit "amp")) with false. change (str_eqb (35%N :: 120%N :: d :: s) (lit "lt")) with false. change (str_eqb (35%N :: 120%N :: d :: s) (lit "gt")) with false.
      change (str_eqb (35%N :: 120%N :: d :: s) (lit "quot")) with false. change (str_eqb (35%N :: 120%N :: d :: s) (lit "apos")) with false. change (N.eqb 35 35) with true. cbv iota.
      unfold char_number. change (N.eqb 120 120) with true. cbv iota. rewrite (numeral_hex _ _ H). cbn [checked]. rewrite (proj2 (is_char_spec c) X). reflexivity.
Qed.
Lemma run_ref_text m : forall r fs, Forall (fun c => ref_char c = true /\ c <> 59%N) m -> run m (TextRef r, fs) = (TextRef (r ++ m), fs).
Proof.
  induction m as [|c m IH]; intros r fs H; [rewrite app_nil_r; reflexivity|]. rewrite run_cons. cbn [step]. destruct (Forall_inv H) as (A & B).
  assert (E : N.eqb c 59 = false) by lia. rewrite E, A, IH by exact (Forall_inv_tail H). rewrite <- app_assoc. reflexivity.
Qed.
Lemma run_ref_att m n a k q v : forall r fs, Forall (fun c => ref_char c = true /\ c <> 59%N) m -> run m (AttRef n a k q v r, fs) = (AttRef n a k q v (r ++ m), fs).
Proof.
  induction m as [|c m IH]; intros r fs H; [rewrite app_nil_r; reflexivity|]. rewrite run_cons. cbn [step]. destruct (Forall_inv H) as (A & B).
  assert (E : N.eqb c 59 = false) by lia. rewrite E, A, IH by exact (Forall_inv_tail H). rewrite <- app_assoc. reflexivity.
Qed.
Lemma run_refers_text r c b f fs : refers r c -> run r (Text b, f :: fs) = (Text 0, add_text [c] f :: fs).
Proof.
  intros H. destruct (refers_shape r c H) as (m & -> & F & D). rewrite run_cons, run_app. change (step (Text b, f :: fs) 38) with (TextRef [], f :: fs).
  rewrite run_ref_text by exact F. cbn [app]. rewrite run_cons. cbn [step]. change (N.eqb 59 59) with true. cbv iota. rewrite D. reflexivity.
Qed.
Lemma run_refers_att r c n a k q v fs : quote_mark q -> refers r c -> run r (AttVal n a k q v, fs) = (AttVal n a k q (v ++ [c]), fs).
Proof.
  intros Q H. destruct (refers_shape r c H) as (m & -> & F & D). rewrite run_cons, run_app. 
  assert (S1 : step (AttVal n a k q v, fs) 38 = (AttRef n a k q v [], fs)) by (destruct Q as [-> | ->]; reflexivity). rewrite S1.
  rewrite run_ref_att by exact F. cbn [app]. rewrite run_cons. cbn [step]. change (N.eqb 59 59) with true. cbv iota. rewrite D. reflexivity.
Qed.

(* ---- attributes ---- *)
Lemma run_valued q r v : quote_mark q -> valued q r v -> forall n a k v0 fs, run r (AttVal n a k q v0, fs) = (AttVal n a k q (v0 ++ v), fs).
Proof.
  intros Q. induction 1 as [|c s v X Sp Nq Nl Na _ IH|c s v Sp _ IH|r c s v R _ IH]; intros n a k v0 fs.
  - rewrite app_nil_r. reflexivity.
  - rewrite run_cons. cbn [step]. assert (E : N.eqb c q = false /\ N.eqb c 60 = false /\ N.eqb c 38 = false) by lia. destruct E as (-> & -> & ->).
    rewrite (space_not c Sp), (proj2 (is_char_spec c) X), IH, <- app_assoc. reflexivity.
  - rewrite run_cons. cbn [step]. assert (E : N.eqb c q = false /\ N.eqb c 60 = false /\ N.eqb c 38 = false) by (destruct Q; unfold space in Sp; lia). destruct E as (-> & -> & ->).
    rewrite (proj1 (space_ws c) Sp), IH, <- app_assoc. reflexivity.
  - rewrite run_app, (run_refers_att r c n a k q v0 fs Q R), IH, <- app_assoc. reflexivity.
Qed.
Definition in_start (m : mode) (n : list N) (a : list (list N * list N)) : Prop := (m = OpenName n /\ a = []) \/ exists w, m = InTag n a w.
Lemma run_ws_tag s n a fs : blank s -> forall w, run s (InTag n a w, fs) = (InTag n a (match s with [] => w | _ => true end), fs).
Proof.
  induction 1 as [|c s Hc _ IH]; intros w; [reflexivity|]. rewrite run_cons. cbn [step]. rewrite (proj1 (space_ws c) Hc), IH. destruct s; reflexivity.
Qed.
Lemma run_gap g m n a fs : gap g -> in_start m n a -> run g (m, fs) = (InTag n a true, fs).
Proof.
  intros (B & Ne) M. destruct g as [|c g]; [congruence|]. rewrite run_cons.
  assert (S1 : step (m, fs) c = (InTag n a true, fs)).
  { pose proof (proj1 (space_ws c) (Forall_inv B)) as W. destruct M as [(-> & ->)|(w & ->)]; cbn [step]; rewrite W; [|reflexivity].
    assert (E : name_char c = false) by (clear - W; revert W; unfold is_ws, name_char, nc_char, name_start, is_alpha, is_digit; lia). rewrite E. reflexivity. }
  rewrite S1, run_ws_tag by exact (Forall_inv_tail B). destruct g; reflexivity.
Qed.
Lemma run_ws_eq s n a k fs : blank s -> run s (AttEq n a k, fs) = (AttEq n a k, fs).
Proof. induction 1 as [|c s Hc _ IH]; [reflexivity|]. rewrite run_cons. cbn [step]. rewrite (proj1 (space_ws c) Hc). exact IH. Qed.
Lemma run_ws_quote s n a k fs : blank s -> run s (AttQuote n a k, fs) = (AttQuote n a k, fs).
Proof. induction 1 as [|c s Hc _ IH]; [reflexivity|]. rewrite run_cons. cbn [step]. rewrite (proj1 (space_ws c) Hc). exact IH. Qed.
Lemma run_equals b n a k fs : blank b -> run (b ++ [61%N]) (AttName n a k, fs) = (AttQuote n a k, fs).
Proof.
  intros B. rewrite run_app. destruct b as [|c b]; [reflexivity|]. rewrite (run_cons c b). cbn [step]. pose proof (proj1 (space_ws c) (Forall_inv B)) as W.
  assert (E : name_char c = false) by (clear - W; revert W; unfold is_ws, name_char, nc_char, name_start, is_alpha, is_digit; lia).
  rewrite E, W, run_ws_eq by exact (Forall_inv_tail B). reflexivity.
Qed.
Lemma run_attributed s l : attributed s l -> forall m n a fs, in_start m n a -> NoDup (map fst (a ++ l)) ->
  exists m', run s (m, fs) = (m', fs) /\ in_start m' n (a ++ l).
Proof.
  induction 1 as [|g k b b' q r v s l G W B B' Q V _ IH]; intros m n a fs M D.
  - exists m. rewrite app_nil_r. split; [reflexivity|exact M].
  - rewrite run_app, (run_gap g m n a fs G M), run_app. apply word_raw in W. destruct k as [|c k]; [destruct W|]. destruct W as (W1 & W2). rewrite run_cons.
    assert (S2 : step (InTag n a true, fs) c = (AttName n a [c], fs)).
    { cbn [step]. assert (is_ws c = false /\ N.eqb c 62 = false /\ N.eqb c 47 = false) as (-> & -> & ->) by (clear - W1; revert W1; unfold name_start, is_alpha, is_ws; lia).
      rewrite W1. reflexivity. }
    rewrite S2, run_attname by exact W2. cbn [app]. change (b ++ 61%N :: b' ++ q :: r ++ q :: s) with (b ++ [61%N] ++ b' ++ q :: r ++ q :: s). rewrite app_assoc, run_app, run_equals by exact B.
    rewrite run_app, run_ws_quote by exact B'. rewrite run_cons.
    assert (S3 : step (AttQuote n a (c :: k), fs) q = (AttVal n a (c :: k) q [], fs)) by (destruct Q as [-> | ->]; reflexivity).
    rewrite S3, run_app, (run_valued q r v Q V), run_cons. cbn [step app]. rewrite N.eqb_refl.
    rewrite dict_get_none_app by (clear - D; intros H; rewrite map_app in D; cbn [map] in D; apply NoDup_remove_2 in D; apply D, in_or_app; left; exact H).
    destruct (IH (InTag n (a ++ [(c :: k, v)]) false) n (a ++ [(c :: k, v)]) fs) as (m' & E & I1); [right; exists false; reflexivity|rewrite <- app_assoc; exact D|].
    exists m'. rewrite <- app_assoc in I1. split; [exact E|exact I1].
Qed.

(* ---- what says nothing ---- *)
Lemma run_comment_body o fs s : forall d, Forall xml_char s -> (d <= 1)%nat ->
  ~ within (lit "--") (repeat 45%N d ++ s ++ [45%N]) -> run (s ++ lit "-->") (Comment o d, fs) = resume o fs.
Proof.
  induction s as [|c s IH]; intros d F Hd W.
  - destruct d as [|d]; [reflexivity|]. destruct d as [|d]; [|lia]. exfalso. apply W. exists [], []. reflexivity.
  - cbn [app]. rewrite run_cons. cbn [step]. destruct (N.eqb c 45) eqn:E.
    + apply N.eqb_eq in E. subst c. destruct d as [|d].
      * apply IH; [exact (Forall_inv_tail F)|lia|exact W].
      * exfalso. apply W. destruct d as [|d]; [|lia]. exists [], (s ++ [45%N]). reflexivity.
    + assert (Ed : Nat.eqb d 2 = false) by lia. rewrite Ed, (proj2 (is_char_spec c) (Forall_inv F)). apply IH; [exact (Forall_inv_tail F)|lia|].
      intros (u & v & Euv). apply W. exists (repeat 45%N d ++ c :: u), v. cbn [repeat app] in Euv. rewrite <- app_assoc. cbn [app]. rewrite <- Euv. reflexivity.
Qed.
Lemma run_comment o m fs : comment m -> exists s, m = 60%N :: 33%N :: s /\ run s (Bang o [], fs) = resume o fs.
Proof.
  intros (b & -> & F & W). exists (lit "--" ++ b ++ lit "-->"). split; [reflexivity|]. rewrite run_app. change (run (lit "--") (Bang o [], fs)) with (Comment o 0, fs).
  apply run_comment_body; [exact F|lia|exact W].
Qed.
Lemma reserved_spec n : reserved n = true -> xml_reserved n.
Proof.
  unfold reserved. intros H. apply str_eqb_spec in H. destruct n as [|x [|m [|l [|y n]]]]; try discriminate H. cbn [map] in H. change (lit "xml") with [120; 109; 108]%N in H.
  apply cons_inj in H. destruct H as (Hx & H). apply cons_inj in H. destruct H as (Hm & H). apply cons_inj in H. destruct H as (Hl & _).
  assert (K : forall c d, lower c = d -> (97 <= d <= 122)%N -> c = d \/ c = (d - 32)%N) by (intros c d; unfold lower; destruct (N.leb 65 c && N.leb c 90)%bool eqn:E; lia).
  exists x, m, l. split; [reflexivity|]. cbn [In]. apply K in Hx; [|lia]. apply K in Hm; [|lia]. apply K in Hl; [|lia]. lia.
Qed.
Lemma run_pi_body o fs s : forall q, Forall xml_char s -> ~ within (lit "?>") (repeat 63%N (if q : bool then 1 else 0)%nat ++ s) ->
  run (s ++ lit "?>") (Pi o q, fs) = resume o fs.
Proof.
  induction s as [|c s IH]; intros q F W.
  - destruct q; reflexivity.
  - cbn [app]. rewrite run_cons. cbn [step]. destruct (q && N.eqb c 62)%bool eqn:E.
    + exfalso. apply Bool.andb_true_iff in E. destruct E as (-> & E). apply N.eqb_eq in E. subst c. apply W. exists [], s. reflexivity.
    + destruct (N.eqb c 63) eqn:E2.
      * apply N.eqb_eq in E2. subst c. apply IH; [exact (Forall_inv_tail F)|]. intros (u & v & Euv). apply W. exists (repeat 63%N (if q then 1 else 0)%nat ++ u), v. cbn [repeat app] in Euv. rewrite <- app_assoc, <- Euv. reflexivity.
      * rewrite (proj2 (is_char_spec c) (Forall_inv F)). apply IH; [exact (Forall_inv_tail F)|]. intros (u & v & Euv). apply W. exists (repeat 63%N (if q then 1 else 0)%nat ++ c :: u), v. cbn [repeat app] in Euv. rewrite <- app_assoc. cbn [app]. rewrite <- Euv. reflexivity.
Qed.
Lemma run_pi_name o fs s : forall n, n <> [] -> Forall name_more s -> run s (PiName o n, fs) = (PiName o (n ++ s), fs).
Proof.
  induction s as [|c s IH]; intros n Hn F; [rewrite app_nil_r; reflexivity|]. rewrite run_cons. cbn [step]. destruct n as [|d n]; [congruence|].
  rewrite (proj2 (nc_char_spec c) (Forall_inv F)), IH; [rewrite <- app_assoc; reflexivity|intros C; destruct n; discriminate C|exact (Forall_inv_tail F)].
Qed.
Lemma run_instruction o m fs : instruction m -> exists s, m = 60%N :: 63%N :: s /\ run s (PiName o [], fs) = resume o fs.
Proof.
  intros (n & b & -> & Hn & Hr & F & Hb & W). exists (n ++ b ++ lit "?>"). split; [reflexivity|]. destruct n as [|c n]; [destruct Hn|]. destruct Hn as (H1 & H2).
  rewrite run_app, run_cons. cbn [step]. rewrite (proj2 (name_start_spec c) H1), run_pi_name by (try discriminate; exact H2). cbn [app].
  assert (Rs : reserved (c :: n) = false) by (destruct (reserved (c :: n)) eqn:E; [exfalso; exact (Hr (reserved_spec _ E))|reflexivity]).
  destruct Hb as [-> |(d & b' & -> & Sp)].
  - cbn [app]. change (lit "?>") with [63; 62]%N. rewrite !run_cons. cbn [step]. change (nc_char 63) with false. rewrite Rs. change (is_ws 63) with false. change (N.eqb 63 63) with true. cbv iota.
    cbn [step]. change (N.eqb 62 62) with true. cbv iota. destruct o as [x|]; [|destruct fs]; reflexivity.
  - cbn [app]. rewrite run_cons. cbn [step]. pose proof (proj1 (space_ws d) Sp) as Wd.
    assert (E : nc_char d = false) by (clear - Wd; revert Wd; unfold is_ws, nc_char, name_start, is_alpha, is_digit; lia). rewrite E, Rs, Wd.
    apply (run_pi_body o fs b' false (Forall_inv_tail F)). intros (u & v & Euv). apply W. exists (d :: u), v. cbn [app repeat] in *. rewrite <- Euv. reflexivity.
Qed.

(* ---- content ---- *)
Lemma run_cdata_body s : forall b f fs, Forall xml_char s -> (b <= 2)%nat -> ~ within (lit "]]>") (repeat 93%N b ++ s) ->
  run (s ++ lit "]]>") (CData b, f :: fs) = (Text 0, add_text (repeat 93%N b ++ s) f :: fs).
Proof.
  induction s as [|c s IH]; intros b f fs F Hb W.
  - cbn [app]. change (lit "]]>") with [93; 93; 62]%N. destruct b as [|[|[|b]]]; [| | |lia]; cbn [repeat app].
    + rewrite add_text_nil. reflexivity.
    + reflexivity.
    + change [93; 93]%N with ([93] ++ [93])%N. rewrite <- add_text_app. reflexivity.
  - cbn [app]. rewrite run_cons. cbn [step]. destruct (N.eqb c 93) eqn:E.
    + apply N.eqb_eq in E. subst c. destruct (Nat.eqb b 2) eqn:Eb.
      * apply Nat.eqb_eq in Eb. subst b. cbn [add_chars]. rewrite IH; [rewrite add_text_app; reflexivity|exact (Forall_inv_tail F)|lia|].
        intros (u & v & Euv). apply W. exists (93%N :: u), v. cbn [repeat app] in *. rewrite <- Euv. reflexivity.
      * apply Nat.eqb_neq in Eb. assert (Er : repeat 93%N (S b) ++ s = repeat 93%N b ++ 93%N :: s).
        { change (93%N :: s) with ([93%N] ++ s). rewrite app_assoc. f_equal. clear. induction b; [reflexivity|]. cbn [repeat app] in *. rewrite <- IHb. reflexivity. }
        rewrite IH; [rewrite Er; reflexivity|exact (Forall_inv_tail F)|lia|rewrite Er; exact W].
    + destruct (N.eqb c 62 && Nat.eqb b 2)%bool eqn:E2.
      * exfalso. apply Bool.andb_true_iff in E2. destruct E2 as (E2 & E3). apply N.eqb_eq in E2. apply Nat.eqb_eq in E3. subst c b. apply W. exists [], s. reflexivity.
      * rewrite (proj2 (is_char_spec c) (Forall_inv F)). cbn [add_chars]. rewrite IH; [cbn [repeat app]; rewrite add_text_app, <- app_assoc; reflexivity|exact (Forall_inv_tail F)|lia|].
        intros (u & v & Euv). apply W. exists (repeat 93%N b ++ c :: u), v. cbn [repeat app] in Euv. rewrite <- app_assoc. cbn [app]. rewrite <- Euv. reflexivity.
Qed.
Lemma run_cdata b n f fs : Forall xml_char b -> ~ within (lit "]]>") b ->
  run (lit "<![CDATA[" ++ b ++ lit "]]>") (Text n, f :: fs) = (Text 0, add_text b f :: fs).
Proof.
  intros F W. rewrite run_app. assert (E : run (lit "<![CDATA[") (Text n, f :: fs) = (CData 0, f :: fs)) by reflexivity. rewrite E.
  apply (run_cdata_body b 0 f fs F); [lia|exact W].
Qed.
(* how many ] stand in front *)
Definition clear_of (b : nat) (s : list N) : Prop :=
  ((1 <= b)%nat -> forall r, s <> lit "]>" ++ r) /\ ((2 <= b)%nat -> forall r, s <> lit ">" ++ r).
Lemma clear_zero s : clear_of 0 s.
Proof. split; intros; lia. Qed.
Scheme element_both := Minimality for element Sort Prop with content_both := Minimality for content Sort Prop.
Lemma grown_text t f x l : grown (add_text t (grown f [x])) l = grown f (x :: l).
Proof. unfold grown, add_text. cbn [f_kids f_name f_attrs f_text]. destruct (f_kids f) as [|y ys]; cbn [app f_kids f_name f_attrs f_text]; rewrite <- ?app_assoc; reflexivity. Qed.
Lemma run_start_tag n s a fs : word n -> attributed s a -> NoDup (map fst a) -> exists m, run (n ++ s) (Lt, fs) = (m, fs) /\ in_start m n a.
Proof.
  intros W A D. rewrite run_app. apply word_raw in W. destruct n as [|c n]; [destruct W|]. destruct W as (W1 & W2). rewrite run_cons.
  assert (S1 : step (Lt, fs) c = (OpenName [c], fs)).
  { cbn [step]. assert (N.eqb c 47 = false) as -> by (clear - W1; revert W1; unfold name_start, is_alpha; lia). rewrite W1. reflexivity. }
  rewrite S1, run_open by exact W2. cbn [app]. apply (run_attributed s a A (OpenName (c :: n)) (c :: n) []); [left; split; reflexivity|exact D].
Qed.
Lemma run_blank_tag b m n a fs : blank b -> in_start m n a -> exists m', run b (m, fs) = (m', fs) /\ in_start m' n a.
Proof.
  intros B M. destruct b as [|c b]; [exists m; split; [reflexivity|exact M]|]. rewrite (run_gap (c :: b) m n a fs); [|split; [exact B|discriminate]|exact M].
  exists (InTag n a true). split; [reflexivity|right; exists true; reflexivity].
Qed.
Lemma run_close_blank b n fs : blank b -> run (b ++ lit ">") (CloseName n, fs) = close_tag n fs.
Proof.
  intros B. assert (K : forall b, blank b -> run (b ++ lit ">") (CloseEnd n, fs) = close_tag n fs).
  { clear. induction 1 as [|c s Hc _ IH]; [reflexivity|]. cbn [app]. rewrite run_cons. cbn [step]. rewrite (proj1 (space_ws c) Hc). exact IH. }
  destruct b as [|c b]; [reflexivity|]. cbn [app]. rewrite run_cons. cbn [step]. pose proof (proj1 (space_ws c) (Forall_inv B)) as W.
  assert (E : name_char c = false) by (clear - W; revert W; unfold is_ws, name_char, nc_char, name_start, is_alpha, is_digit; lia).
  rewrite E, W. apply K. exact (Forall_inv_tail B).
Qed.
Lemma run_element e x : element e x -> forall fs, exists s, e = 60%N :: s /\ run s (Lt, fs) = add_kid x fs.
Proof.
  apply (element_both (fun e x => forall fs, exists s, e = 60%N :: s /\ run s (Lt, fs) = add_kid x fs)
           (fun s t l => forall b f fs, clear_of b s -> exists b', run s (Text b, f :: fs) = (Text b', grown (add_text t f) l :: fs))); clear e x.
  - intros n s a b W A D B fs. exists (n ++ s ++ b ++ lit "/>"). split; [reflexivity|]. rewrite app_assoc, run_app.
    destruct (run_start_tag n s a fs W A D) as (m & -> & M). rewrite run_app. destruct (run_blank_tag b m n a fs B M) as (m' & -> & M').
    destruct M' as [(-> & ->)|(w & ->)]; reflexivity.
  - intros n s a b c t l b' W A D B _ IH B' fs. exists (n ++ s ++ b ++ lit ">" ++ c ++ lit "</" ++ n ++ b' ++ lit ">"). split; [reflexivity|]. rewrite app_assoc, run_app.
    destruct (run_start_tag n s a fs W A D) as (m & -> & M). rewrite run_app. destruct (run_blank_tag b m n a fs B M) as (m' & -> & M').
    change (lit ">" ++ c ++ lit "</" ++ n ++ b' ++ lit ">") with (62%N :: c ++ lit "</" ++ n ++ b' ++ lit ">"). rewrite run_cons.
    assert (S1 : step (m', fs) 62 = open_tag n a fs) by (destruct M' as [(-> & ->)|(w & ->)]; reflexivity). rewrite S1. unfold open_tag. rewrite run_app.
    destruct (IH 0%nat {| f_name := n; f_attrs := a; f_text := []; f_kids := [] |} fs (clear_zero c)) as (b1 & ->).
    change (lit "</" ++ n ++ b' ++ lit ">") with (60%N :: 47%N :: n ++ b' ++ lit ">"). rewrite !run_cons.
    cbn [step]. change (N.eqb 60 60) with true. cbv iota. cbn [step]. change (N.eqb 47 47) with true. cbv iota.
    rewrite run_app, run_close by (apply raw_all, word_raw; exact W). cbn [app]. rewrite run_close_blank by exact B'.
    unfold close_tag, add_text, grown. cbn [f_name f_attrs f_text f_kids app]. rewrite str_eqb_refl. f_equal.
  - intros b f fs _. exists b. rewrite add_text_nil. unfold grown. rewrite app_nil_r. destruct f. reflexivity.
  - intros c s t l X N1 N2 N3 _ IH b f fs (C1 & C2). rewrite run_cons. cbn [step]. assert (E : N.eqb c 60 = false /\ N.eqb c 38 = false) by lia. destruct E as (-> & ->).
    assert (K : forall b', clear_of b' s -> exists b'', run s (Text b', add_chars [c] (f :: fs)) = (Text b'', grown (add_text (c :: t) f) l :: fs)).
    { intros b' C'. destruct (IH b' (add_text [c] f) fs C') as (b'' & Eb). exists b''. cbn [add_chars]. rewrite Eb, add_text_app. reflexivity. }
    destruct (N.eqb c 93) eqn:E3.
    + apply N.eqb_eq in E3. subst c. apply K. split; intros Hb r ->; [exact (N3 r eq_refl)|]. apply (C1 ltac:(lia) r). reflexivity.
    + destruct (N.eqb c 62 && Nat.leb 2 b)%bool eqn:E4.
      * exfalso. apply Bool.andb_true_iff in E4. destruct E4 as (E4 & E5). apply N.eqb_eq in E4. subst c. apply Nat.leb_le in E5. exact (C2 E5 s eq_refl).
      * rewrite (proj2 (is_char_spec c) X). apply K, clear_zero.
  - intros r c s t l R _ IH b f fs _. rewrite run_app, (run_refers_text r c b f fs R). destruct (IH 0%nat (add_text [c] f) fs (clear_zero s)) as (b' & ->). exists b'. rewrite add_text_app. reflexivity.
  - intros d s t l F W _ IH b f fs _. replace (lit "<![CDATA[" ++ d ++ lit "]]>" ++ s) with ((lit "<![CDATA[" ++ d ++ lit "]]>") ++ s) by (rewrite <- !app_assoc; reflexivity).
    rewrite run_app, (run_cdata d b f fs F W). destruct (IH 0%nat (add_text d f) fs (clear_zero s)) as (b' & ->). exists b'. rewrite add_text_app. reflexivity.
  - intros m s t l H _ IH b f fs _. rewrite run_app. destruct (run_comment None m (f :: fs) H) as (s' & -> & E). rewrite !run_cons. change (step (step (Text b, f :: fs) 60) 33) with (Bang None [], f :: fs). rewrite E.
    apply (IH 0%nat f fs (clear_zero s)).
  - intros m s t l H _ IH b f fs _. rewrite run_app. destruct (run_instruction None m (f :: fs) H) as (s' & -> & E). rewrite !run_cons. change (step (step (Text b, f :: fs) 60) 63) with (PiName None [], f :: fs). rewrite E.
    apply (IH 0%nat f fs (clear_zero s)).
  - intros e x s t l _ IHe _ IH b f fs _. rewrite run_app. destruct (IHe (f :: fs)) as (s' & -> & E). rewrite run_cons. change (step (Text b, f :: fs) 60) with (Lt, f :: fs). rewrite E. cbn [add_kid].
    destruct (IH 0%nat (grown f [x]) fs (clear_zero s)) as (b' & E'). exists b'. unfold grown in E' at 1. rewrite E'. rewrite grown_text, add_text_nil. reflexivity.
Qed.

(* ---- documents ---- *)
Lemma run_misc m : misc m -> forall o, run m (match o with Some x => (After x, []) | None => (Before, []) end) = match o with Some x => (After x, []) | None => (Before, []) end.
Proof.
  induction 1 as [|c s Sp _ IH|m s H _ IH|m s H _ IH]; intros o; [reflexivity| | |].
  - rewrite run_cons. assert (E : step (match o with Some x => (After x, []) | None => (Before, []) end) c = match o with Some x => (After x, []) | None => (Before, []) end).
    { destruct o; cbn [step]; rewrite (proj1 (space_ws c) Sp); reflexivity. } rewrite E. apply IH.
  - rewrite run_app. destruct (run_comment o m [] H) as (s' & -> & E). rewrite !run_cons.
    assert (S1 : step (step (match o with Some x => (After x, []) | None => (Before, []) end) 60) 33 = (Bang o [], [])) by (destruct o; reflexivity). rewrite S1, E. destruct o; apply (IH (Some _)) || apply (IH None).
  - rewrite run_app. destruct (run_instruction o m [] H) as (s' & -> & E). rewrite !run_cons.
    assert (S1 : step (step (match o with Some x => (After x, []) | None => (Before, []) end) 60) 63 = (PiName o [], [])) by (destruct o; reflexivity). rewrite S1, E. destruct o; apply (IH (Some _)) || apply (IH None).
Qed.
(* the declaration *)
Lemma skip_blank b s : blank b -> (forall c r, s = c :: r -> ~ space c) -> skip_ws (b ++ s) = s.
Proof.
  intros B H. induction B as [|c b Hc _ IH]; cbn [app skip_ws].
  - destruct s as [|c s]; [reflexivity|]. cbn [skip_ws]. rewrite (space_not c (H c s eq_refl)). reflexivity.
  - rewrite (proj1 (space_ws c) Hc). exact IH.
Qed.
Lemma after_word_app w s : after_word w (w ++ s) = Some s.
Proof.
  unfold after_word. assert (E : forall w, starts_with w (w ++ s) = true) by (induction w0 as [|c w' IH]; [reflexivity|]; cbn [app starts_with]; rewrite N.eqb_refl; exact IH).
  rewrite E. f_equal. rewrite skipn_app, skipn_all, Nat.sub_diag. reflexivity.
Qed.
Lemma quoted_app q v s : quote_mark q -> Forall sign v -> quoted q (v ++ [q] ++ s) = Some (v, s).
Proof.
  intros Q. induction 1 as [|c v Hc _ IH]; cbn [app quoted]; [rewrite N.eqb_refl; reflexivity|].
  assert (E : N.eqb c q = false) by (unfold sign, letter in Hc; destruct Q; lia). assert (D : decl_char c = true) by (unfold sign, letter in Hc; unfold decl_char, is_alpha, is_digit; lia).
  rewrite E, D. cbn [app] in IH. rewrite IH. reflexivity.
Qed.
Lemma pseudo_set w v s r : (forall c t, w = c :: t -> ~ space c) -> w <> [] -> setting w v s -> pseudo w (s ++ r) = Some (v, r).
Proof.
  intros Hw Ne (g & b & b' & q & -> & (G & Gn) & B & B' & Q & V). destruct g as [|c g]; [congruence|]. rewrite <- !app_assoc. cbn [app pseudo]. rewrite (proj1 (space_ws c) (Forall_inv G)).
  rewrite skip_blank; [|exact (Forall_inv_tail G)|intros d t E; destruct w as [|e w]; [congruence|]; apply cons_inj in E; destruct E as (<- & _); exact (Hw e w eq_refl)].
  rewrite after_word_app. rewrite skip_blank; [|exact B|intros d t E; apply cons_inj in E; destruct E as (<- & _); unfold space; lia].
  change (N.eqb 61 61) with true. cbv iota. rewrite skip_blank; [|exact B'|intros d t E; apply cons_inj in E; destruct E as (<- & _); unfold space; destruct Q; lia].
  assert (E : (N.eqb q 34 || N.eqb q 39)%bool = true) by (destruct Q; lia). rewrite E. apply (quoted_app q v r Q V).
Qed.
Lemma pseudo_other w g s : blank g -> (forall c r, s = c :: r -> ~ space c) -> starts_with w s = false -> pseudo w (g ++ s) = None.
Proof.
  intros G H E. destruct g as [|c g]; cbn [app].
  - destruct s as [|c s]; [reflexivity|]. cbn [pseudo]. rewrite (space_not c (H c s eq_refl)). reflexivity.
  - cbn [pseudo]. rewrite (proj1 (space_ws c) (Forall_inv G)), (skip_blank g s (Forall_inv_tail G) H). unfold after_word. rewrite E. reflexivity.
Qed.
Lemma mark_head c r : lit "?>" ++ c = r -> forall d t, r = d :: t -> ~ space d.
Proof. intros <- d t E. change (63%N :: 62%N :: c = d :: t) in E. apply cons_inj in E. destruct E as (<- & _). unfold space. lia. Qed.
Lemma standalone_head v s b r : setting (lit "standalone") v s -> exists g t, s ++ b ++ lit "?>" ++ r = g ++ lit "standalone" ++ t /\ blank g.
Proof. intros (g & b1 & b2 & q & -> & (G & _) & _). exists g. eexists. split; [rewrite <- !app_assoc; reflexivity|exact G]. Qed.
Lemma other_standalone w v s b r : (forall t, starts_with w (lit "standalone" ++ t) = false) -> setting (lit "standalone") v s -> pseudo w (s ++ b ++ lit "?>" ++ r) = None.
Proof.
  intros H S1. destruct (standalone_head v s b r S1) as (g & t & -> & G). apply pseudo_other; [exact G| |apply H].
  intros c u E. change (115%N :: lit "tandalone" ++ t = c :: u) in E. apply cons_inj in E. destruct E as (<- & _). unfold space. lia.
Qed.
Lemma undeclared_set v e a b r : (exists n, setting (lit "version") n v) -> (e = [] \/ exists c n, setting (lit "encoding") (c :: n) e /\ letter c) ->
  (a = [] \/ setting (lit "standalone") (lit "yes") a \/ setting (lit "standalone") (lit "no") a) -> blank b ->
  undeclared ((lit "<?xml" ++ v ++ e ++ a ++ b ++ lit "?>") ++ r) = Some r.
Proof.
  intros (n & V) He Ha Hb. rewrite <- !app_assoc. unfold undeclared. rewrite after_word_app.
  assert (Hv : exists c t, v = c :: t /\ is_ws c = true).
  { destruct V as (g & b1 & b2 & q & -> & (G & Gn) & _). destruct g as [|c g]; [congruence|]. exists c. eexists. split; [reflexivity|]. apply space_ws. exact (Forall_inv G). }
  assert (P1 : pseudo (lit "version") (v ++ e ++ a ++ b ++ lit "?>" ++ r) = Some (n, e ++ a ++ b ++ lit "?>" ++ r)).
  { apply pseudo_set; [|discriminate|exact V]. intros c t E. change (118%N :: lit "ersion" = c :: t) in E. apply cons_inj in E. destruct E as (<- & _). unfold space. lia. }
  destruct Hv as (c & t & Ev & Wc). rewrite Ev in *. cbn [app] in *. rewrite Wc, P1.
  assert (P2 : match pseudo (lit "encoding") (e ++ a ++ b ++ lit "?>" ++ r) with Some (v, s3) => if encoding_ok v then Some s3 else None | None => Some (e ++ a ++ b ++ lit "?>" ++ r) end = Some (a ++ b ++ lit "?>" ++ r)).
  { destruct He as [-> |(d & m & He & Ld)].
    - cbn [app]. assert (Pn : pseudo (lit "encoding") (a ++ b ++ lit "?>" ++ r) = None); [|rewrite Pn; reflexivity].
      destruct Ha as [-> |[Ha|Ha]]; [|eapply other_standalone; [reflexivity|exact Ha]..]. cbn [app]. apply pseudo_other; [exact Hb|exact (mark_head r _ eq_refl)|reflexivity].
    - rewrite (pseudo_set (lit "encoding") (d :: m) e); [|intros x y E; change (101%N :: lit "ncoding" = x :: y) in E; apply cons_inj in E; destruct E as (<- & _); unfold space; lia|discriminate|exact He].
      cbn [encoding_ok]. assert (Ed : is_alpha d = true) by (unfold letter in Ld; unfold is_alpha; lia). rewrite Ed. reflexivity. }
  rewrite P2.
  assert (P3 : match pseudo (lit "standalone") (a ++ b ++ lit "?>" ++ r) with Some (v, s4) => if (str_eqb v (lit "yes") || str_eqb v (lit "no"))%bool then Some s4 else None | None => Some (a ++ b ++ lit "?>" ++ r) end = Some (b ++ lit "?>" ++ r)).
  { assert (W : forall x y, lit "standalone" = x :: y -> ~ space x) by (intros x y E; change (115%N :: lit "tandalone" = x :: y) in E; apply cons_inj in E; destruct E as (<- & _); unfold space; lia).
    destruct Ha as [-> |[Ha|Ha]].
    - cbn [app]. rewrite (pseudo_other (lit "standalone") b (lit "?>" ++ r) Hb (mark_head r _ eq_refl) eq_refl). reflexivity.
    - rewrite (pseudo_set _ _ _ _ W ltac:(discriminate) Ha). reflexivity.
    - rewrite (pseudo_set _ _ _ _ W ltac:(discriminate) Ha). reflexivity. }
  rewrite P3, (skip_blank b _ Hb (mark_head r _ eq_refl)). apply after_word_app.
Qed.
(* texts that do not start with <?xml and white space *)
Definition unannounced (s : list N) : Prop := forall c r, s = lit "<?xml" ++ c :: r -> ~ space c.
Lemma undeclared_not s : unannounced s -> undeclared s = Some s.
Proof.
  intros H. unfold undeclared, after_word. destruct (starts_with (lit "<?xml") s) eqn:E; [|reflexivity].
  assert (K : forall w s, starts_with w s = true -> s = w ++ skipn (length w) s).
  { clear. induction w as [|c w IH]; intros s; [reflexivity|]. destruct s as [|d s]; [discriminate|]. cbn [starts_with]. rewrite Bool.andb_true_iff, N.eqb_eq. intros (-> & H). cbn [length skipn app]. f_equal. exact (IH s H). }
  apply K in E. destruct (skipn (length (lit "<?xml")) s) as [|c r]; [reflexivity|]. rewrite (space_not c (H c r E)). reflexivity.
Qed.
Lemma element_head e x r : element e x -> exists c t, e ++ r = 60%N :: c :: t /\ name_first c.
Proof.
  intros H. destruct H as [n s a b W _ _ _|n s a b c t l b' W _ _ _ _ _]; (destruct n as [|d n]; [destruct W|]); destruct W as (W & _); exists d; eexists; (split; [reflexivity|exact W]).
Qed.
Lemma quiet m e x r : misc m -> element e x -> unannounced (m ++ e ++ r) /\ exists c t, m ++ e ++ r = c :: t /\ c <> 65279%N.
Proof.
  intros M E. destruct M as [|c s Sp M|m s H M|m s H M].
  - cbn [app]. destruct (element_head e x r E) as (c & t & -> & Nf). split; [|exists 60%N; eexists; split; [reflexivity|discriminate]].
    intros d u Eq. change (60%N :: c :: t = 60 :: 63 :: 120 :: 109 :: 108 :: d :: u)%N in Eq. apply cons_inj in Eq. destruct Eq as (_ & Eq). apply cons_inj in Eq. destruct Eq as (-> & _). exfalso. unfold name_first in Nf. lia.
  - cbn [app]. split; [|exists c; eexists; split; [reflexivity|unfold space in Sp; lia]]. intros d u Eq. change (lit "<?xml" ++ d :: u) with (60 :: 63 :: 120 :: 109 :: 108 :: d :: u)%N in Eq. apply cons_inj in Eq. destruct Eq as (-> & _). exfalso. unfold space in Sp. lia.
  - destruct H as (b & -> & _). rewrite <- !app_assoc. split; [|exists 60%N; eexists; split; [reflexivity|discriminate]]. intros d u Eq. discriminate Eq.
  - destruct H as (n & b & -> & Hn & Hr & _ & Hb & _). rewrite <- !app_assoc. split; [|exists 60%N; eexists; split; [reflexivity|discriminate]].
    intros d u Eq Sp. change (lit "<?") with [60; 63]%N in Eq. change (lit "<?xml" ++ d :: u) with (60 :: 63 :: 120 :: 109 :: 108 :: d :: u)%N in Eq. cbn [app] in Eq.
    apply cons_inj in Eq. destruct Eq as (_ & Eq). apply cons_inj in Eq. destruct Eq as (_ & Eq).
    assert (Hb' : forall y z t, b ++ lit "?>" ++ t = y :: z -> ~ name_more y).
    { intros y z t Ey. change (lit "?>" ++ t) with (63%N :: 62%N :: t) in Ey. destruct Hb as [-> |(k & b' & -> & Sk)]; apply cons_inj in Ey; destruct Ey as (<- & _); unfold name_more, name_first; [|unfold space in Sk]; lia. }
    assert (L : forall y, (97 <= y <= 122)%N -> name_more y) by (intros y Hy; left; unfold name_first; lia).
    destruct n as [|x0 [|m0 [|l0 [|y0 n]]]]; cbn [app] in Eq; [destruct Hn|..].
    + apply cons_inj in Eq. destruct Eq as (_ & Eq). apply (Hb' _ _ _ Eq), L. lia.
    + apply cons_inj in Eq. destruct Eq as (_ & Eq). apply cons_inj in Eq. destruct Eq as (_ & Eq). apply (Hb' _ _ _ Eq), L. lia.
    + apply cons_inj in Eq. destruct Eq as (-> & Eq). apply cons_inj in Eq. destruct Eq as (-> & Eq). apply cons_inj in Eq. destruct Eq as (-> & _). apply Hr. exists 120%N, 109%N, 108%N. cbn [In]. tauto.
    + apply cons_inj in Eq. destruct Eq as (-> & Eq). apply cons_inj in Eq. destruct Eq as (-> & Eq). apply cons_inj in Eq. destruct Eq as (-> & Eq). apply cons_inj in Eq. destruct Eq as (-> & _).
      destruct Hn as (_ & Hn). apply Forall_inv_tail, Forall_inv_tail, Forall_inv in Hn. unfold name_more, name_first in Hn. unfold space in Sp. lia.
Qed.
Lemma markup_read s x : markup s x -> exists s', undeclared s = Some s' /\ run s' (Before, []) = (After x, []) /\ exists c t, s = c :: t /\ c <> 65279%N.
Proof.
  intros (d & m & e & m' & -> & D & M & E & M'). exists (m ++ e ++ m').
  destruct (quiet m e x m' M E) as (Q1 & Q2). split; [|split].
  - destruct D as [-> |(v & e' & a & b & -> & Hv & He & Ha & Hb)]; [exact (undeclared_not _ Q1)|exact (undeclared_set v e' a b _ Hv He Ha Hb)].
  - rewrite run_app, (run_misc m M None), run_app. destruct (run_element e x E []) as (s & -> & R). rewrite run_cons. change (step (Before, []) 60) with (Lt, @nil frame). rewrite R. cbn [add_kid].
    exact (run_misc m' M' (Some x)).
  - destruct D as [-> |(v & e' & a & b & -> & _)]; [exact Q2|]. rewrite <- !app_assoc. exists 60%N. eexists. split; [reflexivity|discriminate].
Qed.
