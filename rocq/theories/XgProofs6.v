(* The reader reads only texts the grammar allows: every step keeps what its
   states say. *)
From Coq Require Import Lia ZifyBool ZifyNat ZifyN.
From Verif Require Import Base BaseProofs Lit NumModel TextModel TextSpec XmlModel XtModel XtSpec XtProofs XgSpec XgProofs XgProofs4 XgProofs5.
Local Open Scope list_scope.

Ltac asc := rewrite <- ?app_assoc; reflexivity.
Lemma bad_inv s : inv s (Bad, []).
Proof. exact I. Qed.
Lemma dashes_apart b c : c <> 45%N -> ~ within [45%N; 45%N] b -> ~ within [45%N; 45%N] ((b ++ [c]) ++ [45%N]).
Proof.
  intros Nc W. intros H. change [45%N; 45%N] with ([45%N] ++ [45%N]) in H. apply within_snoc in H. destruct H as [H|(_ & u & E)].
  - apply within_snoc in H. destruct H as [H|(E & _)]; [exact (W H)|exact (Nc E)].
  - apply snoc_inj in E. destruct E as (_ & E). exact (Nc E).
Qed.
Lemma within_less p s t : ~ within p (s ++ t) -> ~ within p s.
Proof. intros H K. exact (H (within_front p s t K)). Qed.
Lemma nodup_snoc {A} (l : list A) x : NoDup l -> ~ In x l -> NoDup (l ++ [x]).
Proof. intros D Nx. apply NoDup_rev in D. rewrite <- (rev_involutive (l ++ [x])), rev_app_distr. apply NoDup_rev. cbn [rev app]. constructor; [rewrite <- in_rev; exact Nx|exact D]. Qed.
Lemma starts_with_app p s : starts_with p s = true -> exists t, s = p ++ t.
Proof.
  revert s. induction p as [|c p IH]; intros s H; [exists s; reflexivity|]. destruct s as [|d s]; [discriminate H|]. cbn [starts_with] in H. apply Bool.andb_true_iff in H. destruct H as (E & H).
  apply N.eqb_eq in E. subst. destruct (IH s H) as (t & ->). exists t. reflexivity.
Qed.

Lemma step_inv s st c : inv s st -> inv (s ++ [c]) (step st c).
Proof.
  destruct st as (m, fs). destruct m as [| |n|n a w|n a k|n a k|n a k|n a k q v|n a k q v r|n a|n|n|k|r|o d|o d|k|o n|o q|o|x|x|]; cbn [step]; intros H.
  - (* Before *) destruct H as (-> & M). destruct (is_ws c) eqn:E; [split; [reflexivity|]; apply misc_app; [exact M|]; apply mi_space; [apply space_ws; exact E|constructor]|].
    destruct (N.eqb_spec c 60) as [->|]; [|exact I]. exists s. split; [reflexivity|]. constructor. exact M.
  - (* Lt *) destruct H as (s0 & -> & St). destruct (N.eqb_spec c 47) as [->|].
    { destruct fs as [|f fs]; [exact I|]. exists s0. split; [asc|exact St]. }
    destruct (name_start c) eqn:E; [exists s0; split; [asc|]; split; [exact St|apply word_one; exact E]|].
    destruct (N.eqb_spec c 33) as [->|]; [exists s0; split; [asc|exact St]|]. destruct (N.eqb_spec c 63) as [->|]; [|exact I]. exists s0. split; [asc|]. split; [exact St|left; reflexivity].
  - (* OpenName *) destruct H as (s0 & -> & St & W). destruct (name_char c) eqn:E; [exists s0; split; [asc|]; split; [exact St|apply word_snoc; assumption]|].
    assert (T : tagged (s0 ++ [60%N] ++ n) fs n [] []).
    { exists s0, []. split; [cbn [app]; rewrite app_nil_r; reflexivity|]. split; [exact St|]. split; [exact W|]. split; constructor. }
    destruct (is_ws c) eqn:E1; [exists [c]; split; [exact (tagged_snoc _ _ _ _ _ c T)|]; split; [apply (blank_snoc [] c); [constructor|exact E1]|discriminate]|].
    destruct (N.eqb_spec c 62) as [->|]; [apply (open_inv _ _ _ _ [] T); constructor|]. destruct (N.eqb_spec c 47) as [->|]; [|exact I]. exists []. split; [exact (tagged_snoc _ _ _ _ _ 47%N T)|constructor].
  - (* InTag *) destruct H as (b & T & B & Wb). destruct (is_ws c) eqn:E1; [exists (b ++ [c]); split; [exact (tagged_snoc _ _ _ _ _ c T)|]; split; [apply blank_snoc; assumption|intros _; destruct b; discriminate]|].
    destruct (N.eqb_spec c 62) as [->|]; [exact (open_inv _ _ _ _ b T B)|]. destruct (N.eqb_spec c 47) as [->|]; [exists b; split; [exact (tagged_snoc _ _ _ _ _ 47%N T)|exact B]|].
    destruct (name_start c && w)%bool eqn:E2; [|exact I]. apply Bool.andb_true_iff in E2. destruct E2 as (E2 & ->). exists b. split; [|split; [split; [exact B|exact (Wb eq_refl)]|apply word_one; exact E2]].
    apply (tagged_to _ _ _ _ _ _ (tagged_snoc _ _ _ _ _ c T)). rewrite app_nil_r. reflexivity.
  - (* AttName *) destruct (name_char c) eqn:E.
    { destruct H as (g & T & G & W). exists g. split; [|split; [exact G|apply word_snoc; assumption]]. apply (tagged_to _ _ _ _ _ _ (tagged_snoc _ _ _ _ _ c T)). rewrite !app_nil_r. asc. }
    assert (T := named_snoc _ _ _ _ _ _ c H). destruct (is_ws c) eqn:E1; [exists [c]; split; [exact T|]; apply (blank_snoc [] c); [constructor|exact E1]|].
    destruct (N.eqb_spec c 61) as [->|]; [|exact I]. exists [], []. split; [exact T|]. split; constructor.
  - (* AttEq *) destruct H as (b & T & B). apply (named_snoc _ _ _ _ _ _ c) in T. destruct (is_ws c) eqn:E1; [exists (b ++ [c]); split; [exact T|apply blank_snoc; assumption]|].
    destruct (N.eqb_spec c 61) as [->|]; [|exact I]. exists b, []. split; [exact T|]. split; [exact B|constructor].
  - (* AttQuote *) destruct H as (b & b' & T & B & B'). apply (named_snoc _ _ _ _ _ _ c) in T. destruct (is_ws c) eqn:E1.
    { exists b, (b' ++ [c]). split; [apply (named_to _ _ _ _ _ _ _ T); asc|]. split; [exact B|apply blank_snoc; assumption]. }
    destruct (N.eqb c 34 || N.eqb c 39)%bool eqn:E2; [|exact I]. exists b, b', []. split; [apply (named_to _ _ _ _ _ _ _ T); asc|]. split; [exact B|]. split; [exact B'|].
    split; [|constructor]. apply Bool.orb_true_iff in E2. destruct E2 as [E2|E2]; apply N.eqb_eq in E2; [left|right]; exact E2.
  - (* AttVal *) destruct H as (b & b' & r & T & B & B' & Q & V). assert (T' := named_snoc _ _ _ _ _ _ c T). destruct (N.eqb_spec c q) as [->|Nq].
    { destruct (dict_get str_eqb k a) eqn:Eg; [exact I|]. destruct T as (g & (s0 & r0 & -> & St & W & A & D) & G & Wk). exists []. split; [|split; [constructor|discriminate]].
      exists s0, (r0 ++ g ++ k ++ b ++ [61%N] ++ b' ++ [q] ++ r ++ [q] ++ []). split; [asc|]. split; [exact St|]. split; [exact W|]. split.
      - apply attributed_app; [exact A|]. apply at_cons; try assumption. constructor.
      - rewrite map_app. cbn [map fst]. apply nodup_snoc; [exact D|apply dict_get_absent; exact Eg]. }
    destruct (N.eqb_spec c 60); [exact I|]. destruct (N.eqb_spec c 38) as [->|].
    { exists b, b', r. split; [apply (named_to _ _ _ _ _ _ _ T'); asc|]. split; [exact B|]. split; [exact B'|]. split; [exact Q|exact V]. }
    destruct (is_ws c) eqn:E1.
    { exists b, b', (r ++ [c]). split; [apply (named_to _ _ _ _ _ _ _ T'); asc|]. split; [exact B|]. split; [exact B'|]. split; [exact Q|]. apply valued_app; [exact V|]. apply va_space; [apply space_ws; exact E1|constructor]. }
    destruct (is_char c) eqn:E2; [|exact I].
    exists b, b', (r ++ [c]). split; [apply (named_to _ _ _ _ _ _ _ T'); asc|]. split; [exact B|]. split; [exact B'|]. split; [exact Q|]. apply valued_app; [exact V|].
    apply va_char; try assumption; [apply is_char_spec; exact E2|intros Sp; apply space_ws in Sp; rewrite Sp in E1; discriminate E1|constructor].
  - (* AttRef *) destruct H as (b & b' & r0 & T & B & B' & Q & V). apply (named_snoc _ _ _ _ _ _ c) in T. destruct (N.eqb_spec c 59) as [->|].
    { destruct (deref r) as [d|] eqn:E; [|exact I]. exists b, b', (r0 ++ [38%N] ++ r ++ [59%N]). split; [apply (named_to _ _ _ _ _ _ _ T); asc|]. split; [exact B|]. split; [exact B'|]. split; [exact Q|].
      apply valued_app; [exact V|]. rewrite <- (app_nil_r ([38%N] ++ r ++ [59%N])). apply va_ref; [exact (deref_refers r d E)|constructor]. }
    destruct (ref_char c); [|exact I]. exists b, b', r0. split; [apply (named_to _ _ _ _ _ _ _ T); asc|]. split; [exact B|]. split; [exact B'|]. split; [exact Q|exact V].
  - (* Slash *) destruct H as (b & (s0 & r & -> & St & W & A & D) & B). destruct (N.eqb_spec c 62) as [->|]; [|exact I].
    replace ((s0 ++ [60%N] ++ n ++ r ++ b ++ [47%N]) ++ [62%N]) with (s0 ++ ([60%N] ++ n ++ r ++ b ++ [47%N]) ++ [62%N]) by asc.
    apply kid_added; [exact St| |left; reflexivity|discriminate]. rewrite <- !app_assoc. exact (el_empty n r a b W A D B).
  - (* CloseName *) destruct H as (s0 & -> & St). destruct (name_char c); [exists s0; split; [asc|exact St]|]. destruct (is_ws c) eqn:E1; [exists s0, [c]; split; [asc|]; split; [exact St|apply (blank_snoc [] c); [constructor|exact E1]]|].
    destruct (N.eqb_spec c 62) as [->|]; [|exact I]. replace n with (n ++ []) at 1 by apply app_nil_r. apply close_inv; [exact St|constructor].
  - (* CloseEnd *) destruct H as (s0 & b & -> & St & B). destruct (is_ws c) eqn:E1; [exists s0, (b ++ [c]); split; [asc|]; split; [exact St|apply blank_snoc; assumption]|].
    destruct (N.eqb_spec c 62) as [->|]; [|exact I]. apply close_inv; assumption.
  - (* Text *) destruct H as (Ne & St & F). destruct fs as [|f fs]; [contradiction|]. cbn [add_chars]. destruct (N.eqb_spec c 60) as [->|N1]; [exists s; split; [reflexivity|exact St]|].
    destruct (N.eqb_spec c 38) as [->|N2]; [exists s; split; [asc|]; split; [exact St|discriminate]|].
    destruct (N.eqb_spec c 93) as [->|N3]; [split; [discriminate|]; split; [apply stack_char; try assumption; [apply is_char_spec; reflexivity|discriminate]|apply few_more; exact F]|].
    destruct (N.eqb c 62 && Nat.leb 2 k)%bool eqn:E; [exact I|]. destruct (is_char c) eqn:E2; [|exact I]. split; [discriminate|]. split; [|apply few_zero; exact N3].
    apply stack_char; try assumption; [apply is_char_spec; exact E2|]. intros ->. apply (few_weak k); [|exact F]. cbn [N.eqb Pos.eqb andb] in E. apply Nat.leb_gt in E. lia.
  - (* TextRef *) destruct H as (s0 & -> & St & Ne). destruct fs as [|f fs]; [contradiction|]. cbn [add_chars]. destruct (N.eqb_spec c 59) as [->|].
    { destruct (deref r) as [d|] eqn:E; [|exact I]. destruct (refers_marked _ _ (deref_refers r d E)) as (K & M). split; [discriminate|]. split; [|apply few_zero; discriminate].
      replace ((s0 ++ [38%N] ++ r) ++ [59%N]) with (s0 ++ (38%N :: r ++ [59%N])) by asc. apply stack_text; assumption. }
    destruct (ref_char c); [|exact I]. exists s0. split; [asc|]. split; [exact St|discriminate].
  - (* Bang *) destruct H as (s0 & -> & B). destruct (str_eqb (d ++ [c]) (lit "--")) eqn:E.
    { apply str_eqb_spec in E. exists s0, []. split; [cbn [repeat]; change (lit "<!--") with ([60%N; 33%N] ++ lit "--"); rewrite <- E, !app_nil_r; asc|]. split; [exact B|]. split; [constructor|].
      intros (u & v & Ew). assert (Z := f_equal (@length N) Ew). rewrite !app_length in Z. cbn [length app] in Z. lia. }
    destruct (str_eqb (d ++ [c]) (lit "[CDATA[")) eqn:E2.
    { apply str_eqb_spec in E2. destruct o as [x|]; [exact I|]. destruct fs as [|f fs]; [exact I|]. exists s0, [], f, f, fs. split; [reflexivity|]. split; [cbn [repeat]; change (lit "<![CDATA[") with ([60%N; 33%N] ++ lit "[CDATA["); rewrite <- E2, !app_nil_r; asc|].
      split; [exact B|]. split; [symmetry; apply add_text_nil|]. split; [constructor|]. split; [lia|]. split.
      - intros (u & v & Ew). assert (Z := f_equal (@length N) Ew). rewrite !app_length in Z. cbn [length app repeat lit] in Z. change (length (lit "]]>")) with 3%nat in Z. lia.
      - intros _ u j Ew. assert (Z := f_equal (@length N) Ew). rewrite !app_length, !repeat_length in Z. cbn [length] in Z. lia. }
    destruct (starts_with (d ++ [c]) (lit "--") || starts_with (d ++ [c]) (lit "[CDATA["))%bool; [|exact I]. exists s0. split; [asc|exact B].
  - (* Comment *) destruct H as (s0 & b & -> & B & F & W). destruct (N.eqb_spec c 45) as [->|Nc].
    { destruct d as [|[|d]]; [| |exact I]; exists s0, b; (split; [cbn [repeat app]; asc|]); (split; [exact B|]); split; assumption. }
    destruct d as [|[|[|d]]]; [| | |destruct W]; cbn [Nat.eqb repeat] in *.
    + destruct (is_char c) eqn:E; [|exact I]. exists s0, (b ++ [c]). cbn [repeat]. rewrite !app_nil_r. split; [asc|]. split; [exact B|]. split; [apply Forall_app; split; [exact F|constructor; [apply is_char_spec; exact E|constructor]]|].
      apply dashes_apart; [exact Nc|]. exact (within_less _ _ _ W).
    + destruct (is_char c) eqn:E; [|exact I]. exists s0, (b ++ [45%N; c]). cbn [repeat]. rewrite !app_nil_r. split; [asc|]. split; [exact B|].
      split; [apply Forall_app; split; [exact F|constructor; [apply is_char_spec; reflexivity|constructor; [apply is_char_spec; exact E|constructor]]]|].
      change [45%N; c] with ([45%N] ++ [c]). rewrite (app_assoc b). apply dashes_apart; assumption.
    + destruct (N.eqb_spec c 62) as [->|]; [|exact I]. assert (C : comment (lit "<!--" ++ b ++ lit "-->")) by (exists b; split; [reflexivity|split; assumption]). apply comment_ok in C. destruct C as (C1 & C2 & C3).
      replace ((s0 ++ lit "<!--" ++ b ++ [45%N; 45%N]) ++ [62%N]) with (s0 ++ (lit "<!--" ++ b ++ [45%N; 45%N]) ++ [62%N]) by asc.
      replace (lit "<!--" ++ b ++ lit "-->") with ((lit "<!--" ++ b ++ [45%N; 45%N]) ++ [62%N]) in C1, C2, C3 by asc. apply resumed; try assumption. discriminate.
  - (* CData *) destruct H as (s0 & b & f & f0 & fs' & -> & -> & St & -> & F & Lk & W & Fe). cbn [add_chars]. destruct (N.eqb_spec c 93) as [->|Nc].
    { destruct (Nat.eqb_spec k 2) as [->|Nk].
      - exists s0, (b ++ [93%N]), (add_text [93%N] (add_text b f0)), f0, fs'. split; [reflexivity|]. split; [cbn [repeat]; asc|]. split; [exact St|]. split; [apply add_text_app|].
        split; [apply Forall_app; split; [exact F|constructor; [apply is_char_spec; reflexivity|constructor]]|]. split; [lia|]. split; [|contradiction].
        intros Q. replace ((b ++ [93%N]) ++ repeat 93%N 2) with ((b ++ repeat 93%N 2) ++ [93%N]) in Q by (cbn [repeat]; asc). change (lit "]]>") with ([93%N; 93%N] ++ [62%N]) in Q. apply within_snoc in Q. destruct Q as [Q|(Q & _)]; [exact (W Q)|discriminate Q].
      - exists s0, b, (add_text b f0), f0, fs'. split; [reflexivity|].
        assert (Er : repeat 93%N (S k) = repeat 93%N k ++ [93%N]) by (change [93%N] with (repeat 93%N 1); rewrite <- repeat_app, Nat.add_comm; reflexivity). rewrite Er. split; [asc|]. split; [exact St|]. split; [reflexivity|]. split; [exact F|]. split; [lia|]. rewrite app_assoc. split.
        + intros Q. change (lit "]]>") with ([93%N; 93%N] ++ [62%N]) in Q. apply within_snoc in Q. destruct Q as [Q|(Q & _)]; [exact (W Q)|discriminate Q].
        + intros _. apply few_more. exact (Fe Nk). }
    destruct (N.eqb c 62 && Nat.eqb k 2)%bool eqn:E.
    { apply Bool.andb_true_iff in E. destruct E as (E1 & E2). apply N.eqb_eq in E1. apply Nat.eqb_eq in E2. subst. split; [discriminate|]. split; [|apply few_zero; discriminate].
      replace ((s0 ++ lit "<![CDATA[" ++ b ++ repeat 93%N 2) ++ [62%N]) with (s0 ++ (lit "<![CDATA[" ++ b ++ lit "]]>" ++ [])) by (rewrite app_nil_r; cbn [repeat]; asc).
      assert (K : content (lit "<![CDATA[" ++ b ++ lit "]]>" ++ []) (b ++ []) []) by (apply co_cdata; [exact F|exact (within_less _ _ _ W)|constructor]). rewrite (app_nil_r b) in K.
      apply stack_text; [exact St|exact K|left; reflexivity]. }
    destruct (is_char c) eqn:E2; [|exact I]. exists s0, (b ++ repeat 93%N k ++ [c]), (add_text (repeat 93%N k ++ [c]) (add_text b f0)), f0, fs'. split; [reflexivity|]. cbn [repeat]. rewrite !app_nil_r. split; [asc|].
    split; [exact St|]. split; [apply add_text_app|]. split.
    { apply Forall_app. split; [exact F|]. apply Forall_app. split; [apply Forall_forall; intros y Y; apply repeat_spec in Y; subst; apply is_char_spec; reflexivity|constructor; [apply is_char_spec; exact E2|constructor]]. }
    split; [lia|]. rewrite app_assoc. split; [|intros _; apply few_zero; exact Nc].
    intros Q. change (lit "]]>") with ([93%N; 93%N] ++ [62%N]) in Q. apply within_snoc in Q. destruct Q as [Q|(-> & u & Q)]; [exact (W Q)|].
    cbn [N.eqb Pos.eqb andb] in E. apply Nat.eqb_neq in E. specialize (Fe E u 2%nat Q). lia.
  - (* PiName *) destruct H as (s0 & -> & B & Nn). destruct n as [|d n].
    { destruct (name_start c) eqn:E; [|exact I]. exists s0. split; [asc|]. split; [exact B|]. right. split; [apply name_start_spec; exact E|constructor]. }
    destruct Nn as [Nn|Nn]; [discriminate Nn|]. destruct (nc_char c) eqn:E; [exists s0; split; [asc|]; split; [exact B|right; apply nc_snoc; assumption]|].
    destruct (reserved (d :: n)) eqn:E1; [exact I|]. assert (R : ~ xml_reserved (d :: n)) by (intros R; apply reserved_is in R; rewrite R in E1; discriminate E1).
    destruct (is_ws c) eqn:E2.
    { exists s0, (d :: n), [c]. apply space_ws in E2. split; [asc|]. split; [exact B|]. split; [exact Nn|]. split; [exact R|].
      assert (Nc : c <> 63%N) by (destruct E2 as [->|[->| ->]]; discriminate).
      split; [constructor; [destruct E2 as [->|[->| ->]]; apply is_char_spec; reflexivity|constructor]|]. split; [exists c, []; split; [reflexivity|exact E2]|]. split.
      - intros (u & v & Ew). assert (Z := f_equal (@length N) Ew). rewrite !app_length in Z. change (length (lit "?>")) with 2%nat in Z. cbn [length] in Z. lia.
      - intros _ (u & Eu). change [c] with ([] ++ [c]) in Eu. apply snoc_inj in Eu. destruct Eu as (_ & Eu). exact (Nc Eu). }
    destruct (N.eqb_spec c 63) as [->|]; [|exact I]. exists s0, (d :: n). split; [asc|]. split; [exact B|]. split; assumption.
  - (* Pi *) destruct H as (s0 & n & b & -> & B & Nn & R & F & Sp & W & Q). destruct (q && N.eqb c 62)%bool eqn:E.
    { apply Bool.andb_true_iff in E. destruct E as (-> & E). apply N.eqb_eq in E. subst c.
      assert (C : instruction (lit "<?" ++ n ++ b ++ lit "?>")) by (exists n, b; split; [reflexivity|]; split; [exact Nn|]; split; [exact R|]; split; [exact F|]; split; [right; exact Sp|exact W]).
      apply instruction_ok in C. destruct C as (C1 & C2 & C3).
      replace ((s0 ++ [60%N; 63%N] ++ n ++ b ++ [63%N]) ++ [62%N]) with (s0 ++ (lit "<?" ++ n ++ b ++ [63%N]) ++ [62%N]) by asc.
      replace (lit "<?" ++ n ++ b ++ lit "?>") with ((lit "<?" ++ n ++ b ++ [63%N]) ++ [62%N]) in C1, C2, C3 by asc. apply resumed; try assumption. discriminate. }
    (* the question mark that was read belongs to the body *)
    assert (B' : exists b', b' = b ++ (if q then [63%N] else []) /\ Forall xml_char b' /\ (exists d t, b' = d :: t /\ space d) /\ ~ within (lit "?>") b' /\ (c = 62%N -> ~ exists u, b' = u ++ [63%N])).
    { exists (b ++ (if q then [63%N] else [])). split; [reflexivity|]. split; [apply Forall_app; split; [exact F|destruct q; constructor; [apply is_char_spec; reflexivity|constructor]]|].
      split; [destruct Sp as (d & t & -> & Sp); exists d; eexists; split; [reflexivity|exact Sp]|]. destruct q; cbn [andb] in E.
      - split; [intros K; change (lit "?>") with ([63%N] ++ [62%N]) in K; apply within_snoc in K; destruct K as [K|(K & _)]; [exact (W K)|discriminate K]|]. intros ->. discriminate E.
      - rewrite app_nil_r. split; [exact W|]. intros _. exact (Q eq_refl). }
    destruct B' as (b' & Eb & F' & Sp' & W' & Q'). rewrite <- Eb. clear Eb.
    destruct (N.eqb_spec c 63) as [->|Nc].
    { exists s0, n, b'. split; [asc|]. split; [exact B|]. split; [exact Nn|]. split; [exact R|]. split; [exact F'|]. split; [exact Sp'|]. split; [exact W'|discriminate]. }
    destruct (is_char c) eqn:E2; [|exact I]. exists s0, n, (b' ++ [c]). rewrite app_nil_r. split; [asc|]. split; [exact B|]. split; [exact Nn|]. split; [exact R|].
    split; [apply Forall_app; split; [exact F'|constructor; [apply is_char_spec; exact E2|constructor]]|]. split; [destruct Sp' as (d & t & -> & Sp'); exists d; eexists; split; [reflexivity|exact Sp']|]. split.
    + intros K. change (lit "?>") with ([63%N] ++ [62%N]) in K. apply within_snoc in K. destruct K as [K|(K & u & Eu)]; [exact (W' K)|]. apply (Q' K). exists u. exact Eu.
    + intros _ (u & Eu). apply snoc_inj in Eu. destruct Eu as (_ & Eu). exact (Nc Eu).
  - (* PiEnd *) destruct H as (s0 & n & -> & B & Nn & R). destruct (N.eqb_spec c 62) as [->|]; [|exact I].
    assert (C : instruction (lit "<?" ++ n ++ [] ++ lit "?>")).
    { exists n, []. split; [reflexivity|]. split; [exact Nn|]. split; [exact R|]. split; [constructor|]. split; [left; reflexivity|]. intros (u & v & Ew). assert (Z := f_equal (@length N) Ew). rewrite !app_length in Z. change (length (lit "?>")) with 2%nat in Z. cbn [length] in Z. lia. }
    apply instruction_ok in C. destruct C as (C1 & C2 & C3).
    replace ((s0 ++ [60%N; 63%N] ++ n ++ [63%N]) ++ [62%N]) with (s0 ++ (lit "<?" ++ n ++ [63%N]) ++ [62%N]) by asc.
    replace (lit "<?" ++ n ++ [] ++ lit "?>") with ((lit "<?" ++ n ++ [63%N]) ++ [62%N]) in C1, C2, C3 by asc. apply resumed; try assumption. discriminate.
  - (* AfterLt *) destruct H as (-> & s0 & -> & D). destruct (N.eqb_spec c 33) as [->|]; [exists s0; split; [asc|]; split; [reflexivity|exact D]|].
    destruct (N.eqb_spec c 63) as [->|]; [|exact I]. exists s0. split; [asc|]. split; [split; [reflexivity|exact D]|left; reflexivity].
  - (* After *) destruct H as (-> & D). destruct (is_ws c) eqn:E.
    { split; [reflexivity|]. destruct D as (m & e & m' & -> & M & El & M'). exists m, e, (m' ++ [c]). split; [asc|]. split; [exact M|]. split; [exact El|]. apply misc_app; [exact M'|]. apply mi_space; [apply space_ws; exact E|constructor]. }
    destruct (N.eqb_spec c 60) as [->|]; [|exact I]. split; [reflexivity|]. exists s. split; [reflexivity|exact D].
  - exact I.
Qed.
Lemma run_inv t : forall s st, inv s st -> inv (s ++ t) (fold_left step t st).
Proof.
  induction t as [|c t IH]; intros s st H; [rewrite app_nil_r; exact H|]. cbn [fold_left]. replace (s ++ c :: t) with ((s ++ [c]) ++ t) by asc. apply IH. apply step_inv. exact H.
Qed.
