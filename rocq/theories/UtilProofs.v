From Coq Require Import Lia ZifyBool ZifyNat ZifyN.
From Verif Require Import Base BaseProofs Lit NumModel NumProofs UtilModel UtilSpec.
Ltac Zify.zify_post_hook ::= Z.div_mod_to_equations.

(* ---- versions ---- *)
Lemma number_value s : number s = value_from 0 s.
Proof.
  induction s as [|c s IH]; [reflexivity|]. cbn [number value_from].
  rewrite value_from_acc, IH. reflexivity.
Qed.

Lemma dotted_join ps : dotted ps = join [46%N] ps.
Proof. induction ps as [|p ps IH]; [reflexivity|]. destruct ps as [|q ps]; [reflexivity|]. cbn [dotted join app] in *. now rewrite IH. Qed.

Lemma digit_string_int s : digit_string s -> py_int s = Ok (Z.of_N (number s)).
Proof. intros [Hn H]. rewrite number_value. apply py_int_digits; assumption. Qed.

Lemma digit_string_nodot s : digit_string s -> ~ In 46%N s.
Proof. intros [_ H] K. rewrite Forall_forall in H. specialize (H _ K). cbv beta in H. lia. Qed.

Lemma split_dotted ps : version_parts ps -> split_on 46 (dotted ps) = ps.
Proof.
  intros [Hn H]. rewrite dotted_join. apply split_join; [exact Hn|].
  eapply Forall_impl; [|exact H]. intros a. apply digit_string_nodot.
Qed.

Fixpoint cmp_parts (vs rs : list N) : bool :=
  match vs, rs with
  | v :: vs', r :: rs' => if N.ltb v r then false else if N.ltb r v then true else cmp_parts vs' rs'
  | _, _ => true
  end.

Lemma version_loop_ok vs : forall rs, length vs = length rs ->
  Forall digit_string vs -> Forall digit_string rs ->
  version_loop vs rs = Ok (cmp_parts (map number vs) (map number rs)).
Proof.
  induction vs as [|v vs IH]; intros [|r rs] Hl Hv Hr; cbn [length] in Hl; try lia; [reflexivity|].
  cbn [version_loop map cmp_parts].
  rewrite (digit_string_int r (Forall_inv Hr)), (digit_string_int v (Forall_inv Hv)). cbn [bind].
  replace (Z.of_N (number v) <? Z.of_N (number r))%Z with (number v <? number r)%N by lia.
  replace (Z.of_N (number r) <? Z.of_N (number v))%Z with (number r <? number v)%N by lia.
  destruct (N.ltb (number v) (number r)); [reflexivity|].
  destruct (N.ltb (number r) (number v)); [reflexivity|].
  apply IH; [lia|exact (Forall_inv_tail Hv)|exact (Forall_inv_tail Hr)].
Qed.

Lemma pad_digit n ps : Forall digit_string ps -> Forall digit_string (pad_parts n ps).
Proof.
  intros H. unfold pad_parts. apply Forall_app. split; [exact H|].
  apply Forall_forall. intros x Hx. apply repeat_spec in Hx. subst x.
  split; [discriminate|]. apply Forall_cons; [lia|apply Forall_nil].
Qed.

Lemma pad_length n ps : (length ps <= n)%nat -> length (pad_parts n ps) = n.
Proof. intros H. unfold pad_parts. rewrite app_length, repeat_length. lia. Qed.

Lemma pad_component n ps i : component (pad_parts n ps) i = component ps i.
Proof.
  unfold component, pad_parts. destruct (Nat.lt_ge_cases i (length ps)) as [Hi|Hi].
  - now rewrite app_nth1.
  - rewrite app_nth2 by exact Hi. rewrite (nth_overflow ps) by exact Hi.
    destruct (Nat.lt_ge_cases (i - length ps) (n - length ps)) as [Hj|Hj].
    + assert (E : forall m k, (k < m)%nat -> nth k (repeat ([48%N] : list N) m) [] = [48%N]).
      { clear. induction m as [|m IH]; intros k Hk; [lia|]. cbn [repeat]. destruct k; [reflexivity|]. cbn [nth]. apply IH. lia. }
      rewrite E by exact Hj. reflexivity.
    + rewrite nth_overflow; [reflexivity|]. rewrite repeat_length. exact Hj.
Qed.

Lemma component_map ps i : component ps i = nth i (map number ps) 0%N.
Proof. unfold component. change 0%N with (number []). now rewrite map_nth. Qed.

Lemma cmp_parts_older vs : forall rs, length vs = length rs ->
  (cmp_parts vs rs = false <->
   exists i, (forall j, (j < i)%nat -> nth j vs 0%N = nth j rs 0%N) /\ (nth i vs 0 < nth i rs 0)%N).
Proof.
  induction vs as [|v vs IH]; intros [|r rs] Hl; cbn [length] in Hl; try lia.
  - cbn [cmp_parts]. split; [discriminate|]. intros (i & _ & H). destruct i; cbn [nth] in H; lia.
  - cbn [cmp_parts]. destruct (N.ltb_spec v r) as [Hlt|Hge].
    + split; [|reflexivity]. intros _. exists 0%nat. split; [intros j Hj; lia|exact Hlt].
    + destruct (N.ltb_spec r v) as [Hgt|Hle].
      * split; [discriminate|]. intros (i & Hj & Hi). destruct i as [|i].
        -- cbn [nth] in Hi. lia.
        -- specialize (Hj 0%nat ltac:(lia)). cbn [nth] in Hj. lia.
      * assert (v = r) by lia. subst r. rewrite IH by lia. split.
        -- intros (i & Hj & Hi). exists (S i). split; [|exact Hi].
           intros [|j] Hlt; [reflexivity|]. cbn [nth]. apply Hj. lia.
        -- intros (i & Hj & Hi). destruct i as [|i]; [cbn [nth] in Hi; lia|].
           exists i. split; [|exact Hi]. intros j Hlt. exact (Hj (S j) ltac:(lia)).
Qed.

Lemma version_compare v r : version_parts v -> version_parts r ->
  exists b, version_equal_or_newer (dotted v) (dotted r) = Ok b /\ (b = false <-> older v r).
Proof.
  intros Hv Hr. unfold version_equal_or_newer. rewrite (split_dotted v Hv), (split_dotted r Hr).
  destruct Hv as [_ Hv]. destruct Hr as [_ Hr]. cbv zeta.
  set (v' := if Nat.ltb (length v) (length r) then pad_parts (length r) v else v).
  assert (Lv : length v' = Nat.max (length v) (length r)).
  { unfold v'. destruct (Nat.ltb_spec (length v) (length r)); [rewrite pad_length|]; lia. }
  assert (Fv : Forall digit_string v') by (unfold v'; destruct (Nat.ltb _ _); [apply pad_digit|]; assumption).
  assert (Cv : forall i, component v' i = component v i) by (intros i; unfold v'; destruct (Nat.ltb _ _); [apply pad_component|reflexivity]).
  clearbody v'.
  set (r' := if Nat.ltb (length r) (length v') then pad_parts (length v') r else r).
  assert (Lr : length r' = Nat.max (length v) (length r)).
  { unfold r'. rewrite Lv. destruct (Nat.ltb_spec (length r) (Nat.max (length v) (length r))); [rewrite pad_length|]; lia. }
  assert (Fr : Forall digit_string r') by (unfold r'; destruct (Nat.ltb _ _); [apply pad_digit|]; assumption).
  assert (Cr : forall i, component r' i = component r i) by (intros i; unfold r'; destruct (Nat.ltb _ _); [apply pad_component|reflexivity]).
  clearbody r'.
  exists (cmp_parts (map number v') (map number r')). split.
  - apply version_loop_ok; [congruence|exact Fv|exact Fr].
  - rewrite cmp_parts_older by (rewrite !map_length; congruence). unfold older.
    split; intros (i & Hj & Hi); exists i; (split; [intros j Hlt; specialize (Hj j Hlt)|]).
    + rewrite <- !component_map, Cv, Cr in Hj. exact Hj.
    + rewrite <- !component_map, Cv, Cr in Hi. exact Hi.
    + rewrite <- !component_map, Cv, Cr. exact Hj.
    + rewrite <- !component_map, Cv, Cr. exact Hi.
Qed.

(* order facts *)
Lemma older_irrefl v : ~ older v v.
Proof. intros (i & _ & H). lia. Qed.

Lemma older_trans a b c : older a b -> older b c -> older a c.
Proof.
  intros (i & Hi & Li) (k & Hk & Lk). destruct (Nat.lt_trichotomy i k) as [H|[H|H]].
  - exists i. split; [intros j Hj; rewrite Hi, Hk by lia; reflexivity|]. rewrite <- Hk by lia. exact Li.
  - subst k. exists i. split; [intros j Hj; rewrite Hi, Hk by lia; reflexivity|]. lia.
  - exists k. split; [intros j Hj; rewrite Hi, Hk by lia; reflexivity|]. rewrite Hi by lia. exact Lk.
Qed.

(* negative transitivity: "not older" composes *)
Lemma older_split a b c : older a c -> older a b \/ older b c.
Proof.
  intros (i & Hi & Li).
  assert (D : (forall j, (j < i)%nat -> component b j = component a j) \/
              exists j, (j < i)%nat /\ component b j <> component a j /\ forall k, (k < j)%nat -> component b k = component a k).
  { clear Li Hi. induction i as [|i IH]; [left; intros j Hj; lia|].
    destruct IH as [IH|(j & Hj & Hne & Hk)].
    - destruct (N.eq_dec (component b i) (component a i)) as [E|E].
      + left. intros j Hj. destruct (Nat.eq_dec j i) as [->|]; [exact E|apply IH; lia].
      + right. exists i. split; [lia|]. split; [exact E|exact IH].
    - right. exists j. split; [lia|]. split; [exact Hne|exact Hk]. }
  destruct D as [D|(j & Hj & Hne & Hk)].
  - destruct (N.lt_ge_cases (component a i) (component b i)) as [H|H].
    + left. exists i. split; [|exact H]. intros j Hj. symmetry. now apply D.
    + right. exists i. split; [|lia]. intros j Hj. rewrite D by exact Hj. now apply Hi.
  - destruct (N.lt_ge_cases (component a j) (component b j)) as [H|H].
    + left. exists j. split; [|exact H]. intros k Hlt. symmetry. now apply Hk.
    + right. exists j. split; [|rewrite <- Hi by exact Hj; lia]. intros k Hlt. rewrite Hk by exact Hlt. apply Hi. lia.
Qed.

Lemma version_true v r : version_parts v -> version_parts r ->
  (version_equal_or_newer (dotted v) (dotted r) = Ok true <-> ~ older v r).
Proof.
  intros Hv Hr. destruct (version_compare v r Hv Hr) as (b & E & D). rewrite E. split.
  - intros K H. apply Ok_inj in K. subst b. apply D in H. discriminate.
  - intros K. destruct b; [reflexivity|]. exfalso. apply K, D. reflexivity.
Qed.

Lemma version_false v r : version_parts v -> version_parts r ->
  (version_equal_or_newer (dotted v) (dotted r) = Ok false <-> older v r).
Proof.
  intros Hv Hr. destruct (version_compare v r Hv Hr) as (b & E & D). rewrite E. rewrite <- D. split.
  - intros K. now apply Ok_inj in K.
  - intros ->. reflexivity.
Qed.

(* an empty version cannot be compared with a numeric reference *)
Lemma version_empty_error r : version_parts r -> version_equal_or_newer [] (dotted r) = Err ValueError.
Proof.
  intros Hr. unfold version_equal_or_newer. rewrite (split_dotted r Hr). destruct Hr as [Hn H]. cbv zeta.
  cbn [split_on]. change (split_on 46 []) with ([[]] : list (list N)).
  destruct r as [|r0 rs]; [congruence|].
  assert (E0 : py_int r0 = Ok (Z.of_N (number r0))) by (apply digit_string_int; exact (Forall_inv H)).
  destruct rs as [|r1 rs].
  - cbn [length Nat.ltb Nat.leb version_loop]. rewrite E0. reflexivity.
  - set (vs := if Nat.ltb _ _ then _ else _).
    assert (Ev : exists t, vs = [] :: t /\ length vs = S (S (length rs))).
    { unfold vs. cbn [length]. replace (Nat.ltb 1 (S (S (length rs)))) with true by (symmetry; apply Nat.ltb_lt; lia).
      exists (repeat [48%N] (S (S (length rs)) - 1)). split; [reflexivity|]. rewrite pad_length; [reflexivity|]. cbn [length]. lia. }
    destruct Ev as (t & Et & El). rewrite El. cbn [length]. rewrite Nat.ltb_irrefl. rewrite Et.
    cbn [version_loop]. rewrite E0. reflexivity.
Qed.

(* ---- scripts ---- *)
Lemma blank_is_space c : blank c <-> is_space c = true.
Proof.
  split.
  - unfold blank. intros H. cbn [In] in H. unfold is_space.
    repeat (destruct H as [<-|H]; [reflexivity|]). destruct H.
  - intros H. unfold is_space in H. unfold blank. cbn [In].
    assert (D : (c = 9 \/ c = 10 \/ c = 11 \/ c = 12 \/ c = 13 \/ c = 28 \/ c = 29 \/ c = 30 \/ c = 31 \/ c = 32 \/
                c = 133 \/ c = 160 \/ c = 5760 \/ c = 8192 \/ c = 8193 \/ c = 8194 \/ c = 8195 \/ c = 8196 \/ c = 8197 \/
                c = 8198 \/ c = 8199 \/ c = 8200 \/ c = 8201 \/ c = 8202 \/ c = 8232 \/ c = 8233 \/ c = 8239 \/ c = 8287 \/ c = 12288)%N) by lia.
    repeat (destruct D as [->|D]; [tauto|]). subst c. tauto.
Qed.

Lemma break_is_break c : line_break c <-> is_break c = true.
Proof.
  split.
  - unfold line_break. intros H. cbn [In] in H. unfold is_break.
    repeat (destruct H as [<-|H]; [reflexivity|]). destruct H.
  - intros H. unfold is_break in H. unfold line_break. cbn [In].
    assert (D : (c = 10 \/ c = 11 \/ c = 12 \/ c = 13 \/ c = 28 \/ c = 29 \/ c = 30 \/ c = 133 \/ c = 8232 \/ c = 8233)%N) by lia.
    repeat (destruct D as [->|D]; [tauto|]). subst c. tauto.
Qed.

Lemma blanks_forallb s : blanks s -> forallb is_space s = true.
Proof. intros H. apply forallb_forall. intros x Hx. apply blank_is_space. unfold blanks in H. rewrite Forall_forall in H. now apply H. Qed.

Lemma one_line_no_break l c : one_line l -> In c l -> is_break c = false.
Proof.
  intros H Hc. unfold one_line in H. rewrite Forall_forall in H. specialize (H c Hc). cbv beta in H.
  destruct (is_break c) eqn:E; [|reflexivity]. apply break_is_break in E. contradiction.
Qed.

Lemma splitlines_line l : one_line l -> forall cur rest,
  splitlines_aux cur (l ++ 10%N :: rest) = (rev cur ++ l) :: splitlines_aux [] rest.
Proof.
  induction l as [|c l IH]; intros H cur rest.
  - cbn [app splitlines_aux]. change (is_break 10) with true. cbv iota. rewrite app_nil_r. f_equal.
    destruct rest as [|d rest]; [reflexivity|]. change (N.eqb 10 13) with false. reflexivity.
  - cbn [app splitlines_aux]. rewrite (one_line_no_break (c :: l) c H (or_introl eq_refl)).
    rewrite IH by exact (Forall_inv_tail H). cbn [rev]. now rewrite <- app_assoc.
Qed.

Lemma splitlines_text ls : Forall one_line ls -> splitlines (text_of ls) = ls.
Proof.
  unfold splitlines, text_of. induction ls as [|l ls IH]; intros H; [reflexivity|].
  cbn [map concat]. rewrite <- app_assoc. cbn [app].
  rewrite splitlines_line by exact (Forall_inv H). cbn [rev app]. f_equal. apply IH. exact (Forall_inv_tail H).
Qed.

Lemma splitlines_last ls l : Forall one_line ls -> one_line l -> l <> [] ->
  splitlines (text_of ls ++ l) = ls ++ [l].
Proof.
  unfold splitlines, text_of. intros H Hl Hn. induction ls as [|a ls IH].
  - cbn [map concat app].
    assert (G : forall s cur, one_line s -> rev cur ++ s <> [] -> splitlines_aux cur s = [rev cur ++ s]).
    { induction s as [|c s IHs]; intros cur Hs Hne.
      - rewrite app_nil_r in *. cbn [splitlines_aux]. destruct cur; [now destruct Hne|reflexivity].
      - cbn [splitlines_aux]. rewrite (one_line_no_break (c :: s) c Hs (or_introl eq_refl)).
        rewrite IHs; [cbn [rev]; now rewrite <- app_assoc|exact (Forall_inv_tail Hs)|].
        cbn [rev]. rewrite <- app_assoc. destruct (rev cur); discriminate. }
    apply (G l []); [exact Hl|exact Hn].
  - cbn [map concat]. rewrite <- !app_assoc. cbn [app].
    rewrite splitlines_line by exact (Forall_inv H). cbn [rev app]. f_equal. apply IH. exact (Forall_inv_tail H).
Qed.

Lemma strip_app_blanks a s b : blanks a -> blanks b -> py_strip (a ++ s ++ b) = py_strip s.
Proof.
  intros Ha Hb. apply blanks_forallb in Ha. apply blanks_forallb in Hb. unfold py_strip, strip_by.
  rewrite drop_while_app, Ha. rewrite drop_while_app.
  destruct (forallb is_space s) eqn:E.
  - rewrite (drop_while_all _ b Hb), (drop_while_all _ s E). reflexivity.
  - rewrite rev_app_distr, drop_while_app.
    replace (forallb is_space (rev b)) with true; [reflexivity|].
    symmetry. apply forallb_forall. intros x Hx. rewrite forallb_forall in Hb. apply Hb. now apply in_rev.
Qed.

Lemma trimmed_strip s : trimmed s -> py_strip s = s.
Proof.
  intros [H1 H2]. apply strip_by_id.
  - destruct s as [|c s]; [exact I|]. cbn [head_ok]. destruct (is_space c) eqn:E; [|reflexivity].
    apply blank_is_space in E. now destruct (H1 c s eq_refl).
  - unfold last_ok. destruct (rev s) as [|c r] eqn:E; [exact I|]. cbn [head_ok].
    destruct (is_space c) eqn:Ec; [|reflexivity]. apply blank_is_space in Ec.
    assert (s = rev r ++ [c]) by (rewrite <- (rev_involutive s), E; reflexivity).
    now destruct (H2 _ _ H).
Qed.

Lemma starts_with_spec p : forall s, starts_with p s = true <-> prefix_of p s.
Proof.
  unfold prefix_of. induction p as [|x p IH]; intros s; cbn [starts_with app].
  - split; [intros _; now exists s|reflexivity].
  - destruct s as [|y s].
    + split; [discriminate|]. intros (t & H). discriminate.
    + rewrite Bool.andb_true_iff, N.eqb_eq, IH. split.
      * intros (-> & t & ->). now exists t.
      * intros (t & H). injection H as -> ->. split; [reflexivity|now exists t].
Qed.

Lemma ends_with_spec p s : ends_with p s = true <-> suffix_of p s.
Proof.
  unfold ends_with. rewrite starts_with_spec. unfold prefix_of, suffix_of. split.
  - intros (t & H). exists (rev t). rewrite <- (rev_involutive s), H, rev_app_distr, rev_involutive. reflexivity.
  - intros (t & ->). exists (rev t). apply rev_app_distr.
Qed.

(* a non-blank character in front survives stripping at the left *)
Lemma strip_head c s : is_space c = false -> exists t, py_strip (c :: s) = c :: t.
Proof.
  intros Hc. destruct (strip_by_spec is_space (c :: s)) as (a & b & H & Fa & Fb & _).
  destruct a as [|x a].
  - cbn [app] in H. unfold py_strip. destruct (strip_by is_space (c :: s)) as [|y t] eqn:E.
    + cbn [app] in H. rewrite <- H in Fb. cbn [forallb] in Fb. rewrite Hc in Fb. discriminate.
    + cbn [app] in H. exists t. congruence.
  - cbn [app] in H. cbn [forallb] in Fa. assert (x = c) by congruence. subst x. rewrite Hc in Fa. discriminate.
Qed.

Lemma strip_head_app a c s : blanks a -> is_space c = false -> py_strip (a ++ c :: s) = py_strip (c :: s).
Proof. intros Ha Hc. rewrite <- (app_nil_r (c :: s)) at 1. apply strip_app_blanks; [exact Ha|apply Forall_nil]. Qed.

(* the stripped form of pre <# body starts with <# *)
Lemma strip_block_start pre body : blanks pre -> starts_with [60; 35]%N (py_strip (pre ++ lit "<#" ++ body)) = true.
Proof.
  intros Hp. change (lit "<#" ++ body) with (60%N :: 35%N :: body).
  rewrite strip_head_app by (auto; reflexivity).
  destruct (strip_by_spec is_space (60%N :: 35%N :: body)) as (a & b & H & Fa & Fb & _).
  unfold py_strip. set (t := strip_by is_space (60%N :: 35%N :: body)) in *.
  destruct a as [|x a].
  - cbn [app] in H. destruct t as [|y t]; [cbn [app] in H; rewrite <- H in Fb; discriminate|].
    destruct t as [|z t].
    + cbn [app] in H. assert (Eb : b = 35%N :: body) by congruence. rewrite Eb in Fb. discriminate.
    + cbn [app] in H. assert (y = 60%N) by congruence. assert (z = 35%N) by congruence. subst y z. reflexivity.
  - cbn [app forallb] in *. assert (x = 60%N) by congruence. subst x. discriminate.
Qed.

Lemma strip_end last post : blanks post -> ends_with [35; 62]%N (py_strip (last ++ lit "#>" ++ post)) = true.
Proof.
  intros Hp. apply ends_with_spec.
  change (lit "#>") with ([35; 62]%N). rewrite app_assoc.
  rewrite <- (app_nil_l ((last ++ [35; 62]%N) ++ post)). rewrite strip_app_blanks by (auto; apply Forall_nil).
  destruct (strip_by_spec is_space (last ++ [35; 62]%N)) as (a & b & H & Fa & Fb & _).
  unfold py_strip. set (t := strip_by is_space (last ++ [35; 62]%N)) in *.
  assert (b = []).
  { destruct b as [|x b] using rev_ind; [reflexivity|]. clear IHb.
    rewrite forallb_app in Fb. cbn [forallb] in Fb.
    assert (E : 62%N = x).
    { apply (f_equal (fun l => List.last l 0%N)) in H. rewrite !app_assoc in H. rewrite last_last in H.
      change [35; 62]%N with ([35] ++ [62])%N in H. rewrite app_assoc, last_last in H. exact H. }
    subst x. destruct (forallb is_space b); discriminate. }
  subst b. rewrite app_nil_r in H.
  destruct t as [|x t] using rev_ind.
  - rewrite app_nil_r in H. rewrite <- H, forallb_app in Fa. destruct (forallb is_space last); discriminate.
  - clear IHt. change ([35; 62])%N with ([35] ++ [62])%N in H. rewrite !app_assoc in H.
    apply app_inj_tail in H. destruct H as [H <-].
    destruct t as [|y t] using rev_ind.
    + rewrite app_nil_r in H. rewrite <- H, forallb_app in Fa. destruct (forallb is_space last); discriminate.
    + clear IHt. rewrite app_assoc in H. apply app_inj_tail in H. destruct H as [_ <-].
      exists t. rewrite <- app_assoc. reflexivity.
Qed.

Lemma not_end l : (forall a b, blanks b -> l <> a ++ lit "#>" ++ b) -> ends_with [35; 62]%N (py_strip l) = false.
Proof.
  intros H. destruct (ends_with [35; 62]%N (py_strip l)) eqn:E; [|reflexivity]. exfalso.
  apply ends_with_spec in E. destruct E as (t & E).
  destruct (strip_by_spec is_space l) as (a & b & Hl & _ & Fb & _).
  fold (py_strip l) in Hl. rewrite E in Hl. apply (H (a ++ t) b).
  - unfold blanks. apply Forall_forall. intros x Hx. apply blank_is_space. rewrite forallb_forall in Fb. now apply Fb.
  - rewrite Hl. rewrite <- !app_assoc. reflexivity.
Qed.

Lemma script_middle middle : forall rest,
  Forall (fun l => forall a b, blanks b -> l <> a ++ lit "#>" ++ b) middle ->
  script_lines true (middle ++ rest) = script_lines true rest.
Proof.
  induction middle as [|l middle IH]; intros rest H; [reflexivity|].
  cbn [app script_lines]. rewrite (not_end l (Forall_inv H)). cbn [negb]. apply IH. exact (Forall_inv_tail H).
Qed.

Lemma script_piece p rest : piece_ok p ->
  script_lines false (piece_lines p ++ rest) = kept p ++ script_lines false rest.
Proof.
  intros [Hl H]. destruct p as [pre body post|pre body post|pre|[pre body] middle [last post]]; cbn [piece_lines kept] in *.
  - destruct H as (Hpre & Hpost & Hn & Ht & H1 & H2). cbn [app script_lines].
    rewrite strip_app_blanks by assumption. rewrite (trimmed_strip body Ht). 
    destruct (starts_with [60; 35]%N body) eqn:E1; [apply starts_with_spec in E1; contradiction|].
    destruct (starts_with [35]%N body) eqn:E2; [apply starts_with_spec in E2; contradiction|].
    destruct body as [|c body]; [congruence|]. reflexivity.
  - cbn [app script_lines]. change (lit "#" ++ body ++ post) with (35%N :: (body ++ post)).
    rewrite strip_head_app by (auto; reflexivity).
    destruct (strip_head 35%N (body ++ post) eq_refl) as (t & ->).
    cbn [starts_with N.eqb Pos.eqb andb length Nat.eqb negb]. reflexivity.
  - cbn [app script_lines].
    assert (E : py_strip pre = []) by (apply strip_by_empty, blanks_forallb; exact H).
    rewrite E. reflexivity.
  - destruct H as (Hpre & Hpost & Hm). cbn [app script_lines].
    rewrite (strip_block_start pre body Hpre). rewrite <- app_assoc. rewrite script_middle by exact Hm.
    cbn [app script_lines]. rewrite (strip_end last post Hpost). reflexivity.
Qed.

Lemma script_pieces ps : Forall piece_ok ps ->
  script_lines false (concat (map piece_lines ps)) = concat (map kept ps).
Proof.
  induction ps as [|p ps IH]; intros H; [reflexivity|].
  cbn [map concat]. rewrite script_piece by exact (Forall_inv H). now rewrite IH by exact (Forall_inv_tail H).
Qed.

Lemma lines_joined_join ls : lines_joined ls = join [10%N] ls.
Proof. induction ls as [|p ps IH]; [reflexivity|]. destruct ps as [|q ps]; [reflexivity|]. cbn [lines_joined join app] in *. now rewrite IH. Qed.

Lemma script_load ps : Forall piece_ok ps ->
  get_pwsh_script (text_of (concat (map piece_lines ps))) = lines_joined (concat (map kept ps)).
Proof.
  intros H. unfold get_pwsh_script. rewrite splitlines_text.
  - rewrite script_pieces by exact H. now rewrite lines_joined_join.
  - apply Forall_forall. intros l Hl. apply in_concat in Hl. destruct Hl as (x & Hx & Hl).
    apply in_map_iff in Hx. destruct Hx as (p & <- & Hp). rewrite Forall_forall in H.
    destruct (H p Hp) as [K _]. rewrite Forall_forall in K. now apply K.
Qed.

(* whatever the script, only stripped code lines are kept, in order *)
Lemma script_lines_selection block ls : selection (script_lines block ls) (map py_strip ls).
Proof.
  revert block. induction ls as [|l ls IH]; intros block; cbn [script_lines map]; [constructor|].
  destruct block; [apply sel_skip, IH|].
  destruct (starts_with _ _); [apply sel_skip, IH|].
  destruct (_ && _)%bool; [apply sel_keep, IH|apply sel_skip, IH].
Qed.

Lemma script_lines_code block ls : Forall (fun l => l <> [] /\ ~ prefix_of (lit "#") l /\ ~ prefix_of (lit "<#") l /\ py_strip l = l) (script_lines block ls).
Proof.
  revert block. induction ls as [|l ls IH]; intros block; cbn [script_lines]; [constructor|].
  destruct block; [apply IH|].
  destruct (starts_with _ _) eqn:E1; [apply IH|].
  destruct (_ && _)%bool eqn:E2; [|apply IH].
  constructor; [|apply IH]. apply andb_prop in E2. destruct E2 as [E2 E3].
  split; [intros K; rewrite K in E2; discriminate|].
  split; [intros K; apply starts_with_spec in K; change (lit "#") with ([35]%N) in K; rewrite K in E3; discriminate|].
  split; [intros K; apply starts_with_spec in K; change (lit "<#") with ([60; 35]%N) in K; congruence|].
  apply strip_by_idem.
Qed.
