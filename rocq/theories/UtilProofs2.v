From Coq Require Import Lia ZifyBool ZifyNat ZifyN.
From Verif Require Import Base BaseProofs Lit NumModel NumProofs UtilModel UtilSpec UtilProofs.

Lemma version_numeric v r : version_parts v -> version_parts r ->
  (version_equal_or_newer (dotted v) (dotted r) = Ok true <-> ~ older v r) /\
  (version_equal_or_newer (dotted v) (dotted r) = Ok false <-> older v r).
Proof. intros Hv Hr. split; [now apply version_true|now apply version_false]. Qed.

Lemma version_reflexive v : version_parts v -> version_equal_or_newer (dotted v) (dotted v) = Ok true.
Proof. intros H. apply version_true; auto. apply older_irrefl. Qed.

Lemma version_transitive a b c : version_parts a -> version_parts b -> version_parts c ->
  version_equal_or_newer (dotted a) (dotted b) = Ok true ->
  version_equal_or_newer (dotted b) (dotted c) = Ok true ->
  version_equal_or_newer (dotted a) (dotted c) = Ok true.
Proof.
  intros Ha Hb Hc H1 H2. apply version_true in H1; auto. apply version_true in H2; auto.
  apply version_true; auto. intros H. destruct (older_split a b c H); contradiction.
Qed.

Lemma version_total a b : version_parts a -> version_parts b ->
  version_equal_or_newer (dotted a) (dotted b) = Ok true \/ version_equal_or_newer (dotted b) (dotted a) = Ok true.
Proof.
  intros Ha Hb. destruct (version_compare a b Ha Hb) as ([|] & E & D); [now left|]. right.
  apply version_true; auto. intros H. apply (older_irrefl a). apply older_trans with b; [now apply D|exact H].
Qed.

Lemma component_zeros v k i : component (v ++ repeat (lit "0") k) i = component v i.
Proof.
  pose proof (pad_component (length v + k) v i) as H. unfold pad_parts in H.
  replace (length v + k - length v)%nat with k in H by lia. exact H.
Qed.

Lemma version_padding v r k : version_parts v -> version_parts r ->
  version_equal_or_newer (dotted (v ++ repeat (lit "0") k)) (dotted r) = version_equal_or_newer (dotted v) (dotted r) /\
  version_equal_or_newer (dotted r) (dotted (v ++ repeat (lit "0") k)) = version_equal_or_newer (dotted r) (dotted v).
Proof.
  intros Hv Hr.
  assert (Hp : version_parts (v ++ repeat (lit "0") k)).
  { destruct Hv as [Hn H]. split; [destruct v; [congruence|discriminate]|].
    apply Forall_app. split; [exact H|]. apply Forall_forall. intros x Hx. apply repeat_spec in Hx. subst x.
    split; [discriminate|]. apply Forall_cons; [cbv; split; discriminate|apply Forall_nil]. }
  set (p := v ++ repeat (lit "0") k) in *.
  assert (C : forall i, component p i = component v i) by (intros i; apply component_zeros).
  split.
  - destruct (version_compare p r Hp Hr) as (b & E & D). destruct (version_compare v r Hv Hr) as (b' & E' & D').
    rewrite E, E'. f_equal.
    assert (O : older p r <-> older v r).
    { unfold older. split; intros (i & Hj & Hi); exists i; (split; [intros j Hlt; specialize (Hj j Hlt); rewrite C in *; exact Hj|rewrite C in *; exact Hi]). }
    destruct b, b'; try reflexivity; exfalso.
    + assert (true = false); [apply D, O, D'; reflexivity|discriminate].
    + assert (true = false); [apply D', O, D; reflexivity|discriminate].
  - destruct (version_compare r p Hr Hp) as (b & E & D). destruct (version_compare r v Hr Hv) as (b' & E' & D').
    rewrite E, E'. f_equal.
    assert (O : older r p <-> older r v).
    { unfold older. split; intros (i & Hj & Hi); exists i; (split; [intros j Hlt; specialize (Hj j Hlt); rewrite C in *; exact Hj|rewrite C in *; exact Hi]). }
    destruct b, b'; try reflexivity; exfalso.
    + assert (true = false); [apply D, O, D'; reflexivity|discriminate].
    + assert (true = false); [apply D', O, D; reflexivity|discriminate].
Qed.

(* ---- scripts ---- *)
Lemma strip_trimmed s : py_strip s = s -> trimmed s.
Proof.
  intros E. destruct (strip_by_spec is_space s) as (_ & _ & _ & _ & _ & H1 & H2). fold (py_strip s) in H1, H2.
  rewrite E in H1, H2. split.
  - intros c s' ->. cbn [head_ok] in H1. intros K. apply blank_is_space in K. congruence.
  - intros s' c ->. unfold last_ok in H2. rewrite rev_app_distr in H2. cbn [rev app head_ok] in H2.
    intros K. apply blank_is_space in K. congruence.
Qed.

Lemma selection_map {A B} (f : A -> B) ls : forall ks, selection ks (map f ls) ->
  exists cs, selection cs ls /\ ks = map f cs.
Proof.
  induction ls as [|l ls IH]; cbn [map]; intros ks H.
  - inversion H; subst. exists []. split; [constructor|reflexivity].
  - inversion H as [|x a b Hs|x a b Hs]; subst.
    + destruct (IH _ Hs) as (cs & Hc & ->). exists (l :: cs). split; [now constructor|reflexivity].
    + destruct (IH _ Hs) as (cs & Hc & ->). exists cs. split; [now constructor|reflexivity].
Qed.

Lemma forallb_blanks s : forallb is_space s = true -> blanks s.
Proof. intros H. apply Forall_forall. intros x Hx. apply blank_is_space. rewrite forallb_forall in H. now apply H. Qed.

Lemma script_only_lines lines : Forall one_line lines ->
  exists kept_lines : list (list N),
    get_pwsh_script (text_of lines) = lines_joined kept_lines /\
    Forall (fun l => l <> [] /\ trimmed l /\ ~ prefix_of (lit "#") l /\ ~ prefix_of (lit "<#") l) kept_lines /\
    exists chosen, selection chosen lines /\
      Forall2 (fun l k => exists a b, l = a ++ k ++ b /\ blanks a /\ blanks b) chosen kept_lines.
Proof.
  intros H. exists (script_lines false lines). split; [unfold get_pwsh_script; rewrite splitlines_text by exact H; now rewrite lines_joined_join|].
  split.
  - eapply Forall_impl; [|apply script_lines_code]. cbv beta. intros l (H1 & H2 & H3 & H4).
    repeat split; auto; now apply strip_trimmed.
  - destruct (selection_map py_strip lines _ (script_lines_selection false lines)) as (cs & Hc & ->).
    exists cs. split; [exact Hc|]. clear Hc H. induction cs as [|c cs IH]; cbn [map]; constructor; [|exact IH].
    destruct (strip_by_spec is_space c) as (a & b & E & Fa & Fb & _). exists a, b.
    split; [exact E|]. split; now apply forallb_blanks.
Qed.

(* keeping code lines is idempotent *)
Lemma script_lines_id ls : Forall (fun l => l <> [] /\ ~ prefix_of (lit "#") l /\ ~ prefix_of (lit "<#") l /\ py_strip l = l) ls ->
  script_lines false ls = ls.
Proof.
  induction ls as [|l ls IH]; intros H; [reflexivity|]. cbn [script_lines].
  destruct (Forall_inv H) as (H1 & H2 & H3 & H4). rewrite H4.
  destruct (starts_with [60; 35]%N l) eqn:E1; [apply starts_with_spec in E1; contradiction|].
  destruct (starts_with [35]%N l) eqn:E2; [apply starts_with_spec in E2; contradiction|].
  destruct l as [|c l]; [congruence|]. cbn [length Nat.eqb negb andb]. f_equal. apply IH. exact (Forall_inv_tail H).
Qed.

Lemma selection_in {A} (a b : list A) : selection a b -> forall x, In x a -> In x b.
Proof. induction 1; intros y Hy; [exact Hy|destruct Hy as [->|Hy]; [now left|right; auto]|right; auto]. Qed.

Lemma lines_joined_split ls l : Forall one_line ls -> lines_joined (ls ++ [l]) = text_of ls ++ l.
Proof.
  intros H. clear H. unfold text_of. induction ls as [|a ls IH]; [reflexivity|].
  cbn [app map concat]. destruct (ls ++ [l]) as [|b r] eqn:E; [destruct ls; discriminate|].
  cbn [lines_joined] in *. rewrite IH. now rewrite <- !app_assoc.
Qed.

Lemma script_idem_gen lines : Forall one_line lines ->
  get_pwsh_script (get_pwsh_script (text_of lines)) = get_pwsh_script (text_of lines).
Proof.
  intros H. unfold get_pwsh_script at 2 3. rewrite splitlines_text by exact H.
  pose proof (script_lines_code false lines) as C.
  assert (O : Forall one_line (script_lines false lines)).
  { destruct (selection_map py_strip lines _ (script_lines_selection false lines)) as (cs & Hc & E). rewrite E.
    apply Forall_forall. intros x Hx. apply in_map_iff in Hx. destruct Hx as (y & <- & Hy).
    apply (selection_in _ _ Hc) in Hy. rewrite Forall_forall in H. specialize (H y Hy).
    destruct (strip_by_spec is_space y) as (a & b & Ey & _). fold (py_strip y) in Ey. unfold one_line in *.
    rewrite Ey in H. apply Forall_app in H. destruct H as [_ H]. apply Forall_app in H. exact (proj1 H). }
  set (ks := script_lines false lines) in *. clearbody ks.
  destruct ks as [|k ks _] using rev_ind; [reflexivity|].
  apply Forall_app in O. destruct O as [O1 O2].
  rewrite <- lines_joined_join, lines_joined_split by exact O1.
  unfold get_pwsh_script. rewrite splitlines_last; [|exact O1|exact (Forall_inv O2)|].
  - rewrite script_lines_id by exact C. rewrite <- lines_joined_join, lines_joined_split by exact O1. reflexivity.
  - apply Forall_app in C. destruct C as [_ C]. exact (proj1 (Forall_inv C)).
Qed.

Lemma script_idempotent ps : Forall piece_ok ps ->
  get_pwsh_script (get_pwsh_script (text_of (concat (map piece_lines ps)))) =
  get_pwsh_script (text_of (concat (map piece_lines ps))).
Proof.
  intros H. apply script_idem_gen. apply Forall_forall. intros l Hl. apply in_concat in Hl. destruct Hl as (x & Hx & Hl).
  apply in_map_iff in Hx. destruct Hx as (p & <- & Hp). rewrite Forall_forall in H.
  destruct (H p Hp) as [K _]. rewrite Forall_forall in K. now apply K.
Qed.

(* decision procedures for the concrete cases *)
Lemma one_line_dec s : forallb (fun c => negb (is_break c)) s = true -> one_line s.
Proof.
  intros H. apply Forall_forall. intros c Hc K. apply break_is_break in K. rewrite forallb_forall in H.
  specialize (H c Hc). cbv beta in H. rewrite K in H. discriminate.
Qed.
Lemma not_prefix_dec p s : starts_with p s = false -> ~ prefix_of p s.
Proof. intros H K. apply starts_with_spec in K. congruence. Qed.

Lemma script_one_line_block : exists (comment code : list N),
  one_line comment /\ one_line code /\ prefix_of (lit "<#") comment /\ suffix_of (lit "#>") comment /\
  code <> [] /\ trimmed code /\ ~ prefix_of (lit "#") code /\ ~ prefix_of (lit "<#") code /\
  get_pwsh_script (text_of [comment; code]) = [].
Proof.
  exists (lit "<# note #>"), (lit "exit 0").
  split; [apply one_line_dec; reflexivity|]. split; [apply one_line_dec; reflexivity|].
  split; [apply starts_with_spec; reflexivity|]. split; [apply ends_with_spec; reflexivity|].
  split; [discriminate|]. split; [apply strip_trimmed; reflexivity|].
  split; [apply not_prefix_dec; reflexivity|]. split; [apply not_prefix_dec; reflexivity|].
  vm_compute. reflexivity.
Qed.

Lemma middle_dec l : ends_with [35; 62]%N (py_strip l) = false -> forall a b, blanks b -> l <> a ++ lit "#>" ++ b.
Proof. intros H a b Hb E. subst l. rewrite strip_end in H by exact Hb. discriminate. Qed.

Lemma script_case :
  let ps := [Block ([], lit " about") [lit "more"] ([], []); Empty (lit "  ");
             Code (lit "  ") (lit "Write-Output 1 # x") (lit " "); Comment (lit " ") (lit " note") [];
             Code [] (lit "exit 0") []] in
  Forall piece_ok ps /\
  get_pwsh_script (text_of (concat (map piece_lines ps))) =
    lit "Write-Output 1 # x" ++ [10%N] ++ lit "exit 0".
Proof.
  cbv zeta. split; [|vm_compute; reflexivity].
  apply Forall_cons.
  { split; [repeat (apply Forall_cons; [apply one_line_dec; reflexivity|]); apply Forall_nil|].
    split; [apply Forall_nil|]. split; [apply Forall_nil|]. apply Forall_cons; [apply middle_dec; reflexivity|apply Forall_nil]. }
  apply Forall_cons.
  { split; [repeat (apply Forall_cons; [apply one_line_dec; reflexivity|]); apply Forall_nil|]. apply forallb_blanks; reflexivity. }
  apply Forall_cons.
  { split; [repeat (apply Forall_cons; [apply one_line_dec; reflexivity|]); apply Forall_nil|].
    split; [apply forallb_blanks; reflexivity|]. split; [apply forallb_blanks; reflexivity|]. split; [discriminate|].
    split; [apply strip_trimmed; reflexivity|]. split; apply not_prefix_dec; reflexivity. }
  apply Forall_cons.
  { split; [repeat (apply Forall_cons; [apply one_line_dec; reflexivity|]); apply Forall_nil|]. apply forallb_blanks; reflexivity. }
  apply Forall_cons; [|apply Forall_nil].
  split; [repeat (apply Forall_cons; [apply one_line_dec; reflexivity|]); apply Forall_nil|].
  split; [apply Forall_nil|]. split; [apply Forall_nil|]. split; [discriminate|].
  split; [apply strip_trimmed; reflexivity|]. split; apply not_prefix_dec; reflexivity.
Qed.
