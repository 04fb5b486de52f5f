From Coq Require Import Lia.
From Verif Require Import Base BaseProofs Lit NumModel NumProofs UtilModel UtilSpec UtilProofs ObjModel ObjSpec ObjProofs ObjProofs2 ObjProofs3.

Lemma array_roundtrip (A : Type) (ds : list nat) (l : list (arr A)) :
  ds <> [] -> Forall (fun d => (0 < d)%nat) ds -> shaped ds (Node l) ->
  get_list_count l = Ok ds /\ build_array (map Leaf (get_list_entries l)) (map Z.of_nat ds) = Ok l.
Proof. intros Hn Hp H. split; [now apply array_count|now apply array_build]. Qed.

Lemma array_row_major (A : Type) (ds : list nat) (l : list (arr A)) (idx : list nat) :
  shaped ds (Node l) -> in_bounds ds idx ->
  length (get_list_entries l) = product ds /\
  exists x, at_index (Node l) idx = Some x /\ nth_error (get_list_entries l) (row_major ds idx) = Some x.
Proof. intros H B. split; [exact (entries_length ds (Node l) H)|exact (array_order ds (Node l) idx H B)]. Qed.

Lemma zero_dimension :
  (exists l : list (arr N), shaped [2; 0]%nat (Node l) /\ get_list_count l = Err IndexError) /\
  (forall (x : arr N) (mae : list (arr N)) (steps : nat), groups steps 0 (x :: mae) = Err OutOfFuel).
Proof.
  split; [|intros x mae steps; apply groups_zero].
  exists [Node []; Node []]. split; [|vm_compute; reflexivity]. split; [reflexivity|].
  repeat (apply Forall_cons; [split; [reflexivity|apply Forall_nil]|]). apply Forall_nil.
Qed.

Lemma array_case :
  let l := [Node [Node [Leaf 1; Leaf 2]; Node [Leaf 3; Leaf 4]; Node [Leaf 5; Leaf 6]];
            Node [Node [Leaf 7; Leaf 8]; Node [Leaf 9; Leaf 10]; Node [Leaf 11; Leaf 12]]]%N in
  shaped [2; 3; 2]%nat (Node l) /\ in_bounds [2; 3; 2]%nat [1; 0; 1]%nat /\
  get_list_count l = Ok [2; 3; 2]%nat /\ at_index (Node l) [1; 0; 1]%nat = Some 8%N /\
  build_array (map Leaf (get_list_entries l)) [2; 3; 2]%Z = Ok l.
Proof.
  cbv zeta. split.
  - split; [reflexivity|]. repeat (apply Forall_cons; [split; [reflexivity|];
      repeat (apply Forall_cons; [split; [reflexivity|]; repeat (apply Forall_cons; [exact I|]); apply Forall_nil|]); apply Forall_nil|]); apply Forall_nil.
  - split; [repeat constructor|]. vm_compute. repeat split.
Qed.

Lemma no_commands (V : Type) (b : builder V) (v : V) (n : list N) : b_commands b = [] ->
  get_statements (b_commands b) = Err IndexError /\
  add_statement b = (b, Raised IndexError) /\ add_argument v b = (b, Raised IndexError) /\
  add_parameter n v b = (b, Raised IndexError).
Proof.
  intros E. rewrite E. split; [reflexivity|]. unfold add_statement, add_argument, add_parameter.
  split; [|split]; now apply on_last_empty.
Qed.

Lemma parameters_in_order (V : Type) (b : builder V) (init : list (command V)) (c : command V) (ps : list (list N * V)) :
  b_commands b = init ++ [c] ->
  exists c', add_parameters ps b = (with_commands b (init ++ [c']), Done) /\
    c_args c' = c_args c ++ map (fun p => (Some (fst p), snd p)) ps /\
    c_cmd c' = c_cmd c /\ c_end c' = c_end c /\ sent_streams c' = sent_streams c.
Proof.
  revert b c. induction ps as [|[n v] ps IH]; intros b c Hb.
  - exists c. cbn [add_parameters map]. rewrite app_nil_r, <- Hb. destruct b; repeat split.
  - cbn [add_parameters]. unfold then_do. unfold add_parameter at 1. rewrite (on_last_app _ b init c Hb).
    destruct (IH (with_commands b (init ++ [add_arg (Some n, v) c])) (add_arg (Some n, v) c) eq_refl) as (c' & E & H1 & H2 & H3 & H4).
    exists c'. rewrite E. split; [reflexivity|]. split; [rewrite H1; cbn [add_arg c_args map fst snd]; now rewrite <- app_assoc|].
    split; [exact H2|]. split; [exact H3|exact H4].
Qed.

Lemma statements_case :
  exists a b c : command N,
    command_new (lit "2.3") (lit "a") false None = Ok a /\ command_new (lit "2.3") (lit "b") false None = Ok b /\
    command_new (lit "2.3") (lit "c") true None = Ok c /\
    (exists ss, get_statements [a; set_end true b; c] = Ok ss /\ map (map c_cmd) ss = [[lit "a"; lit "b"]; [lit "c"]]) /\
    Forall (fun s => s <> [] /\ Forall (fun c => c_end c = false) s) ([[a; b]] ++ [[c]]).
Proof.
  do 3 eexists. split; [vm_compute; reflexivity|]. split; [vm_compute; reflexivity|]. split; [vm_compute; reflexivity|].
  split; [eexists; split; [vm_compute; reflexivity|vm_compute; reflexivity]|].
  repeat (apply Forall_cons; [split; [discriminate|]; repeat (apply Forall_cons; [reflexivity|]); apply Forall_nil|]). apply Forall_nil.
Qed.

Lemma merge_error_all (V : Type) (to : list N) (b : builder V) (init : list (command V)) (c : command V) :
  b_commands b = init ++ [c] ->
  (to = lit "none" -> exists c', merge_error to b = (with_commands b (init ++ [c']), Done) /\
     is_default (c_error c') /\ is_default (c_my c') /\ is_default (c_to c') /\
     c_prev c' = c_prev c /\ (forall s, stream_value s c' = stream_value s c) /\
     c_cmd c' = c_cmd c /\ c_args c' = c_args c /\ c_end c' = c_end c) /\
  (to = lit "output" -> exists c', merge_error to b = (with_commands b (init ++ [c']), Done) /\
     prt_text (c_error c') = Ok (lit "Output") /\ prt_text (c_my c') = Ok (lit "Error") /\
     prt_text (c_to c') = Ok (lit "Output") /\
     c_prev c' = c_prev c /\ (forall s, stream_value s c' = stream_value s c) /\
     c_cmd c' = c_cmd c /\ c_args c' = c_args c /\ c_end c' = c_end c) /\
  (to <> lit "none" -> to <> lit "output" -> merge_error to b = (b, Raised InvalidPSRPOperation)).
Proof.
  intros Hb. split; [|split; [|intros H1 H2; now apply merge_error_refused]].
  - intros E. rewrite (merge_error_ok to b init c Hb (or_introl E)). subst to. eexists. split; [reflexivity|].
    rewrite str_eqb_refl. repeat split; try (intros s; destruct s; reflexivity); reflexivity.
  - intros E. rewrite (merge_error_ok to b init c Hb (or_intror E)). subst to. eexists. split; [reflexivity|].
    rewrite str_eqb_neq by discriminate. repeat split; try (intros s; destruct s; reflexivity).
Qed.

Lemma merge_all_output (V : Type) (b : builder V) (init : list (command V)) (c : command V) (v : list (list N)) :
  b_commands b = init ++ [c] -> b_version b = Some (dotted v) -> version_parts v ->
  exists c', merge_all (lit "output") b = (with_commands b (init ++ [c']), Done) /\
    prt_text (c_error c') = Ok (lit "Output") /\
    (forall s, ~ older v (stream_minimum s) -> prt_text (stream_value s c') = Ok (lit "Output")) /\
    (forall s, older v (stream_minimum s) -> stream_value s c' = stream_value s c).
Proof.
  intros Hb Hv Hp. set (to := lit "output").
  assert (Tn : valid_target to) by (right; left; reflexivity).
  unfold merge_all, then_do at 1. rewrite (merge_error_ok to b init c Hb (or_intror eq_refl)).
  set (c2 := set_merge MTo _ _). set (b2 := with_commands b (init ++ [c2])).
  assert (Hv2 : b_version b2 = Some (dotted v)) by exact Hv.
  unfold then_do at 1. rewrite <- v22_text.
  set (F := then_do (merge_debug to) (then_do (merge_verbose to) (merge_warning to))).
  set (q := prt_named to).
  set (c3 := set_merge MWarning q (set_merge MVerbose q (set_merge MDebug q c2))).
  assert (F22 : ~ older v [lit "2"; lit "2"] -> F b2 = (with_commands b (init ++ [c3]), Done)).
  { intros Ho. unfold F, merge_debug, merge_verbose, merge_warning, then_do at 1. rewrite <- v22_text.
    rewrite (set_merge_to_done MDebug to _ b2 init c2 v _ eq_refl Hv2 Hp v22_parts eq_refl Tn Ho); fold q.
    unfold then_do at 1. unfold b2 at 1. rewrite with_commands_twice.
    rewrite (set_merge_to_done MVerbose to _ (with_commands b (init ++ [set_merge MDebug q c2])) init _ v _ eq_refl Hv Hp v22_parts eq_refl Tn Ho); fold q.
    rewrite with_commands_twice.
    rewrite (set_merge_to_done MWarning to _ (with_commands b (init ++ [set_merge MVerbose q (set_merge MDebug q c2)])) init _ v _ eq_refl Hv Hp v22_parts eq_refl Tn Ho); fold q.
    rewrite with_commands_twice. reflexivity. }
  assert (G23 : forall cx, let bx := with_commands b (init ++ [cx]) in
     exists cy, when_version (lit "2.3") (merge_information to) bx = (with_commands b (init ++ [cy]), Done) /\
       ((~ older v [lit "2"; lit "3"] /\ cy = set_merge MInfo q cx) \/ (older v [lit "2"; lit "3"] /\ cy = cx))).
  { intros cx bx. rewrite <- v23_text.
    destruct (when_version_ok [lit "2"; lit "3"] (merge_information to) bx v Hv Hp v23_parts) as [W1 W2].
    destruct (version_classic v [lit "2"; lit "3"] Hp v23_parts) as [H|H].
    - rewrite (W2 H). exists cx. split; [reflexivity|]. right. auto.
    - rewrite (W1 H). unfold merge_information. rewrite <- v23_text.
      rewrite (set_merge_to_done MInfo to _ bx init cx v _ eq_refl Hv Hp v23_parts eq_refl Tn H); fold q.
      exists (set_merge MInfo q cx). split; [reflexivity|]. left. auto. }
  destruct (when_version_ok [lit "2"; lit "2"] F b2 v Hv2 Hp v22_parts) as [W1 W2].
  destruct (version_classic v [lit "2"; lit "2"] Hp v22_parts) as [H|H].
  - rewrite (W2 H). destruct (G23 c2) as (cy & Ey & Cy). unfold b2. rewrite Ey. exists cy. split; [reflexivity|].
    destruct Cy as [[Ho ->]|[Ho ->]]; (split; [reflexivity|split; intros s Hs; destruct s; cbn in *; first [contradiction|reflexivity]]).
  - rewrite (W1 H), (F22 H). destruct (G23 c3) as (cy & Ey & Cy). rewrite Ey. exists cy. split; [reflexivity|].
    destruct Cy as [[Ho ->]|[Ho ->]]; (split; [reflexivity|split; intros s Hs; destruct s; cbn in *; first [contradiction|reflexivity]]).
Qed.

Lemma no_version : exists b : builder N,
  b_version b = None /\ b_commands b <> [] /\
  (forall s, merge_stream s (lit "output") b = (b, Raised ValueError)) /\
  add_new (lit "Get-Item") false None b = (b, Raised ValueError).
Proof.
  exists {| b_commands := [{| c_cmd := lit "a"; c_script := false; c_scope := None; c_my := prt_none; c_to := prt_none;
     c_prev := prt_none; c_error := prt_none; c_warning := prt_none; c_verbose := prt_none; c_debug := prt_none;
     c_info := prt_none; c_args := []; c_end := false; c_22 := true; c_23 := true |}]; b_version := None |}.
  split; [reflexivity|]. split; [discriminate|]. split; [|vm_compute; reflexivity].
  intros s. apply merge_stream_no_version; [reflexivity|]. right. left. reflexivity.
Qed.

Lemma merge_case :
  exists (c : command N), command_new (lit "2.2") (lit "a") false None = Ok c /\
    let b := {| b_commands := [] ++ [c]; b_version := Some (dotted [lit "2"; lit "2"]) |} in
    version_parts [lit "2"; lit "2"] /\ ~ older [lit "2"; lit "2"] (stream_minimum SWarning) /\
    older [lit "2"; lit "2"] (stream_minimum SInformation) /\
    snd (merge_warning (lit "output") b) = Done /\
    snd (merge_information (lit "output") b) = Raised InvalidPSRPOperation.
Proof.
  eexists. split; [vm_compute; reflexivity|]. cbv zeta. split; [apply v22_parts|].
  split; [apply older_irrefl|]. split; [|vm_compute; split; reflexivity].
  exists 1%nat. split; [|vm_compute; reflexivity]. intros [|j] H; [reflexivity|lia].
Qed.

Lemma host_case :
  let r := {| r_fg := 1; r_bg := 2; r_cursor := (3, 4); r_window := (5, 6); r_cursor_size := 7;
              r_buffer := (8, 9); r_wsize := (10, 11); r_maxw := (12, 13); r_maxp := (14, 15); r_title := lit "t" |}%Z in
  is_host_raw_ui_null (Some (Some (Some r))) = false /\ host_data (Some (Some (Some r))) <> None /\
  is_host_ui_null (Some None) = true /\ is_host_null (Some None) = false.
Proof. cbv zeta. repeat split. discriminate. Qed.

Lemma texts_distinct (a b : Z) :
  ((0 <= a < 16)%Z -> (0 <= b < 16)%Z -> remote_stream_options (Some a) = remote_stream_options (Some b) -> a = b) /\
  ((0 <= a < 512)%Z -> (0 <= b < 512)%Z -> command_type (Some a) = command_type (Some b) -> a = b).
Proof. split; [apply remote_stream_inj|apply command_type_inj]. Qed.

(* texts of flag lists: a first name or nothing *)
Lemma comma_head x l : exists t, comma_separated (x :: l) = x ++ t.
Proof. destruct l as [|y l]; [exists []; cbn [comma_separated]; now rewrite app_nil_r|]. eexists. reflexivity. Qed.

Lemma named_bits_names names : forall bit v x, In x (named_bits names bit v) -> In x names.
Proof.
  induction names as [|n names IH]; intros bit v x H; [exact H|]. cbn [named_bits] in H. apply in_app_or in H.
  destruct H as [H|H]; [destruct (Z.testbit v _); [destruct H as [->|[]]; now left|destruct H]|right; eapply IH; exact H].
Qed.

Lemma text_not names v full : (forall n, In n names -> NumModel.starts_with n full = false) -> full <> [] ->
  comma_separated (named_bits names 0 v) <> full.
Proof.
  intros H Hf E. destruct (named_bits names 0 v) as [|x l] eqn:En.
  - cbn [comma_separated] in E. congruence.
  - assert (Hx : In x names) by (apply (named_bits_names names 0 v); rewrite En; now left).
    specialize (H x Hx). destruct (comma_head x l) as (t & Et). rewrite Et in E.
    assert (K : NumModel.starts_with x full = true) by (apply starts_with_spec; exists t; now symmetry). congruence.
Qed.

Lemma full_mask (v : option Z) :
  (remote_stream_options v = lit "AddInvocationInfo" <-> v = Some 15%Z) /\
  (command_type v = lit "All" <-> v = Some 511%Z).
Proof.
  split.
  - rewrite remote_stream_text. split; [|intros ->; reflexivity].
    destruct (match v with Some z => Z.eqb z 15 | None => false end) eqn:E.
    + intros _. destruct v as [z|]; [|discriminate]. apply Z.eqb_eq in E. now subst.
    + intros H. exfalso. revert H. apply text_not; [|discriminate].
      intros n Hn. cbn [In stream_option_names] in Hn. repeat (destruct Hn as [<-|Hn]; [reflexivity|]). destruct Hn.
  - rewrite command_type_text. split; [|intros ->; reflexivity].
    destruct (match v with Some z => Z.eqb z 511 | None => false end) eqn:E.
    + intros _. destruct v as [z|]; [|discriminate]. apply Z.eqb_eq in E. now subst.
    + intros H. exfalso. revert H. apply text_not; [|discriminate].
      intros n Hn. cbn [In command_type_names] in Hn. repeat (destruct Hn as [<-|Hn]; [reflexivity|]). destruct Hn.
Qed.

Lemma result_types (v2 : bool) (a b : Z) (s : list N) :
  ((exists t, prt_text {| p_v2 := v2; p_value := a |} = Ok t) <-> (0 <= a <= (if v2 then 3 else 8))%Z) /\
  (prt_text {| p_v2 := v2; p_value := a |} = Ok s -> prt_text {| p_v2 := v2; p_value := b |} = Ok s -> a = b).
Proof.
  split; [|apply prt_text_inj].
  pose proof (prt_text_cases {| p_v2 := v2; p_value := a |}) as C. cbn [p_v2 p_value] in C.
  destruct (prt_text {| p_v2 := v2; p_value := a |}) as [t|e].
  - split; [intros _; exact C|intros _; now exists t].
  - destruct C as [_ C]. split; [intros (t & K); discriminate|contradiction].
Qed.
