From Coq Require Import Lia.
From Verif Require Import Base BaseProofs Lit NumModel NumProofs UtilModel UtilSpec UtilProofs ObjModel ObjSpec ObjProofs ObjProofs2.

Section Merges.
Context {V : Type}.
Implicit Types (b : builder V) (c : command V) (init : list (command V)).

Lemma on_last_app f b init c : b_commands b = init ++ [c] -> on_last f b = (with_commands b (init ++ [f c]), Done).
Proof. intros E. unfold on_last. rewrite E, update_last_app. reflexivity. Qed.

Lemma on_last_empty (f : command V -> command V) b : b_commands b = [] -> on_last f b = (b, Raised IndexError).
Proof. intros E. unfold on_last. now rewrite E. Qed.

Lemma in_list_spec s l : in_list s l = true <-> In s l.
Proof.
  unfold in_list. rewrite existsb_exists. split.
  - intros (x & Hx & E). apply str_eqb_spec in E. now subst.
  - intros H. exists s. split; [exact H|apply str_eqb_refl].
Qed.

Lemma digit_lit s : forallb (fun x => N.leb 48 x && N.leb x 57)%bool s = true -> s <> [] -> digit_string s.
Proof.
  intros H Hn. split; [exact Hn|]. apply Forall_forall. intros c Hc. rewrite forallb_forall in H.
  specialize (H c Hc). apply andb_prop in H. destruct H as [H1 H2]. split; apply N.leb_le; assumption.
Qed.
Lemma v22_parts : version_parts [lit "2"; lit "2"].
Proof. split; [discriminate|]. repeat (apply Forall_cons; [apply digit_lit; [reflexivity|discriminate]|]). apply Forall_nil. Qed.
Lemma v23_parts : version_parts [lit "2"; lit "3"].
Proof. split; [discriminate|]. repeat (apply Forall_cons; [apply digit_lit; [reflexivity|discriminate]|]). apply Forall_nil. Qed.
Lemma v22_text : dotted [lit "2"; lit "2"] = lit "2.2". Proof. reflexivity. Qed.
Lemma v23_text : dotted [lit "2"; lit "3"] = lit "2.3". Proof. reflexivity. Qed.

Definition valid_target (to : list N) : Prop := to = lit "none" \/ to = lit "output" \/ to = lit "null".

Lemma default_valid_spec to : in_list to default_valid = true <-> valid_target to.
Proof. rewrite in_list_spec. unfold default_valid, valid_target. cbn [In]. split; intros H; intuition auto. Qed.

Lemma prt_named_target to : valid_target to -> target_value to (p_value (prt_named to)) /\ p_v2 (prt_named to) = false.
Proof. intros [->|[->| ->]]; (split; [vm_compute; auto|reflexivity]). Qed.

Definition stream_attr (s : stream) : mattr :=
  match s with SWarning => MWarning | SVerbose => MVerbose | SDebug => MDebug | SInformation => MInfo end.

Lemma merge_stream_eq (s : stream) to :
  @merge_stream V s to = set_merge_to (stream_attr s) to default_valid (Some (dotted (stream_minimum s))).
Proof. destruct s; reflexivity. Qed.

Lemma stream_minimum_parts s : version_parts (stream_minimum s).
Proof. destruct s; [apply v22_parts|apply v22_parts|apply v22_parts|apply v23_parts]. Qed.

Lemma set_merge_same s p c : same_but_stream s c (set_merge (stream_attr s) p c) /\ stream_value s (set_merge (stream_attr s) p c) = p.
Proof.
  split; [|destruct s; reflexivity].
  unfold same_but_stream. destruct s; cbn; repeat (split; [reflexivity|]); intros s' Hs; destruct s'; try reflexivity; congruence.
Qed.

Lemma merge_stream_ok s to b init c v :
  b_commands b = init ++ [c] -> b_version b = Some (dotted v) -> version_parts v ->
  valid_target to -> ~ older v (stream_minimum s) ->
  exists c', merge_stream s to b = (with_commands b (init ++ [c']), Done) /\
    same_but_stream s c c' /\ target_value to (p_value (stream_value s c')) /\ p_v2 (stream_value s c') = false.
Proof.
  intros Hb Hv Hp Ht Ho. rewrite merge_stream_eq. unfold set_merge_to.
  rewrite (proj2 (default_valid_spec to) Ht). cbn [negb]. rewrite Hv. cbn [version_or_empty].
  rewrite (proj2 (version_true v (stream_minimum s) Hp (stream_minimum_parts s)) Ho).
  rewrite (on_last_app _ b init c Hb). eexists. split; [reflexivity|].
  destruct (set_merge_same s (prt_named to) c) as [H1 H2]. split; [exact H1|]. rewrite H2. now apply prt_named_target.
Qed.

Lemma merge_stream_refused s to b v :
  b_version b = Some (dotted v) -> version_parts v ->
  ~ valid_target to \/ older v (stream_minimum s) ->
  merge_stream s to b = (b, Raised InvalidPSRPOperation).
Proof.
  intros Hv Hp H. rewrite merge_stream_eq. unfold set_merge_to.
  destruct (in_list to default_valid) eqn:E; cbn [negb]; [|reflexivity].
  apply default_valid_spec in E. destruct H as [H|H]; [contradiction|].
  rewrite Hv. cbn [version_or_empty]. rewrite (proj2 (version_false v (stream_minimum s) Hp (stream_minimum_parts s)) H). reflexivity.
Qed.

Lemma merge_stream_no_version s to b :
  b_version b = None -> valid_target to -> merge_stream s to b = (b, Raised ValueError).
Proof.
  intros Hv Ht. rewrite merge_stream_eq. unfold set_merge_to. rewrite (proj2 (default_valid_spec to) Ht). cbn [negb].
  rewrite Hv. cbn [version_or_empty]. rewrite (version_empty_error _ (stream_minimum_parts s)). reflexivity.
Qed.

(* merge_error *)
Lemma merge_error_ok to b init c : b_commands b = init ++ [c] -> to = lit "none" \/ to = lit "output" ->
  merge_error to b =
    (with_commands b (init ++ [set_merge MTo (prt_named to)
        (set_merge MMy (if str_eqb to (lit "none") then prt_named to else prt_of 2) (set_merge MError (prt_named to) c))]), Done).
Proof.
  intros Hb Ht. unfold merge_error, then_do, set_merge_to.
  assert (E : in_list to [lit "none"; lit "output"] = true) by (apply in_list_spec; cbn [In]; intuition auto).
  rewrite E. cbn [negb]. rewrite (on_last_app _ b init c Hb).
  rewrite (on_last_app _ (with_commands b (init ++ [set_merge MError (prt_named to) c])) init (set_merge MError (prt_named to) c) eq_refl).
  reflexivity.
Qed.

Lemma merge_error_refused to b : to <> lit "none" -> to <> lit "output" -> merge_error to b = (b, Raised InvalidPSRPOperation).
Proof.
  intros H1 H2. unfold merge_error, then_do, set_merge_to.
  destruct (in_list to [lit "none"; lit "output"]) eqn:E; [|reflexivity].
  apply in_list_spec in E. cbn [In] in E. intuition congruence.
Qed.

(* merge_reset *)
Lemma with_commands_twice b cs cs' : with_commands (with_commands b cs) cs' = with_commands b cs'.
Proof. reflexivity. Qed.

Lemma when_version_ok w f b v : b_version b = Some (dotted v) -> version_parts v -> version_parts w ->
  (~ older v w -> when_version (dotted w) f b = f b) /\ (older v w -> when_version (dotted w) f b = (b, Done)).
Proof.
  intros Hb Hv Hw. unfold when_version. rewrite Hb. cbn [version_or_empty]. split; intros H.
  - now rewrite (proj2 (version_true v w Hv Hw) H).
  - now rewrite (proj2 (version_false v w Hv Hw) H).
Qed.

Lemma is_default_none : is_default prt_none. Proof. split; reflexivity. Qed.
Lemma is_default_v2 : is_default {| p_v2 := true; p_value := 0 |}. Proof. split; reflexivity. Qed.

Lemma prt_named_none : prt_named (lit "none") = prt_none. Proof. reflexivity. Qed.

Lemma set_merge_to_done m to minimum b init c v w :
  b_commands b = init ++ [c] -> b_version b = Some (dotted v) -> version_parts v -> version_parts w ->
  minimum = dotted w -> valid_target to -> ~ older v w ->
  set_merge_to m to default_valid (Some minimum) b = (with_commands b (init ++ [set_merge m (prt_named to) c]), Done).
Proof.
  intros Hb Hv Hp Hw -> Ht Ho. unfold set_merge_to. rewrite (proj2 (default_valid_spec to) Ht). cbn [negb]. rewrite Hv. cbn [version_or_empty].
  rewrite (proj2 (version_true v w Hp Hw) Ho). now rewrite (on_last_app _ b init c Hb).
Qed.

Lemma version_classic v w : version_parts v -> version_parts w -> older v w \/ ~ older v w.
Proof.
  intros Hv Hw. destruct (version_compare v w Hv Hw) as ([|] & E & D).
  - right. intros H. apply D in H. discriminate.
  - left. now apply D.
Qed.

Lemma merge_reset_ok b init c v : b_commands b = init ++ [c] -> b_version b = Some (dotted v) -> version_parts v ->
  exists c', merge_reset b = (with_commands b (init ++ [c']), Done) /\
    is_default (c_my c') /\ is_default (c_to c') /\ is_default (c_prev c') /\ is_default (c_error c') /\
    (forall s, ~ older v (stream_minimum s) -> is_default (stream_value s c')) /\
    (forall s, older v (stream_minimum s) -> stream_value s c' = stream_value s c) /\
    c_cmd c' = c_cmd c /\ c_script c' = c_script c /\ c_scope c' = c_scope c /\ c_args c' = c_args c /\ c_end c' = c_end c /\
    c_22 c' = c_22 c /\ c_23 c' = c_23 c.
Proof.
  intros Hb Hv Hp. unfold merge_reset, then_do at 1, merge_previous. rewrite (on_last_app _ b init c Hb).
  set (p2 := {| p_v2 := true; p_value := 0 |}). set (c1 := set_merge MPrev p2 c).
  set (b1 := with_commands b (init ++ [c1])).
  unfold merge_all, then_do at 1. rewrite (merge_error_ok (lit "none") b1 init c1 eq_refl (or_introl eq_refl)).
  rewrite str_eqb_refl, prt_named_none. set (c2 := set_merge MTo prt_none (set_merge MMy prt_none (set_merge MError prt_none c1))).
  unfold b1 at 1. rewrite with_commands_twice. set (b2 := with_commands b (init ++ [c2])).
  assert (Hv2 : b_version b2 = Some (dotted v)) by exact Hv.
  assert (Tn : valid_target (lit "none")) by (left; reflexivity).
  unfold then_do at 1. rewrite <- v22_text.
  set (F := then_do (merge_debug (lit "none")) (then_do (merge_verbose (lit "none")) (merge_warning (lit "none")))).
  set (c3 := set_merge MWarning prt_none (set_merge MVerbose prt_none (set_merge MDebug prt_none c2))).
  assert (F22 : ~ older v [lit "2"; lit "2"] -> F b2 = (with_commands b (init ++ [c3]), Done)).
  { intros Ho. unfold F, merge_debug, merge_verbose, merge_warning, then_do at 1. rewrite <- v22_text.
    rewrite (set_merge_to_done MDebug (lit "none") _ b2 init c2 v _ eq_refl Hv2 Hp v22_parts eq_refl Tn Ho). rewrite prt_named_none.
    unfold then_do at 1. unfold b2 at 1. rewrite with_commands_twice.
    rewrite (set_merge_to_done MVerbose (lit "none") _ (with_commands b (init ++ [set_merge MDebug prt_none c2])) init _ v _ eq_refl Hv Hp v22_parts eq_refl Tn Ho).
    rewrite prt_named_none, with_commands_twice.
    rewrite (set_merge_to_done MWarning (lit "none") _ (with_commands b (init ++ [set_merge MVerbose prt_none (set_merge MDebug prt_none c2)])) init _ v _ eq_refl Hv Hp v22_parts eq_refl Tn Ho).
    rewrite prt_named_none, with_commands_twice. reflexivity. }
  assert (G23 : forall cx, let bx := with_commands b (init ++ [cx]) in
     exists cy, when_version (lit "2.3") (merge_information (lit "none")) bx = (with_commands b (init ++ [cy]), Done) /\
       ((~ older v [lit "2"; lit "3"] /\ cy = set_merge MInfo prt_none cx) \/ (older v [lit "2"; lit "3"] /\ cy = cx))).
  { intros cx bx. rewrite <- v23_text.
    destruct (when_version_ok [lit "2"; lit "3"] (merge_information (lit "none")) bx v Hv Hp v23_parts) as [W1 W2].
    destruct (version_classic v [lit "2"; lit "3"] Hp v23_parts) as [H|H].
    - rewrite (W2 H). exists cx. split; [reflexivity|]. right. auto.
    - rewrite (W1 H). unfold merge_information. rewrite <- v23_text.
      rewrite (set_merge_to_done MInfo (lit "none") _ bx init cx v _ eq_refl Hv Hp v23_parts eq_refl Tn H).
      rewrite prt_named_none. exists (set_merge MInfo prt_none cx). split; [reflexivity|]. left. auto. }
  destruct (when_version_ok [lit "2"; lit "2"] F b2 v Hv2 Hp v22_parts) as [W1 W2].
  assert (Pd := is_default_none). assert (Pv := is_default_v2).
  destruct (version_classic v [lit "2"; lit "2"] Hp v22_parts) as [H|H].
  - rewrite (W2 H). destruct (G23 c2) as (cy & Ey & Cy). unfold b2. rewrite Ey. exists cy. split; [reflexivity|].
    destruct Cy as [[Ho ->]|[Ho ->]]; cbn; repeat (split; [first [exact Pd|exact Pv|reflexivity]|]).
    + split; [|split; [|repeat split]].
      * intros s Hs. destruct s; cbn in *; [contradiction|contradiction|contradiction|exact Pd].
      * intros s Hs. destruct s; cbn in *; try reflexivity. contradiction.
    + split; [|split; [|repeat split]].
      * intros s Hs. destruct s; cbn in *; contradiction.
      * intros s Hs. destruct s; cbn in *; reflexivity.
  - rewrite (W1 H), (F22 H). destruct (G23 c3) as (cy & Ey & Cy). rewrite Ey. exists cy. split; [reflexivity|].
    destruct Cy as [[Ho ->]|[Ho ->]]; cbn; repeat (split; [first [exact Pd|exact Pv|reflexivity]|]).
    + split; [|split; [|repeat split]].
      * intros s Hs. destruct s; cbn in *; exact Pd.
      * intros s Hs. destruct s; cbn in *; contradiction.
    + split; [|split; [|repeat split]].
      * intros s Hs. destruct s; cbn in *; [exact Pd|exact Pd|exact Pd|contradiction].
      * intros s Hs. destruct s; cbn in *; try contradiction; reflexivity.
Qed.

(* which merge properties a command created for a version carries *)
Lemma command_streams v cmd script scope : version_parts v ->
  exists c : command V, command_new (dotted v) cmd script scope = Ok c /\
    c_cmd c = cmd /\ c_script c = script /\ c_scope c = scope /\ c_args c = [] /\ c_end c = false /\
    Forall (fun p => is_default (snd p)) (sent_streams c) /\
    map fst (sent_streams c) =
      [lit "MergeMyResult"; lit "MergeToResult"; lit "MergePreviousResults"] ++
      (if c_22 c then [lit "MergeError"; lit "MergeWarning"; lit "MergeVerbose"; lit "MergeDebug"] else []) ++
      (if c_23 c then [lit "MergeInformation"] else []) /\
    (In (lit "MergeWarning") (map fst (sent_streams c)) <-> ~ older v [lit "2"; lit "2"]) /\
    (In (lit "MergeInformation") (map fst (sent_streams c)) <-> ~ older v [lit "2"; lit "3"]).
Proof.
  intros Hp. unfold command_new. rewrite <- v22_text, <- v23_text.
  destruct (version_compare v _ Hp v22_parts) as (b22 & E22 & D22).
  destruct (version_compare v _ Hp v23_parts) as (b23 & E23 & D23). rewrite E22, E23. cbn [bind].
  eexists. split; [reflexivity|]. cbn [c_cmd c_script c_scope c_args c_end c_22 c_23].
  split; [reflexivity|]. split; [reflexivity|]. split; [reflexivity|]. split; [reflexivity|]. split; [reflexivity|].
  unfold sent_streams. cbn [c_22 c_23 c_my c_to c_prev c_error c_warning c_verbose c_debug c_info].
  split; [apply Forall_forall; intros p Hin; destruct b22, b23; cbn [app In] in Hin; repeat (destruct Hin as [<-|Hin]; [apply is_default_none|]); destruct Hin|].
  split; [destruct b22, b23; reflexivity|]. split.
  - destruct b22.
    + split; [intros _ K; apply D22 in K; discriminate|]. intros _. cbn [map app In]. do 4 right. left. reflexivity.
    + split; [|intros K; exfalso; apply K, D22; reflexivity].
      intros H. exfalso. destruct b23; cbn [map app In fst] in H; repeat (destruct H as [H|H]; [discriminate|]); destruct H.
  - destruct b23.
    + split; [intros _ K; apply D23 in K; discriminate|]. intros _. rewrite !map_app. apply in_or_app. right. apply in_or_app. right. left. reflexivity.
    + split; [|intros K; exfalso; apply K, D23; reflexivity].
      intros H. exfalso. destruct b22; cbn [map app In fst] in H; repeat (destruct H as [H|H]; [discriminate|]); destruct H.
Qed.
End Merges.

(* ------------------------------------------------------------------ *)
(* host information *)
Lemma host_flags h :
  (is_host_null h = true -> is_host_ui_null h = true) /\
  (is_host_ui_null h = true -> is_host_raw_ui_null h = true) /\
  use_runspace_host h = is_host_null h /\
  (is_host_null h = true <-> h = None) /\
  (is_host_ui_null h = true <-> (h = None \/ h = Some None)) /\
  (is_host_raw_ui_null h = false <-> exists r, h = Some (Some (Some r))).
Proof.
  destruct h as [[[r|]|]|]; cbn; repeat split; try tauto; try discriminate; try congruence;
    try (intros [K|K]; discriminate); try (intros (x & K); discriminate).
  intros _. now exists r.
Qed.

Lemma host_data_spec h :
  (host_data h = None <-> is_host_raw_ui_null h = true) /\
  (forall r, h = Some (Some (Some r)) -> exists d, host_data h = Some d /\
     map fst d = map Z.of_nat (List.seq 0 10) /\
     zassoc 0 d = Some (HColor (r_fg r)) /\ zassoc 1 d = Some (HColor (r_bg r)) /\
     zassoc 2 d = Some (HCoord (fst (r_cursor r)) (snd (r_cursor r))) /\
     zassoc 3 d = Some (HCoord (fst (r_window r)) (snd (r_window r))) /\
     zassoc 4 d = Some (HInt (r_cursor_size r)) /\
     zassoc 5 d = Some (HSize (fst (r_buffer r)) (snd (r_buffer r))) /\
     zassoc 6 d = Some (HSize (fst (r_wsize r)) (snd (r_wsize r))) /\
     zassoc 7 d = Some (HSize (fst (r_maxw r)) (snd (r_maxw r))) /\
     zassoc 8 d = Some (HSize (fst (r_maxp r)) (snd (r_maxp r))) /\
     zassoc 9 d = Some (HString (r_title r))).
Proof.
  split.
  - destruct h as [[[r|]|]|]; cbn; split; try discriminate; reflexivity.
  - intros r ->. eexists. split; [reflexivity|]. repeat split.
Qed.
