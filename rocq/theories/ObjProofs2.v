From Coq Require Import Lia ZifyBool ZifyNat ZifyN.
From Verif Require Import Base BaseProofs Lit NumModel NumProofs UtilModel UtilSpec UtilProofs ObjModel ObjSpec.
Ltac Zify.zify_post_hook ::= Z.div_mod_to_equations.

(* ------------------------------------------------------------------ *)
(* statements *)
Lemma update_last_app {A} (f : A -> A) init x : update_last f (init ++ [x]) = Ok (init ++ [f x]).
Proof.
  induction init as [|y init IH]; [reflexivity|]. cbn [app update_last].
  destruct (init ++ [x]) as [|z r] eqn:E; [destruct init; discriminate|]. rewrite IH. reflexivity.
Qed.

Lemma last_split {A} (l : list A) : l <> [] -> exists init x, l = init ++ [x].
Proof. intros H. destruct l as [|x l _] using rev_ind; [congruence|]. now exists l, x. Qed.

Section Statements.
Context {V : Type}.
Implicit Types c : command V.
Implicit Types cs cur : list (command V).

Lemma set_end_id c b : c_end c = b -> set_end b c = c.
Proof. intros <-. destruct c. reflexivity. Qed.
Lemma set_end_set c b b' : set_end b (set_end b' c) = set_end b c.
Proof. reflexivity. Qed.

(* the last command is marked *)
Definition closed cs : Prop := forall init c, cs = init ++ [c] -> c_end c = true.

Lemma closed_tail c cs : closed (c :: cs) -> closed cs.
Proof. intros H init d E. apply (H (c :: init) d). now rewrite E. Qed.

Lemma split_concat : forall cs cur, closed cs -> (cs = [] -> cur = []) -> concat (split_statements cur cs) = cur ++ cs.
Proof.
  induction cs as [|c cs IH]; intros cur Hc Hn.
  - rewrite (Hn eq_refl). reflexivity.
  - cbn [split_statements]. destruct (c_end c) eqn:E.
    + cbn [concat]. rewrite IH; [|exact (closed_tail _ _ Hc)|auto]. rewrite <- app_assoc. reflexivity.
    + rewrite IH; [rewrite <- app_assoc; reflexivity|exact (closed_tail _ _ Hc)|].
      intros ->. specialize (Hc [] c eq_refl). congruence.
Qed.

Lemma split_nonempty : forall cs cur, Forall (fun s => s <> []) (split_statements cur cs).
Proof.
  induction cs as [|c cs IH]; intros cur; cbn [split_statements]; [constructor|].
  destruct (c_end c); [constructor; [destruct cur; discriminate|apply IH]|apply IH].
Qed.

Lemma split_prefix_ge : forall cs cur k, (k < length (split_statements cur cs))%nat ->
  (length cur + 1 <= length (concat (firstn (S k) (split_statements cur cs))))%nat.
Proof.
  induction cs as [|c cs IH]; intros cur k Hk; cbn [split_statements] in *; [cbn [length] in Hk; lia|].
  destruct (c_end c).
  - cbn [firstn concat]. rewrite app_length, app_length. cbn [length]. lia.
  - pose proof (IH (cur ++ [c]) k Hk) as H. rewrite app_length in H. cbn [length] in H. lia.
Qed.

Lemma split_marks : forall cs cur i c, nth_error cs i = Some c ->
  (c_end c = true <-> exists k, (k < length (split_statements cur cs))%nat /\
     length (concat (firstn (S k) (split_statements cur cs))) = (length cur + S i)%nat).
Proof.
  induction cs as [|d cs IH]; intros cur i c Hi; [destruct i; discriminate|].
  cbn [split_statements]. destruct (c_end d) eqn:E.
  - destruct i as [|i].
    + cbn [nth_error] in Hi. assert (d = c) by congruence. subst d. split; [|intros _; exact E].
      intros _. exists 0%nat. cbn [length firstn concat]. split; [lia|]. rewrite !app_length. cbn [length]. lia.
    + cbn [nth_error] in Hi. rewrite (IH [] i c Hi). split.
      * intros (k & Hk & Hl). exists (S k). split; [cbn [length]; lia|].
        change (firstn (S (S k)) ((cur ++ [d]) :: split_statements [] cs)) with ((cur ++ [d]) :: firstn (S k) (split_statements [] cs)).
        cbn [concat]. rewrite app_length, Hl, app_length. cbn [length]. lia.
      * intros (k & Hk & Hl). destruct k as [|k].
        -- exfalso. cbn [firstn concat] in Hl. rewrite !app_length in Hl. cbn [length] in Hl. lia.
        -- change (firstn (S (S k)) ((cur ++ [d]) :: split_statements [] cs)) with ((cur ++ [d]) :: firstn (S k) (split_statements [] cs)) in Hl.
           cbn [concat] in Hl. rewrite app_length, app_length in Hl. cbn [length] in Hl, Hk.
           exists k. split; [lia|]. cbn [length]. lia.
  - destruct i as [|i].
    + cbn [nth_error] in Hi. assert (d = c) by congruence. subst d. split; [congruence|].
      intros (k & Hk & Hl). pose proof (split_prefix_ge cs (cur ++ [c]) k Hk) as G. rewrite app_length in G. cbn [length] in G. lia.
    + cbn [nth_error] in Hi. rewrite (IH (cur ++ [d]) i c Hi). rewrite app_length. cbn [length].
      split; intros (k & Hk & Hl); exists k; (split; [exact Hk|lia]).
Qed.

(* shape of each statement: only the last command is marked *)
Lemma split_shape : forall cs cur, Forall (fun c => c_end c = false) cur ->
  Forall (fun s => exists init c, s = init ++ [c] /\ Forall (fun c => c_end c = false) init /\ c_end c = true) (split_statements cur cs).
Proof.
  induction cs as [|c cs IH]; intros cur Hcur; cbn [split_statements]; [constructor|].
  destruct (c_end c) eqn:E.
  - constructor; [exists cur, c; auto|]. apply IH. constructor.
  - apply IH. apply Forall_app. split; [exact Hcur|]. constructor; [exact E|constructor].
Qed.

Lemma get_statements_eq init c : get_statements (init ++ [c]) = Ok (split_statements [] (init ++ [set_end true c])).
Proof. unfold get_statements. rewrite update_last_app. reflexivity. Qed.

Lemma closed_marked init c : closed (init ++ [set_end true c]).
Proof. intros i d E. apply app_inj_tail in E. destruct E as [_ <-]. reflexivity. Qed.

Lemma statements_cut cs : cs <> [] -> exists ss, get_statements cs = Ok ss /\ cut_at_marks cs ss.
Proof.
  intros H. destruct (last_split cs H) as (init & c & ->). rewrite get_statements_eq. eexists. split; [reflexivity|].
  set (cs' := init ++ [set_end true c]).
  assert (C : concat (split_statements [] cs') = cs').
  { rewrite split_concat; [reflexivity|apply closed_marked|auto]. }
  split; [|split].
  - rewrite C. unfold cs'. rewrite !map_app. reflexivity.
  - apply split_nonempty.
  - intros i d Hi Hlast. rewrite app_length in Hlast. cbn [length] in Hlast.
    assert (Hi' : nth_error cs' i = Some d).
    { assert (Hl : (i < length (init ++ [c]))%nat) by (apply nth_error_Some; congruence).
      rewrite app_length in Hl. cbn [length] in Hl. unfold cs'.
      rewrite nth_error_app1 by lia. rewrite nth_error_app1 in Hi by lia. exact Hi. }
    apply (split_marks cs' [] i d Hi').
Qed.

Lemma statements_empty : get_statements ([] : list (command V)) = Err IndexError.
Proof. reflexivity. Qed.

(* reading ExtraCmds back restores the marks *)
Lemma map_received_unmarked cs : Forall (fun c => c_end c = false) cs -> map received cs = cs.
Proof. induction 1 as [|c cs H _ IH]; [reflexivity|]. cbn [map]. rewrite IH. unfold received. now rewrite set_end_id. Qed.

Lemma set_extra_marks : forall ss acc,
  Forall (fun s => exists init c, s = init ++ [c] /\ Forall (fun c => c_end c = false) init /\ c_end c = true) ss ->
  set_extra acc (map (map received) ss) = Ok (acc ++ concat ss).
Proof.
  induction ss as [|s ss IH]; intros acc H; [cbn [map set_extra concat]; now rewrite app_nil_r|].
  destruct (Forall_inv H) as (init & c & -> & Hi & Hc). cbn [map set_extra concat].
  rewrite map_app, (map_received_unmarked init Hi). cbn [map].
  rewrite app_assoc, update_last_app. cbn [bind]. rewrite IH by exact (Forall_inv_tail H).
  unfold received. rewrite set_end_set, set_end_id by exact Hc. f_equal.
  rewrite <- !app_assoc. reflexivity.
Qed.

Lemma pipeline_roundtrip cs : cs <> [] ->
  exists extra first cs', pipeline_extra cs = Ok extra /\ pipeline_cmds cs = Ok first /\
    pipeline_receive extra first = Ok (Some cs') /\
    map unmarked cs' = map unmarked cs /\ get_statements cs' = get_statements cs.
Proof.
  intros H. destruct (last_split cs H) as (init & c & ->). unfold pipeline_extra, pipeline_cmds.
  rewrite get_statements_eq. cbn [bind]. set (cs' := init ++ [set_end true c]).
  assert (C : concat (split_statements [] cs') = cs').
  { rewrite split_concat; [reflexivity|apply closed_marked|auto]. }
  pose proof (split_shape cs' [] (Forall_nil _)) as S.
  destruct (split_statements [] cs') as [|s ss] eqn:Es.
  - exfalso. cbn [concat] in C. unfold cs' in C. destruct init; discriminate.
  - destruct ss as [|s2 ss].
    + cbn [length Nat.ltb Nat.leb]. exists None, s, (map received s). cbn [concat] in C. rewrite app_nil_r in C. subst s.
      split; [reflexivity|]. split; [reflexivity|]. split; [reflexivity|]. unfold cs'.
      rewrite !map_app. cbn [map]. split; [rewrite map_map; reflexivity|].
      unfold received at 2. rewrite set_end_set. rewrite get_statements_eq, set_end_set.
      destruct (Forall_inv S) as (i2 & c2 & E2 & Hi2 & Hc2). unfold cs' in E2. apply app_inj_tail in E2. destruct E2 as [E2 _]. subst i2.
      rewrite (map_received_unmarked init Hi2). fold cs'. rewrite Es. reflexivity.
    + exists (Some (s :: s2 :: ss)), s, cs'. split; [reflexivity|]. split; [reflexivity|]. split.
      * unfold pipeline_receive, set_extra_cmds, option_map. rewrite (set_extra_marks (s :: s2 :: ss) [] S).
        cbn [bind app]. rewrite C. unfold set_cmds, cs'. destruct init; reflexivity.
      * split; [unfold cs'; rewrite !map_app; reflexivity|].
        unfold cs'. rewrite get_statements_eq, set_end_set. fold cs'. now rewrite Es.
Qed.

Lemma pipeline_properties cs ss : get_statements cs = Ok ss ->
  exists first extra, pipeline_cmds cs = Ok first /\ pipeline_extra cs = Ok extra /\
    hd_error ss = Some first /\ (extra = None <-> length ss = 1%nat) /\ (forall e, extra = Some e -> e = ss).
Proof.
  intros H. assert (Hn : cs <> []) by (intros ->; discriminate).
  destruct (statements_cut cs Hn) as (ss' & E & Hc & Hne & _). assert (ss' = ss) by congruence. subst ss'.
  unfold pipeline_cmds, pipeline_extra. rewrite H. cbn [bind].
  destruct ss as [|s ss].
  - exfalso. cbn [concat map] in Hc. destruct cs; [congruence|discriminate].
  - exists s. eexists. split; [reflexivity|]. split; [reflexivity|]. split; [reflexivity|].
    destruct ss as [|s2 ss]; cbn [length Nat.ltb Nat.leb].
    + split; [tauto|discriminate].
    + split; [split; [discriminate|lia]|congruence].
Qed.

(* ---- the builder ---- *)
Lemma perform_app (f g : list (bop V)) b b1 : perform f b = (b1, Done) -> perform (f ++ g) b = perform g b1.
Proof.
  revert b. induction f as [|x f IH]; intros b H.
  - cbn [perform] in H. assert (b = b1) by congruence. now subst.
  - cbn [app perform] in *. destruct (x b) as [b2 [|e]]; [now apply IH|discriminate].
Qed.

Lemma perform_adds cs : forall b, perform (map add_command cs) b = (with_commands b (b_commands b ++ cs), Done).
Proof.
  induction cs as [|c cs IH]; intros b.
  - cbn [map perform]. rewrite app_nil_r. destruct b; reflexivity.
  - cbn [map perform]. unfold add_command at 1. rewrite IH. cbn [with_commands b_commands b_version]. rewrite <- app_assoc. reflexivity.
Qed.

Definition marked (g : list (command V)) : list (command V) :=
  match update_last (set_end true) g with Ok x => x | Err _ => [] end.
Lemma marked_app init c : marked (init ++ [c]) = init ++ [set_end true c].
Proof. unfold marked. now rewrite update_last_app. Qed.

Lemma perform_statement g b : g <> [] ->
  perform (statement_calls g) b = (with_commands b (b_commands b ++ marked g), Done).
Proof.
  intros Hg. destruct (last_split g Hg) as (init & c & ->). unfold statement_calls.
  rewrite (perform_app _ _ _ _ (perform_adds (init ++ [c]) b)). cbn [perform].
  unfold add_statement, on_last. cbn [with_commands b_commands].
  rewrite app_assoc, update_last_app, marked_app. cbn [with_commands b_version]. now rewrite app_assoc.
Qed.

Lemma perform_statements gs : forall b, Forall (fun g => g <> []) gs ->
  perform (concat (map statement_calls gs)) b = (with_commands b (b_commands b ++ concat (map marked gs)), Done).
Proof.
  induction gs as [|g gs IH]; intros b H.
  - cbn [map concat perform]. rewrite app_nil_r. destruct b; reflexivity.
  - cbn [map concat]. rewrite (perform_app _ _ _ _ (perform_statement g b (Forall_inv H))).
    rewrite IH by exact (Forall_inv_tail H). cbn [with_commands b_commands b_version]. now rewrite <- app_assoc.
Qed.

Lemma split_unmarked_prefix : forall pre cur rest, Forall (fun c => c_end c = false) pre ->
  split_statements cur (pre ++ rest) = split_statements (cur ++ pre) rest.
Proof.
  induction pre as [|c pre IH]; intros cur rest H; [now rewrite app_nil_r|].
  cbn [app split_statements]. rewrite (Forall_inv H). rewrite IH by exact (Forall_inv_tail H). now rewrite <- app_assoc.
Qed.

Lemma split_marked gs : Forall (fun g => g <> [] /\ Forall (fun c => c_end c = false) g) gs ->
  forall rest, split_statements [] (concat (map marked gs) ++ rest) = map marked gs ++ split_statements [] rest.
Proof.
  induction gs as [|g gs IH]; intros H rest; [reflexivity|].
  destruct (Forall_inv H) as [Hg Hu]. destruct (last_split g Hg) as (init & c & ->).
  apply Forall_app in Hu. destruct Hu as [Hi Hc]. cbn [map concat]. rewrite marked_app.
  rewrite <- !app_assoc. rewrite split_unmarked_prefix by exact Hi. cbn [app split_statements].
  change (c_end (set_end true c)) with true. cbv iota. rewrite IH by exact (Forall_inv_tail H). reflexivity.
Qed.

Lemma marked_same g : g <> [] -> Forall (fun c => c_end c = false) g -> map unmarked (marked g) = map unmarked g.
Proof. intros Hg _. destruct (last_split g Hg) as (init & c & ->). rewrite marked_app, !map_app. reflexivity. Qed.

Lemma builder_statements (gs : list (list (command V))) (g : list (command V)) (close : bool) version :
  Forall (fun s => s <> [] /\ Forall (fun c => c_end c = false) s) (gs ++ [g]) ->
  exists b ss,
    perform (concat (map statement_calls gs) ++ map add_command g ++ (if close then [add_statement] else []))
      {| b_commands := []; b_version := version |} = (b, Done) /\
    get_statements (b_commands b) = Ok ss /\ same_commands ss (gs ++ [g]).
Proof.
  intros H. pose proof (Forall_app (fun s => s <> [] /\ Forall (fun c => c_end c = false) s) gs [g]) as A.
  destruct (proj1 A H) as [Hgs Hg]. destruct (Forall_inv Hg) as [Hgn Hgu]. clear A.
  assert (Hne : Forall (fun g => g <> []) gs) by (eapply Forall_impl; [|exact Hgs]; cbv beta; tauto).
  assert (R : exists b, perform (concat (map statement_calls gs) ++ map add_command g ++ (if close then [add_statement] else []))
      {| b_commands := []; b_version := version |} = (b, Done) /\
      update_last (set_end true) (b_commands b) = Ok (concat (map marked gs) ++ marked g)).
  { rewrite (perform_app _ _ _ _ (perform_statements gs _ Hne)).
    destruct (last_split g Hgn) as (init & c & ->). rewrite marked_app. destruct close.
    - change (map add_command (init ++ [c]) ++ [add_statement]) with (statement_calls (init ++ [c])).
      rewrite perform_statement by exact Hgn. eexists. split; [reflexivity|].
      cbn [with_commands b_commands app]. rewrite marked_app. rewrite app_assoc. rewrite update_last_app. rewrite set_end_set. now rewrite <- app_assoc.
    - rewrite app_nil_r, perform_adds. eexists. split; [reflexivity|].
      cbn [with_commands b_commands app]. rewrite app_assoc. rewrite update_last_app. now rewrite <- app_assoc. }
  destruct R as (b & Hp & Hu). exists b. eexists. split; [exact Hp|].
  split; [unfold get_statements; rewrite Hu; reflexivity|].
  pose proof (split_marked (gs ++ [g]) H []) as E. rewrite app_nil_r, map_app, concat_app in E. cbn [map concat] in E. rewrite app_nil_r in E.
  rewrite E. cbn [split_statements]. rewrite app_nil_r. unfold same_commands. rewrite !map_app. cbn [map].
  rewrite (marked_same g Hgn Hgu). f_equal.
  clear -Hgs. induction gs as [|x gs IH]; [reflexivity|]. cbn [map]. destruct (Forall_inv Hgs) as [H1 H2].
  rewrite (marked_same x H1 H2). f_equal. apply IH. exact (Forall_inv_tail Hgs).
Qed.
End Statements.

(* ------------------------------------------------------------------ *)
(* flags *)
Lemma join_comma l : join (lit ", ") l = comma_separated l.
Proof. induction l as [|x l IH]; [reflexivity|]. destruct l as [|y l]; [reflexivity|]. cbn [join comma_separated] in *. now rewrite IH. Qed.

Fixpoint with_flags (names : list (list N)) (bit : nat) : list (list N * Z) :=
  match names with [] => [] | n :: ns => (n, (2 ^ Z.of_nat bit)%Z) :: with_flags ns (S bit) end.

Lemma land_bit v k : (0 <= k)%Z -> Z.eqb (Z.land v (2 ^ k)) (2 ^ k) = Z.testbit v k.
Proof.
  intros Hk. destruct (Z.testbit v k) eqn:E.
  - apply Z.eqb_eq. apply Z.bits_inj'. intros n Hn. rewrite Z.land_spec, Z.pow2_bits_eqb by exact Hk.
    destruct (Z.eqb_spec k n) as [<-|]; [now rewrite E|apply andb_false_r].
  - apply Z.eqb_neq. intros K. apply (f_equal (fun z => Z.testbit z k)) in K.
    rewrite Z.land_spec, Z.pow2_bits_eqb, Z.eqb_refl, E in K by exact Hk. discriminate.
Qed.

Lemma flag_values_bits names : forall bit v, flag_values (with_flags names bit) v = named_bits names bit v.
Proof.
  induction names as [|n names IH]; intros bit v; [reflexivity|]. cbn [with_flags flag_values named_bits].
  rewrite land_bit by lia. destruct (Z.testbit v (Z.of_nat bit)); rewrite IH; reflexivity.
Qed.

Lemma remote_stream_text v :
  remote_stream_options v = if (match v with Some z => Z.eqb z 15 | None => false end) then lit "AddInvocationInfo"
                            else comma_separated (named_bits stream_option_names 0 (value_or_zero v)).
Proof.
  unfold remote_stream_options. destruct (match v with Some z => Z.eqb z 15 | None => false end); [reflexivity|].
  rewrite <- (flag_values_bits stream_option_names 0), <- join_comma. reflexivity.
Qed.

Lemma command_type_text v :
  command_type v = if (match v with Some z => Z.eqb z 511 | None => false end) then lit "All"
                   else comma_separated (named_bits command_type_names 0 (value_or_zero v)).
Proof.
  unfold command_type. destruct (match v with Some z => Z.eqb z 511 | None => false end); [reflexivity|].
  rewrite <- (flag_values_bits command_type_names 0), <- join_comma. reflexivity.
Qed.

(* a decoder of the texts, to show that they are distinct *)
Definition decode_flag (full : list N) (mask : Z) (names : list (list N * Z)) (s : list N) : Z :=
  if str_eqb s full then mask
  else fold_left (fun acc p => if existsb (str_eqb (fst p)) (split_on 44 (filter (fun c => negb (N.eqb c 32)) s)) then (acc + snd p)%Z else acc) names 0%Z.

Lemma zrange_in n z : (0 <= z < Z.of_nat n)%Z -> In z (map Z.of_nat (List.seq 0 n)).
Proof. intros H. apply in_map_iff. exists (Z.to_nat z). split; [lia|]. apply in_seq. lia. Qed.

Lemma remote_stream_decode z : (0 <= z < 16)%Z ->
  decode_flag (lit "AddInvocationInfo") 15 (with_flags stream_option_names 0) (remote_stream_options (Some z)) = z.
Proof.
  intros H. assert (C : forallb (fun z => Z.eqb (decode_flag (lit "AddInvocationInfo") 15 (with_flags stream_option_names 0) (remote_stream_options (Some z))) z) (map Z.of_nat (List.seq 0 16)) = true) by (vm_compute; reflexivity).
  rewrite forallb_forall in C. apply Z.eqb_eq. apply C. apply zrange_in. exact H.
Qed.

Lemma command_type_decode z : (0 <= z < 512)%Z ->
  decode_flag (lit "All") 511 (with_flags command_type_names 0) (command_type (Some z)) = z.
Proof.
  intros H. assert (C : forallb (fun z => Z.eqb (decode_flag (lit "All") 511 (with_flags command_type_names 0) (command_type (Some z))) z) (map Z.of_nat (List.seq 0 512)) = true) by (vm_compute; reflexivity).
  rewrite forallb_forall in C. apply Z.eqb_eq. apply C. apply zrange_in. exact H.
Qed.

Lemma remote_stream_inj a b : (0 <= a < 16)%Z -> (0 <= b < 16)%Z ->
  remote_stream_options (Some a) = remote_stream_options (Some b) -> a = b.
Proof. intros Ha Hb E. rewrite <- (remote_stream_decode a Ha), <- (remote_stream_decode b Hb). now rewrite E. Qed.
Lemma command_type_inj a b : (0 <= a < 512)%Z -> (0 <= b < 512)%Z ->
  command_type (Some a) = command_type (Some b) -> a = b.
Proof. intros Ha Hb E. rewrite <- (command_type_decode a Ha), <- (command_type_decode b Hb). now rewrite E. Qed.

(* enumerations *)
Lemma zassoc_in {A} (m : list (Z * A)) k a : zassoc k m = Some a -> In (k, a) m.
Proof.
  induction m as [|[k' x] m IH]; cbn [zassoc]; [discriminate|]. destruct (Z.eqb_spec k k') as [->|].
  - intros H. left. congruence.
  - intros H. right. now apply IH.
Qed.

Lemma prt_text_cases p : 
  match prt_text p with
  | Ok s => (0 <= p_value p <= (if p_v2 p then 3 else 8))%Z
  | Err e => e = KeyError /\ ~ (0 <= p_value p <= (if p_v2 p then 3 else 8))%Z
  end.
Proof.
  unfold prt_text, enum_to_string, value_or_zero, prt_map. destruct p as [v2 z]. cbn [p_v2 p_value]. destruct v2; cbn [zassoc];
    repeat match goal with |- context [Z.eqb z ?k] => destruct (Z.eqb_spec z k) as [->|]; [cbn; lia|] end; (split; [reflexivity|lia]).
Qed.

Lemma prt_text_inj v2 a b s : prt_text {| p_v2 := v2; p_value := a |} = Ok s -> prt_text {| p_v2 := v2; p_value := b |} = Ok s -> a = b.
Proof.
  unfold prt_text, enum_to_string, value_or_zero. cbn [p_v2 p_value]. intros Ha Hb.
  destruct (zassoc a (prt_map v2)) as [sa|] eqn:Ea; [|discriminate]. destruct (zassoc b (prt_map v2)) as [sb|] eqn:Eb; [|discriminate].
  assert (sa = s) by congruence. assert (sb = s) by congruence. subst sa sb.
  apply zassoc_in in Ea. apply zassoc_in in Eb.
  assert (C : forallb (fun x => forallb (fun y => implb (str_eqb (snd x) (snd y)) (Z.eqb (fst x) (fst y))) (prt_map v2)) (prt_map v2) = true) by (destruct v2; vm_compute; reflexivity).
  rewrite forallb_forall in C. specialize (C _ Ea). rewrite forallb_forall in C. specialize (C _ Eb). cbn [fst snd] in C.
  assert (R : str_eqb s s = true) by (apply (proj2 (list_eqb_spec N.eqb (fun x y => N.eqb_eq x y) s s)); reflexivity).
  rewrite R in C. cbn [implb] in C. now apply Z.eqb_eq.
Qed.
