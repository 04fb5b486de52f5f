(* C69: waiting for a pipeline comes back with what was said, with the library's own reading. *)
From Verif Require Import Base BaseProofs Lit NumModel TextModel MsgModel MsgSpec XmlModel WsmanModel ShellModel ShellSpec FragModel FragSpec SerModel SerClasses SendClasses WireModel ObjModel StartModel TellModel PoolModel PoolSpec PoolProofs9 LibModel RdSpec HearSpec HearProofs HearProofs2 HearProofs3 HearProofs4 EndSpec EndProofs2.
From Coq Require Import Permutation.
Local Open Scope list_scope.

Section Ended.
  Context {HS RK : Type} (x : outside HS RK) (fuel : nat) (heap : list hobj) (hs : option host) (key : option bytes).
  Notation ci := (option_map (x_cipher x) key).
  Notation E := (library_env x fuel heap hs).
  Lemma heard_types items ms : Forall2 (heard x key) items ms -> Forall (fun e => In (fst e) reports_of_a_pipeline) items -> Forall (fun m => In (m_type m) reports_of_a_pipeline) ms.
  Proof. induction 1 as [|e m items ms H _ IH]; intros F; [constructor|]. constructor; [rewrite (proj1 H); exact (Forall_inv F)|exact (IH (Forall_inv_tail F))]. Qed.
  Lemma heard_running items ms : Forall2 (heard x key) items ms -> Forall (fit ci (x_float x)) items ->
    forall zs, Forall2 (fun e => says_state (snd e)) (of_type PIPELINE_STATE items) zs -> Forall (fun z => z = pl_running) zs -> Forall (still_running E) ms.
  Proof.
    induction 1 as [|e m items ms H _ IH]; intros F zs Z R; [constructor|]. specialize (IH (Forall_inv_tail F)). apply Forall_inv in F. unfold of_type in Z. cbn [filter] in Z.
    destruct (Z.eqb_spec (fst e) PIPELINE_STATE) as [Es|Es].
    - inversion Z as [|e0 z1 l0 zs1 S1 Z1]; subst. constructor; [|exact (IH zs1 Z1 (Forall_inv_tail R))]. intros o (_ & C).
      destruct (state_of x fuel heap hs key e m H F Es) as (g & Cg & A & _). assert (g = o) by congruence. subst g. rewrite (A z1 S1). exact (Forall_inv R).
    - constructor; [|exact (IH zs Z R)]. intros o (T & _). exfalso. apply Es. rewrite <- T. symmetry. exact (proj1 H).
  Qed.
End Ended.

Lemma last_cons {A} (b : list A) : forall y d, last (y :: b) d = last b y.
Proof. induction b as [|c b IH]; intros y d; [reflexivity|]. change (last (y :: c :: b) d) with (last (c :: b) d). rewrite (IH c d), (IH c y). reflexivity. Qed.
Lemma last_app {A} (a b : list A) : forall d, last (a ++ b) d = last b (last a d).
Proof. induction a as [|y a IH]; intros d; [reflexivity|]. cbn [app]. rewrite !last_cons. apply IH. Qed.
Lemma last_same {A} (d : A) l : Forall (fun z => z = d) l -> last l d = d.
Proof. induction 1 as [|a l H F IH]; [reflexivity|]. destruct l; [exact H|exact IH]. Qed.

Theorem ended_with {HS RK} (x : outside HS RK) fuel heap hs n r (w : world graph (command value) HS RK) answers ss state rc cs ts ws wl items0 items1 zs0 zs1 :
  let E := library_env x fuel heap hs in
  let ci := option_map (x_cipher x) (rp_cipher (w_pool w)) in
  let items := items0 ++ items1 in
  r < length (w_heap w) -> ps_id (the_ps r w) <> [] ->
  dict_get str_eqb (ps_id (the_ps r w)) (rp_pipelines (w_pool w)) = Some r -> rp_exchange (w_pool w) = None ->
  ps_state (the_ps r w) = pl_running ->
  in_turn (x_srv x (w_disabled w)) (w_hist w) (ps_command_id (the_ps r w)) answers ->
  Forall2 says answers (ss ++ [Said state rc cs]) -> Forall only_stdout (ss ++ [Said state rc cs]) ->
  NoDup (map t_oid ts) -> Forall (fun t => t_pieces t <> []) ts ->
  (forall t, In t ts -> dict_get Z.eqb (t_oid t) (rp_receiver (w_pool w)) = None) ->
  interleave (map stream ts) (concat (ws ++ [wl])) -> Forall2 word_wire (ws ++ [wl]) (arrived (ss ++ [Said state rc cs])) ->
  Forall2 written items0 (concat (map completes ws)) -> Forall2 written items1 (completes wl) ->
  Forall (fit ci (x_float x)) items -> Forall (fun e => In (fst e) reports_of_a_pipeline) items ->
  Forall2 (fun e => says_state (snd e)) (of_type PIPELINE_STATE items0) zs0 -> Forall (fun z => z = pl_running) zs0 ->
  Forall2 (fun e => says_state (snd e)) (of_type PIPELINE_STATE items1) zs1 -> last zs1 pl_running <> pl_running ->
  length answers <= n ->
  exists out w' qs, end_invoke E n r w = (Ret out, w') /\ requests w w' qs /\ map snd qs = answers /\
    (forall q a, In (q, a) qs -> q_op q = OpReceive /\ q_body q = Some (receive_body (lit "stdout") (ps_command_id (the_ps r w)))) /\
    Permutation (concat (map completes (ws ++ [wl]))) (map t_msg ts) /\
    let p := the_ps r w in let p' := the_ps r w' in
    ps_output p' = out /\ gained ci (x_float x) PIPELINE_OUTPUT items (ps_output p) out /\
    gained_errors ci (x_float x) items (ps_error p) (ps_error p') /\
    gained ci (x_float x) DEBUG_RECORD items (ps_debug p) (ps_debug p') /\
    gained ci (x_float x) VERBOSE_RECORD items (ps_verbose p) (ps_verbose p') /\
    gained ci (x_float x) WARNING_RECORD items (ps_warning p) (ps_warning p') /\
    gained ci (x_float x) PROGRESS_RECORD items (ps_progress p) (ps_progress p') /\
    gained ci (x_float x) INFORMATION_RECORD items (ps_information p) (ps_information p') /\
    ps_state p' = last zs1 pl_running /\ ps_had_errors p' = (ps_had_errors p || existsb (Z.eqb pl_failed) zs1)%bool.
Proof.
  intros E ci items L I1 G X Sr T Sa Fo N Np Nr Il Fw W0 W1 Ft Ty Z0 R0 Z1 R1 Ln.
  apply Forall_app in Ft as [Ft0 Ft1]. apply Forall_app in Ty as [Ty0 Ty1].
  destruct (all_heard x fuel (rp_cipher (w_pool w)) items0 _ W0 Ft0) as (ms0 & M0 & H0).
  destruct (all_heard x fuel (rp_cipher (w_pool w)) items1 _ W1 Ft1) as (ms1 & M1 & H1).
  assert (Fr : Forall (asks_nothing E) (ms0 ++ ms1)).
  { apply (Forall_impl (asks_nothing E) (fun m (H : In (m_type m) reports_of_a_pipeline) => or_introl H)). apply Forall_app. split; [exact (heard_types x (rp_cipher (w_pool w)) items0 ms0 H0 Ty0)|exact (heard_types x (rp_cipher (w_pool w)) items1 ms1 H1 Ty1)]. }
  pose proof (heard_running x fuel heap hs (rp_cipher (w_pool w)) items0 ms0 H0 Ft0 zs0 Z0 R0) as Sn.
  destruct (states_heard x fuel heap hs (rp_cipher (w_pool w)) items1 ms1 H1 Ft1 zs1 Z1 pl_running) as (S1 & _).
  assert (Fin : final_state E pl_running ms1 <> pl_running) by (unfold E; rewrite S1; exact R1).
  destruct (ends E n r w answers ss state rc cs ts ws wl ms0 ms1 (conj L (conj I1 (conj G X))) (library_honest x fuel (rp_cipher (w_pool w))) Sr T Sa Fo N Np Nr Il Fw M0 M1 Fr Sn Fin Ln)
    as (out & w' & qs & l & He & Q & Lg & Ms & Rq & U & Aq & Pm & _).
  exists out, w', qs. split; [exact He|]. split; [exact Q|]. split; [exact Ms|]. split; [exact Aq|]. split; [exact Pm|]. cbv zeta.
  destruct (waited x fuel heap hs n r w w' out L I1 G X He) as (qs' & l' & Q' & L' & _ & K).
  assert (qs' = qs) by (unfold requests in *; eapply app_inv_head; rewrite <- Q', <- Q; reflexivity). subst qs'.
  assert (l' = l) by (unfold since in *; eapply app_inv_head; rewrite <- L', <- Lg; reflexivity). subst l'.
  rewrite <- Rq in Sa.
  assert (Wr : Forall2 written items (concat (map completes (ws ++ [wl])))).
  { unfold items. rewrite map_app, concat_app. cbn [map]. rewrite concat_single. apply Forall2_app; assumption. }
  assert (Ft : Forall (fit ci (x_float x)) items) by (apply Forall_app; split; assumption).
  destruct (K _ ts (ws ++ [wl]) items U Sa N Np Nr Il Fw Wr Ft) as (_ & A1 & A2 & A3 & A4 & A5 & A6 & A7 & A8 & _ & A9). clear K.
  split; [exact A1|]. split; [exact A2|]. split; [exact A3|]. split; [exact A4|]. split; [exact A5|]. split; [exact A6|]. split; [exact A7|]. split; [exact A8|].
  assert (Zs : Forall2 (fun e => says_state (snd e)) (of_type PIPELINE_STATE items) (zs0 ++ zs1)).
  { unfold items, of_type. rewrite filter_app. apply Forall2_app; assumption. }
  destruct (A9 _ Zs) as (B1 & B2). rewrite Sr, last_app, (last_same pl_running zs0 R0) in B1. split; [exact B1|]. rewrite B2, existsb_app. f_equal.
  replace (existsb (Z.eqb pl_failed) zs0) with false; [reflexivity|]. symmetry. clear -R0. induction R0 as [|a l H F IH]; [reflexivity|]. subst a. cbn [existsb]. rewrite IH. reflexivity.
Qed.
