(* C80: a pipeline that is used again has the results of its last run only.
   Missing from the partial theorem: had_errors, for which it is false, and the
   limits of C69. *)
From Verif Require Import Base BaseProofs Lit NumModel TextModel Utf8Model MsgModel MsgSpec XmlModel WsmanModel WsmanSpec ShellModel ShellSpec FragModel FragSpec SerModel WireModel ObjModel TellModel PoolModel PoolSpec PoolToy LibModel RdSpec HearSpec HearProofs4 AgainModel AgainSpec AgainProofs AgainProofs2 HearProps.
From Coq Require Import Permutation.
Local Open Scope list_scope.

(* Clearing the streams empties the output and the six streams and changes nothing
   else of the pipeline, of the others or of the pool, and asks the server for
   nothing; clearing the commands empties these and changes nothing else. *)
Theorem C80_cleared : forall Obj Cmd HS RK r (w : world Obj Cmd HS RK), r < length (w_heap w) ->
  (let w' := snd (clear_streams r w) in
   fst (clear_streams r w) = Ret tt /\ results (the_ps r w') = [[]; []; []; []; []; []; []] /\ ps_commands (the_ps r w') = ps_commands (the_ps r w) /\ rest_same (the_ps r w) (the_ps r w') /\
   (forall k, k <> r -> the_ps k w' = the_ps k w) /\ w_pool w' = w_pool w /\ w_hist w' = w_hist w /\ w_log w' = w_log w) /\
  (let w' := snd (clear_commands r w) in
   fst (clear_commands r w) = Ret tt /\ ps_commands (the_ps r w') = [] /\ results (the_ps r w') = results (the_ps r w) /\ rest_same (the_ps r w) (the_ps r w') /\
   (forall k, k <> r -> the_ps k w' = the_ps k w) /\ w_pool w' = w_pool w /\ w_hist w' = w_hist w /\ w_log w' = w_log w).
Proof. intros Obj Cmd HS RK r w L. exact (conj (cleared r w L) (commands_cleared r w L)). Qed.
Print Assumptions C80_cleared.

(* Starting a pipeline, with any input and whatever the server answers, also when it
   fails: all pipelines keep their results. *)
Theorem C80_started : forall Obj Cmd HS RK (E : env Obj Cmd HS RK) r a w k,
  let w' := snd (begin_invoke E r a w) in
  length (w_heap w') = length (w_heap w) /\ results (the_ps k w') = results (the_ps k w) /\ ps_had_errors (the_ps k w') = ps_had_errors (the_ps k w) /\
  ps_commands (the_ps k w') = ps_commands (the_ps k w) /\ ps_id (the_ps k w') = ps_id (the_ps k w).
Proof. intros Obj Cmd HS RK E r a w k. destruct (idle_begin E r a w) as (L & H). split; [exact L|exact (H k)]. Qed.
Print Assumptions C80_started.

(* Cleared, started and waited for: output and streams are what the server said of
   this run, whatever there was of the runs before. *)
Theorem C80_again_partial : forall HS RK (x : outside HS RK) fuel heap hs n r a (w0 w w' : world graph (command value) HS RK) out,
  let E := library_env x fuel heap hs in
  let ci := option_map (x_cipher x) (rp_cipher (w_pool w)) in
  r < length (w_heap w0) -> begin_invoke E r a (snd (clear_streams r w0)) = (Ret tt, w) ->
  ps_id (the_ps r w0) <> [] -> dict_get str_eqb (ps_id (the_ps r w0)) (rp_pipelines (w_pool w)) = Some r -> rp_exchange (w_pool w) = None ->
  end_invoke E n r w = (Ret out, w') ->
  exists qs l, requests w w' qs /\ since w w' l /\
    forall ss ts ws items,
      undisturbed qs l -> Forall2 says (receives qs) ss ->
      NoDup (map t_oid ts) -> Forall (fun t => t_pieces t <> []) ts ->
      (forall t, In t ts -> dict_get Z.eqb (t_oid t) (rp_receiver (w_pool w)) = None) ->
      interleave (map stream ts) (concat ws) -> Forall2 word_wire ws (arrived ss) ->
      Forall2 written items (concat (map completes ws)) -> Forall (fit ci (x_float x)) items ->
      let p' := the_ps r w' in
      ps_output p' = out /\ gained ci (x_float x) PIPELINE_OUTPUT items [] out /\
      gained_errors ci (x_float x) items [] (ps_error p') /\
      gained ci (x_float x) DEBUG_RECORD items [] (ps_debug p') /\
      gained ci (x_float x) VERBOSE_RECORD items [] (ps_verbose p') /\
      gained ci (x_float x) WARNING_RECORD items [] (ps_warning p') /\
      gained ci (x_float x) PROGRESS_RECORD items [] (ps_progress p') /\
      gained ci (x_float x) INFORMATION_RECORD items [] (ps_information p') /\
      forall zs, Forall2 (fun e => says_state (snd e)) (of_type PIPELINE_STATE items) zs ->
        ps_had_errors p' = (ps_had_errors (the_ps r w0) || existsb (Z.eqb pl_failed) zs)%bool.
Proof. intros HS RK x fuel heap hs n r a w0 w w' out. exact (run_again HS RK x fuel heap hs n r a w0 w w' out). Qed.
Print Assumptions C80_again_partial.

(* ---- cases: a run that fails after some output, and one that completes ---- *)
Definition ag_env : env tobj N nat N := toy_env (scripted
  [opened_msgs; said_data [whole 3 PIPELINE_OUTPUT (lit "a") ++ whole 4 PIPELINE_STATE [5%N; 7%N]]; said_data [whole 5 PIPELINE_OUTPUT (lit "b") ++ whole 6 PIPELINE_STATE [4%N]]]).
Definition ag_first : world tobj N nat N := Eval vm_compute in
  run_ops ag_env (map (fun o => (20, o)) [PoolOpen None; Create pid1; AddCommand 0 65%N; Begin 0 (no_args None); End 0; Close 0]) (new_world 5000).
Definition ag_second (clear : bool) : world tobj N nat N :=
  run_ops ag_env (map (fun o => (20, o)) [Begin 0 (no_args None); End 0]) (if clear then snd (clear_streams 0 ag_first) else ag_first).
Example C80_case :
  (let p := the_ps 0 ag_first in ps_state p = pl_failed /\ map snd (ps_output p) = [lit "a"] /\ length (ps_error p) = 1 /\ ps_had_errors p = true) /\
  (let p := the_ps 0 (ag_second true) in ps_state p = pl_completed /\ map snd (ps_output p) = [lit "b"] /\ ps_error p = []) /\
  0 < length (w_heap ag_first) /\ fst (begin_invoke ag_env 0 (no_args None) (snd (clear_streams 0 ag_first))) = Ret tt /\
  ps_commands (the_ps 0 (snd (clear_commands 0 ag_first))) = [].
Proof.
  split; [cbv zeta; split; [vm_compute; reflexivity|]; split; [vm_compute; reflexivity|]; split; vm_compute; reflexivity|].
  split; [cbv zeta; split; [vm_compute; reflexivity|]; split; vm_compute; reflexivity|].
  split; [apply Nat.ltb_lt; vm_compute; reflexivity|]. split; vm_compute; reflexivity.
Qed.
(* the library's own messages: the world of C69_case, begun after being cleared *)
Definition ag_before : world graph (command value) nat N := Eval vm_compute in run_ops h_env TellProps.lib_ops (TellProps.lib_world 5000).
Definition ag_begun : out unit * world graph (command value) nat N := Eval vm_compute in begin_invoke h_env 0 TellProps.lib_args (snd (clear_streams 0 ag_before)).
Example C80_again_case : 0 < length (w_heap ag_before) /\ begin_invoke h_env 0 TellProps.lib_args (snd (clear_streams 0 ag_before)) = (Ret tt, snd ag_begun) /\
  ps_id (the_ps 0 ag_before) <> [] /\ dict_get str_eqb (ps_id (the_ps 0 ag_before)) (rp_pipelines (w_pool (snd ag_begun))) = Some 0 /\ rp_exchange (w_pool (snd ag_begun)) = None /\
  snd ag_begun = h_begun.
Proof.
  split; [apply Nat.ltb_lt; vm_compute; reflexivity|]. split; [vm_compute; reflexivity|]. split; [discriminate|]. split; [vm_compute; reflexivity|]. split; vm_compute; reflexivity.
Qed.

(* That a run had errors is never forgotten: the second run completes without any,
   its streams are cleared before it, and had_errors is true after it. *)
Theorem C80_had_errors_refuted : exists (E : env tobj N nat N) (w : world tobj N nat N) a n w1 out w2,
  ps_state (the_ps 0 w) = pl_failed /\ begin_invoke E 0 a (snd (clear_streams 0 w)) = (Ret tt, w1) /\ end_invoke E n 0 w1 = (Ret out, w2) /\
  ps_state (the_ps 0 w2) = pl_completed /\ ps_error (the_ps 0 w2) = [] /\ ps_had_errors (the_ps 0 w2) = true.
Proof.
  exists ag_env, ag_first, (no_args None), 20.
  exists (snd (begin_invoke ag_env 0 (no_args None) (snd (clear_streams 0 ag_first)))).
  exists (ps_output (the_ps 0 (ag_second true))), (ag_second true).
  split; [vm_compute; reflexivity|]. split; [vm_compute; reflexivity|]. split; [vm_compute; reflexivity|]. split; [vm_compute; reflexivity|]. split; vm_compute; reflexivity.
Qed.
Print Assumptions C80_had_errors_refuted.

(* Without clearing, the second run returns the output of the first one too, and has
   its error. *)
Theorem C80_not_cleared_refuted : exists (E : env tobj N nat N) (w : world tobj N nat N) a n w1 out w2,
  ps_output (the_ps 0 w) <> [] /\ begin_invoke E 0 a w = (Ret tt, w1) /\ end_invoke E n 0 w1 = (Ret out, w2) /\
  ps_state (the_ps 0 w2) = pl_completed /\ map snd out = [lit "a"; lit "b"] /\ ps_error (the_ps 0 w2) = ps_error (the_ps 0 w) /\ length (ps_error (the_ps 0 w2)) = 1.
Proof.
  exists ag_env, ag_first, (no_args None), 20.
  exists (snd (begin_invoke ag_env 0 (no_args None) ag_first)).
  exists (ps_output (the_ps 0 (ag_second false))), (ag_second false).
  split; [discriminate|]. split; [vm_compute; reflexivity|]. split; [vm_compute; reflexivity|]. split; [vm_compute; reflexivity|]. split; [vm_compute; reflexivity|]. split; vm_compute; reflexivity.
Qed.
Print Assumptions C80_not_cleared_refuted.
