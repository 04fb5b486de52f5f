(* Property theorems C78, continued: the requests. *)
From Verif Require Import Base BaseProofs Lit NumModel TextModel XmlModel WsmanModel ShellModel ShellSpec FragModel FragSpec MsgModel UtilModel TransModel PoolModel PoolSpec ApartSpec ApartSpec2 ApartProofs2 ApartProofs3 ApartProofs4 ApartProofs5 PoolToy ApartProps.

(* ---- C78 ---- *)
(* Whatever is called on a pipeline, and whatever the server and the host answer,
   also if the call fails: no request names another pipeline.  All names are its id,
   as it is or in upper case, and the command id it has before or after.  The
   registry of the pool has nothing else under its id. *)
Theorem C78_asked : forall Obj Cmd HS RK (E : env Obj Cmd HS RK) fuel o r w, about o = OfPipeline r ->
  (forall k, dict_get str_eqb (ps_id (the_ps r w)) (rp_pipelines (w_pool w)) = Some k -> k = r) ->
  let w' := snd (run_op E fuel o w) in
  exists qs, requests w w' qs /\ Forall (fun e => Forall (fun i =>
    i = ps_id (the_ps r w) \/ i = upper (ps_id (the_ps r w)) \/ ps_command_id (the_ps r w) = Some i \/ ps_command_id (the_ps r w') = Some i) (names (fst e))) qs.
Proof. exact @asked_op. Qed.
Print Assumptions C78_asked.

(* The same in every world that is reached from a new pool, if no other pipeline
   object has the same id. *)
Theorem C78_asked_reached : forall Obj Cmd HS RK (E : env Obj Cmd HS RK) l fuel o r w0,
  let w := run_ops E l w0 in let w' := snd (run_op E fuel o w) in
  rp_pipelines (w_pool w0) = [] -> about o = OfPipeline r -> (forall k, k < length (w_heap w) -> ps_id (the_ps k w) = ps_id (the_ps r w) -> k = r) ->
  exists qs, requests w w' qs /\ Forall (fun e => Forall (fun i =>
    i = ps_id (the_ps r w) \/ i = upper (ps_id (the_ps r w)) \/ ps_command_id (the_ps r w) = Some i \/ ps_command_id (the_ps r w') = Some i) (names (fst e))) qs.
Proof. exact @reached_asked. Qed.
Print Assumptions C78_asked_reached.

(* A case: with one pipeline running another is started, polled and stopped.  The
   server of the case gives every pipeline the command id CMD. *)
Example C78_asked_case : let E := toy_env (scripted two_answers) in
  let w := run_ops E (map (fun o => (20, o)) [PoolOpen None; Create pid1; Create pid2; AddCommand 0 65%N; AddCommand 1 66%N; Begin 0 (no_args None)]) (new_world 1000) in
  let w1 := snd (run_op E 20 (Begin 1 (no_args None)) w) in let w2 := snd (run_op E 20 (Stop 1) (snd (run_op E 20 (Poll 1 None) w1))) in
  dict_get str_eqb (ps_id (the_ps 0 w)) (rp_pipelines (w_pool w)) = Some 0 /\ dict_get str_eqb (ps_id (the_ps 1 w)) (rp_pipelines (w_pool w)) = None /\
  dict_get str_eqb (ps_id (the_ps 1 w1)) (rp_pipelines (w_pool w1)) = Some 1 /\ ps_id (the_ps 0 w) = pid1 /\ ps_id (the_ps 1 w) = pid2 /\ pid1 <> pid2 /\
  map (fun e => (q_op (fst e), names (fst e))) (skipn (length (w_hist w)) (w_hist w2)) = [(OpCommand, [pid2]); (OpReceive, [lit "CMD"]); (OpSignal, [upper pid2])].
Proof.
  cbv zeta. split; [vm_compute; reflexivity|]. split; [vm_compute; reflexivity|]. split; [vm_compute; reflexivity|]. split; [vm_compute; reflexivity|]. split; [vm_compute; reflexivity|]. split; [discriminate|].
  vm_compute. reflexivity.
Qed.

(* Whatever is called on the pool, no request names any pipeline. *)
Theorem C78_pool_asked : forall Obj Cmd HS RK (E : env Obj Cmd HS RK) fuel o w, about o = OfPool ->
  exists qs, requests w (snd (run_op E fuel o w)) qs /\ Forall (fun e => names (fst e) = []) qs.
Proof. intros Obj Cmd HS RK E fuel o w A. exact (pool_asked E fuel o A w). Qed.
Print Assumptions C78_pool_asked.

(* A case: two pipelines run, and the pool asks how many runspaces are available and
   is disconnected. *)
Example C78_pool_asked_case : let E := toy_env (scripted [opened_msgs; said_data [whole 7 RUNSPACE_AVAILABILITY [1%N; 5%N]]]) in
  let w := run_ops E (map (fun o => (20, o)) [PoolOpen None; Create pid1; Create pid2; AddCommand 0 65%N; AddCommand 1 66%N; Begin 0 (no_args None); Begin 1 (no_args None)]) (new_world 1000) in
  let w' := snd (run_op E 20 PoolDisconnect (snd (run_op E 20 Available w))) in
  length (rp_pipelines (w_pool w)) = 2 /\ rp_state (w_pool w') = rs_disconnected /\
  map (fun e => (q_op (fst e), names (fst e))) (skipn (length (w_hist w)) (w_hist w')) = [(OpSend, []); (OpReceive, []); (OpDisconnect, [])].
Proof. cbv zeta. split; [vm_compute; reflexivity|]. split; vm_compute; reflexivity. Qed.

(* get_command_metadata, which runs a new pipeline: its requests name that one only. *)
Theorem C78_metadata_asked : forall Obj Cmd HS RK (E : env Obj Cmd HS RK) fuel id a w,
  let w' := snd (run_op E fuel (Metadata id a) w) in
  exists qs, requests w w' qs /\ Forall (fun e => Forall (fun i => i = id \/ ps_command_id (the_ps (length (w_heap w)) w') = Some i) (names (fst e))) qs.
Proof. exact @metadata_asked. Qed.
Print Assumptions C78_metadata_asked.
Example C78_metadata_asked_case : let E := toy_env (scripted [opened_msgs; said_data [whole 3 PIPELINE_OUTPUT [1%N] ++ whole 4 PIPELINE_OUTPUT (lit "x") ++ whole 5 PIPELINE_STATE [4%N]]]) in
  let w := run_ops E (map (fun o => (20, o)) [PoolOpen None; Create pid1; AddCommand 0 65%N; Begin 0 (no_args None)]) (new_world 1000) in
  let w' := snd (run_op E 20 (Metadata pid2 (None, lit "a")) w) in
  map snd (ps_output (the_ps 1 w')) = [lit "x"] /\ dict_get str_eqb pid1 (rp_pipelines (w_pool w)) = Some 0 /\
  map (fun e => (q_op (fst e), names (fst e))) (skipn (length (w_hist w)) (w_hist w')) = [(OpCommand, [pid2]); (OpReceive, [lit "CMD"])].
Proof. cbv zeta. split; [vm_compute; reflexivity|]. split; vm_compute; reflexivity. Qed.
