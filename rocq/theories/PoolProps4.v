(* Property theorems C54, and C21 for a pool that is already closed or broken. *)
From Verif Require Import Base BaseProofs Lit NumModel TextModel XmlModel WsmanModel ShellModel ShellSpec FragModel MsgModel UtilModel TransModel PoolModel PoolSpec PoolSpec2 PoolProofs13 PoolToy.

(* ---- C54 ---- *)
(* Over every history: the versions are those the server stated last; the size
   of the default envelope is raised if a protocol of at least 2.2 was stated,
   and an envelope size is changed in no other case. *)
Theorem C54_negotiated : forall Obj Cmd HS RK (E : env Obj Cmd HS RK) ops w,
  let p := w_pool w in let p' := w_pool (run_ops E ops w) in
  exists l, since w (run_ops E ops w) l /\
    (rp_protocol p', rp_psver p', rp_server p') = List.last (stated E l) (rp_protocol p, rp_psver p, rp_server p) /\
    (rp_envelope p = 153600%Z -> (exists c, In c (stated E l) /\ at_least (protocol_of c) (lit "2.2")) ->
     (rp_envelope p', rp_payload p') = (512000%Z, max_payload_size (ev_skeleton E) 512000)) /\
    (rp_envelope p <> 153600%Z \/ (forall c, In c (stated E l) -> ~ at_least (protocol_of c) (lit "2.2")) ->
     (rp_envelope p', rp_payload p') = (rp_envelope p, rp_payload p)).
Proof. exact @negotiated. Qed.
Print Assumptions C54_negotiated.

(* A reset with an older protocol sends nothing and changes nothing. *)
Theorem C54_reset_old : forall Obj Cmd HS RK (E : env Obj Cmd HS RK) fuel w,
  rp_state (w_pool w) = rs_opened -> ~ at_least (rp_protocol (w_pool w)) (lit "2.3") ->
  exists e, reset_runspace_state E fuel w = (Raise (XExn e), w) /\
    (version_equal_or_newer (match rp_protocol (w_pool w) with Some t => t | None => [] end) (lit "2.3") = Ok false -> e = InvalidPSRPOperation).
Proof. exact @reset_old. Qed.
Print Assumptions C54_reset_old.

(* Otherwise it returns only if the server answered this very call with true,
   having sent one such call; a false answer makes it raise. *)
Theorem C54_reset : forall Obj Cmd HS RK (E : env Obj Cmd HS RK) fuel w,
  rp_state (w_pool w) = rs_opened -> at_least (rp_protocol (w_pool w)) (lit "2.3") ->
  let ci := rp_ci (w_pool w) in
  let '(x, w') := reset_runspace_state E fuel w in
  exists l, since w w' l /\
    (x = Ret tt -> (exists l', l = EOut None (OReset ci) :: l' /\ call_ids l' = []) /\ answers_to E ci l = [VBool true]) /\
    (forall e, x = Raise e -> forall a more, answers_to E ci l = a :: more -> rfalsy a = true -> e = XExn InvalidPSRPOperation).
Proof. exact @reset_call. Qed.
Print Assumptions C54_reset.

Example C54_case :
  let answers := [opened_msgs; said_data [whole 3 RUNSPACE_AVAILABILITY [0%N; 1%N]]] in
  let w := toy_run answers 1000 [PoolOpen None] in
  rp_protocol (w_pool w) = Some (lit "2.3") /\ rp_envelope (w_pool w) = 512000%Z /\
  rp_payload (w_pool w) = max_payload_size 1200 512000 /\
  let '(x, w') := reset_runspace_state (toy_env (scripted answers)) 20 w in
  x = Ret tt /\ ops_made w' = [OpCreate; OpReceive; OpSend; OpReceive] /\ call_ids (w_log w') = [0%Z].
Proof. vm_compute. repeat split. Qed.
Example C54_old_case :
  let w0 := toy_run [opened_msgs] 1000 [PoolOpen None] in
  let w := set_w_pool (set_rp_protocol (Some (lit "2.2")) (w_pool w0)) w0 in
  rp_state (w_pool w) = rs_opened /\ version_equal_or_newer (lit "2.2") (lit "2.3") = Ok false /\
  fst (reset_runspace_state (toy_env (scripted [opened_msgs])) 20 w) = Raise (XExn InvalidPSRPOperation).
Proof. vm_compute. repeat split. Qed.

(* ---- C21 ---- *)
(* Closing a pool that is closed, closing or broken sends nothing. *)
Theorem C21_pool_close_guard : forall Obj Cmd HS RK (E : env Obj Cmd HS RK) w,
  In (rp_state (w_pool w)) [rs_closed; rs_closing; rs_broken] -> pool_close E w = (Ret tt, w).
Proof. exact @close_done_already. Qed.
Print Assumptions C21_pool_close_guard.
Example C21_pool_close_case :
  let broken := said_data [whole 2 RUNSPACEPOOL_STATE [5%N]] in
  let w := toy_run [broken] 1000 [PoolOpen None; PoolClose] in
  rp_state (w_pool w) = rs_broken /\ ops_made w = [OpCreate; OpReceive].
Proof. vm_compute. repeat split. Qed.
