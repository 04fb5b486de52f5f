(* Property theorems C20, C21 (pools) and C22. *)
From Verif Require Import Base BaseProofs Lit NumModel TextModel XmlModel WsmanModel ShellModel ShellSpec FragModel MsgModel UtilModel TransModel PoolModel PoolSpec PoolProofs3 PoolProofs4 PoolProofs8 PoolProofs10 PoolProofs11 PoolToy.

(* ---- C20 ---- *)
(* open: nothing on an opened pool, an error that changes nothing and sends
   nothing on a pool that is neither new nor opened *)
Theorem C20_open_guard : forall Obj Cmd HS RK (E : env Obj Cmd HS RK) fuel a w,
  (rp_state (w_pool w) = rs_opened -> pool_open E fuel a w = (Ret tt, w)) /\
  (rp_state (w_pool w) <> rs_opened -> rp_state (w_pool w) <> rs_before_open ->
   pool_open E fuel a w = (Raise (XExn InvalidRunspacePoolStateError), w)).
Proof. exact (fun _ _ _ _ E fuel a w => conj (open_again E fuel a w) (open_wrong E fuel a w)). Qed.
Print Assumptions C20_open_guard.

Theorem C20_connect_guard : forall Obj Cmd HS RK (E : env Obj Cmd HS RK) w,
  (rp_state (w_pool w) = rs_opened -> pool_connect E w = (Ret tt, w)) /\
  (rp_state (w_pool w) <> rs_opened -> rp_state (w_pool w) <> rs_disconnected ->
   pool_connect E w = (Raise (XExn InvalidRunspacePoolStateError), w)).
Proof. exact (fun _ _ _ _ E w => conj (connect_again E w) (connect_wrong E w)). Qed.
Print Assumptions C20_connect_guard.

Theorem C20_disconnect_guard : forall Obj Cmd HS RK (E : env Obj Cmd HS RK) w,
  (rp_state (w_pool w) = rs_disconnected -> pool_disconnect E w = (Ret tt, w)) /\
  (rp_state (w_pool w) <> rs_opened -> rp_state (w_pool w) <> rs_disconnected ->
   pool_disconnect E w = (Raise (XExn InvalidRunspacePoolStateError), w)).
Proof. exact (fun _ _ _ _ E w => conj (disconnect_again E w) (disconnect_wrong E w)). Qed.
Print Assumptions C20_disconnect_guard.

(* resetting and asking for command metadata likewise *)
Theorem C20_other_guards : forall Obj Cmd HS RK (E : env Obj Cmd HS RK) fuel id a w, rp_state (w_pool w) <> rs_opened ->
  reset_runspace_state E fuel w =
    (if Z.eqb (rp_state (w_pool w)) rs_before_open then Ret tt else Raise (XExn InvalidRunspacePoolStateError), w) /\
  get_command_metadata E fuel id a w = (Raise (XExn InvalidRunspacePoolStateError), w).
Proof. exact (fun _ _ _ _ E fuel id a w H => conj (reset_wrong E fuel w H) (metadata_wrong E fuel id a w H)). Qed.
Print Assumptions C20_other_guards.

(* open acts on a new pool: it creates the shell, and returns only once the
   server has reported a state, which is then the state of the pool *)
Theorem C20_open_waits : forall Obj Cmd HS RK (E : env Obj Cmd HS RK) fuel a w w',
  rp_state (w_pool w) = rs_before_open -> pool_open E fuel a w = (Ret tt, w') ->
  exists l, since w w' l /\ last_reported E l (rp_state (w_pool w')) /\ rp_state (w_pool w') <> rs_negotiation_sent.
Proof. exact @open_waits. Qed.
Print Assumptions C20_open_waits.

Theorem C20_open_creates : forall Obj Cmd HS RK (E : env Obj Cmd HS RK) fuel a w w',
  rp_state (w_pool w) = rs_before_open -> sh_opened (rp_shell (w_pool w)) = false ->
  pool_open E fuel a w = (Ret tt, w') -> exists q x qs, requests w w' ((q, WBody x) :: qs) /\ q_op q = OpCreate.
Proof.
  exact (fun _ _ _ _ E fuel a w w' S O H =>
    match open_wire E fuel a w w' S O H with
    | ex_intro _ _ (ex_intro _ _ (ex_intro _ _ (ex_intro _ _ (ex_intro _ q (ex_intro _ x (ex_intro _ qs (conj _ (conj _ (conj Q (conj Qo _)))))))))) =>
        ex_intro _ q (ex_intro _ x (ex_intro _ qs (conj Q Qo)))
    end).
Qed.
Print Assumptions C20_open_creates.

(* disconnect acts on an opened pool, connect on a disconnected one: one
   request, and the state changes only when it was answered *)
Theorem C20_disconnect_acts : forall Obj Cmd HS RK (E : env Obj Cmd HS RK) w, rp_state (w_pool w) = rs_opened ->
  exists q a w', pool_disconnect E w =
      (match a with WBody _ => Ret tt | WFault f => Raise (XFault f) | WHttp c t => Raise (XHttp c t) | WExn e => Raise (XExn e) end, w') /\
    requests w w' [(q, a)] /\ q_op q = OpDisconnect /\
    q_selectors q = Some (shell_selector (or_empty (sh_id (rp_shell (w_pool w))))) /\
    rp_state (w_pool w') = match a with WBody _ => rs_disconnected | _ => rs_opened end.
Proof. exact @disconnect_acts. Qed.
Print Assumptions C20_disconnect_acts.

Theorem C20_connect_acts : forall Obj Cmd HS RK (E : env Obj Cmd HS RK) w,
  rp_state (w_pool w) = rs_disconnected -> rp_new_client (w_pool w) = false ->
  exists q a w', pool_connect E w =
      (match a with WBody _ => Ret tt | WFault f => Raise (XFault f) | WHttp c t => Raise (XHttp c t) | WExn e => Raise (XExn e) end, w') /\
    requests w w' [(q, a)] /\ q_op q = OpReconnect /\
    q_selectors q = Some (shell_selector (or_empty (sh_id (rp_shell (w_pool w))))) /\
    rp_state (w_pool w') = match a with WBody _ => rs_opened | _ => rs_disconnected end.
Proof. exact @connect_acts. Qed.
Print Assumptions C20_connect_acts.

(* every other operation leaves the state of the pool to the server: it is the
   one last reported while it ran, or unchanged if none was *)
Theorem C20_state_follows_server : forall Obj Cmd HS RK (E : env Obj Cmd HS RK) fuel o, 
  match o with PoolOpen _ | PoolClose | PoolConnect | PoolDisconnect | IsAlive _ => false | _ => true end = true ->
  forall w, let w' := snd (run_op E fuel o w) in
  exists l, since w w' l /\
    ((rp_state (w_pool w') = rp_state (w_pool w) /\ forall pl m st, In (EMsg pl m) l -> ~ reports E m st) \/
     last_reported E l (rp_state (w_pool w'))).
Proof. exact @state_follows_server. Qed.
Print Assumptions C20_state_follows_server.

Example C20_case :
  let w := toy_run [said_data [whole 1 SESSION_CAPABILITY (lit "c")]; opened_msgs] 1000 [PoolOpen None; PoolOpen None; PoolDisconnect; PoolDisconnect; PoolOpen None; PoolConnect] in
  ops_made w = [OpCreate; OpReceive; OpReceive; OpDisconnect; OpReconnect] /\ rp_state (w_pool w) = rs_opened.
Proof. vm_compute. split; reflexivity. Qed.

(* ---- C21 for pools ---- *)
Theorem C21_pool_delete_only_alive : forall Obj Cmd HS RK (E : env Obj Cmd HS RK) l w,
  sh_opened (rp_shell (w_pool w)) = false ->
  exists new, requests w (run_ops E l w) new /\
    (forall a q r b, new = a ++ (q, r) :: b -> q_op q = OpDelete -> alive a) /\
    (sh_opened (rp_shell (w_pool (run_ops E l w))) = true -> alive new).
Proof. exact @pool_deletes_only_alive. Qed.
Print Assumptions C21_pool_delete_only_alive.

Theorem C21_pool_second_close : forall Obj Cmd HS RK (E : env Obj Cmd HS RK) w x w',
  pool_close E w = (Ret x, w') -> pool_close E w' = (Ret tt, w').
Proof. exact @pool_second_close. Qed.
Print Assumptions C21_pool_second_close.

Example C21_pool_case :
  ops_made (toy_run [opened_msgs] 1000 [PoolClose; PoolOpen None; PoolClose; PoolClose]) = [] /\
  ops_made (toy_run [opened_msgs] 1000 [PoolOpen None; PoolOpen None; PoolClose; PoolClose; PoolOpen None]) = [OpCreate; OpReceive; OpDelete] /\
  sh_opened (rp_shell (w_pool (new_world 1000))) = false.
Proof. vm_compute. repeat split. Qed.

(* ---- C22 ---- *)
Theorem C22_begin_guard : forall Obj Cmd HS RK (E : env Obj Cmd HS RK) r a w,
  (~ In (ps_state (the_ps r w)) [pl_not_started; pl_stopped; pl_completed; pl_failed] ->
   begin_invoke E r a w = (Raise (XExn InvalidPipelineStateError), w)) /\
  (In (ps_state (the_ps r w)) [pl_not_started; pl_stopped; pl_completed; pl_failed] ->
   ps_commands (the_ps r w) = [] -> begin_invoke E r a w = (Raise (XExn InvalidPSRPOperation), w)).
Proof. exact (fun _ _ _ _ E r a w => conj (begin_wrong E r a w) (begin_empty E r a w)). Qed.
Print Assumptions C22_begin_guard.

Theorem C22_stop_guard : forall Obj Cmd HS RK (E : env Obj Cmd HS RK) r w,
  (In (ps_state (the_ps r w)) [pl_stopping; pl_stopped] -> ps_stop E r w = (Ret tt, w)) /\
  (~ In (ps_state (the_ps r w)) [pl_stopping; pl_stopped; pl_running] ->
   ps_stop E r w = (Raise (XExn InvalidPipelineStateError), w)).
Proof. exact (fun _ _ _ _ E r w => conj (stop_again E r w) (stop_wrong E r w)). Qed.
Print Assumptions C22_stop_guard.

Theorem C22_close_guard : forall Obj Cmd HS RK (E : env Obj Cmd HS RK) r w,
  (ps_state (the_ps r w) = pl_not_started -> ps_close E r w = (Ret tt, w)) /\
  (~ In (ps_state (the_ps r w)) [pl_not_started; pl_completed; pl_stopped; pl_failed] ->
   ps_close E r w = (Raise (XExn InvalidPipelineStateError), w)).
Proof. exact (fun _ _ _ _ E r w => conj (close_new E r w) (close_wrong E r w)). Qed.
Print Assumptions C22_close_guard.

Theorem C22_reconnect_guard : forall Obj Cmd HS RK (E : env Obj Cmd HS RK) r w,
  ps_state (the_ps r w) <> pl_disconnected -> ps_connect_async E r w = (Raise (XExn InvalidPipelineStateError), w).
Proof. exact @reconnect_wrong. Qed.
Print Assumptions C22_reconnect_guard.

Theorem C22_nested_guard : forall Obj Cmd HS RK r id (w : world Obj Cmd HS RK),
  (ps_state (the_ps r w) <> pl_running -> create_nested r id w = (Raise (XExn InvalidPipelineStateError), w)) /\
  (ps_state (the_ps r w) = pl_running -> ps_from_disconnect (the_ps r w) = true ->
   create_nested r id w = (Raise (XExn InvalidPSRPOperation), w)) /\
  (ps_state (the_ps r w) = pl_running -> ps_from_disconnect (the_ps r w) = false ->
   exists w', create_nested r id w = (Ret (length (w_heap w)), w') /\
     w_heap w' = w_heap w ++ [set_ps_nested true (new_ps id)] /\ w_pool w' = w_pool w /\ w_hist w' = w_hist w).
Proof. exact (fun _ _ _ _ r id w => conj (nested_wrong r id w) (conj (nested_reached r id w) (nested_made r id w))). Qed.
Print Assumptions C22_nested_guard.

(* the admitted uses act: one signal, or one connect, for this pipeline *)
Theorem C22_stop_acts : forall Obj Cmd HS RK (E : env Obj Cmd HS RK) r w w',
  ps_state (the_ps r w) = pl_running -> r < length (w_heap w) -> ps_stop E r w = (Ret tt, w') ->
  ps_state (the_ps r w') = pl_stopped /\
  rp_pipelines (w_pool w') = dict_del str_eqb (ps_id (the_ps r w)) (rp_pipelines (w_pool w)) /\
  exists q b, requests w w' [(q, WBody b)] /\ q_op q = OpSignal /\
    q_body q = Some (signal_body (lit "powershell/signal/ctrl_c") (upper (ps_id (the_ps r w)))).
Proof. exact @stop_done. Qed.
Print Assumptions C22_stop_acts.

Theorem C22_close_acts : forall Obj Cmd HS RK (E : env Obj Cmd HS RK) r w w',
  In (ps_state (the_ps r w)) [pl_completed; pl_stopped; pl_failed] -> ps_close E r w = (Ret tt, w') ->
  w_heap w' = w_heap w /\
  rp_pipelines (w_pool w') = dict_del str_eqb (ps_id (the_ps r w)) (rp_pipelines (w_pool w)) /\
  exists q b, requests w w' [(q, WBody b)] /\ q_op q = OpSignal /\
    q_body q = Some (signal_body (lit "http://schemas.microsoft.com/wbem/wsman/1/windows/shell/signal/Terminate")
                       (nonempty (ps_command_id (the_ps r w)) (ps_id (the_ps r w)))).
Proof. exact @close_done. Qed.
Print Assumptions C22_close_acts.

Theorem C22_reconnect_acts : forall Obj Cmd HS RK (E : env Obj Cmd HS RK) r w w',
  ps_state (the_ps r w) = pl_disconnected -> r < length (w_heap w) -> ps_connect_async E r w = (Ret tt, w') ->
  ps_state (the_ps r w') = pl_running /\ ps_from_disconnect (the_ps r w') = true /\ w_pool w' = w_pool w /\
  exists q b, requests w w' [(q, WBody b)] /\ q_op q = OpConnect /\
    q_body q = Some (Elem (rsp (lit "Connect")) [(lit "CommandId", ps_id (the_ps r w))] None []).
Proof. exact @reconnect_done. Qed.
Print Assumptions C22_reconnect_acts.

Example C22_case :
  let w := toy_run [opened_msgs] 1000
    [PoolOpen None; Create pid1; Stop 0; Close 0; Begin 0 (no_args None); AddCommand 0 65%N; Begin 0 (no_args None); Begin 0 (no_args None);
     Nested 0 pid2; Close 0; PoolDisconnect; Stop 0; PoolConnect; ConnectAsync 0; ConnectAsync 0; Nested 0 pid2; Stop 0; Stop 0; Close 0] in
  ops_made w = [OpCreate; OpReceive; OpCommand; OpDisconnect; OpReconnect; OpConnect; OpSignal; OpSignal] /\
  map ps_state (w_heap w) = [pl_stopped; pl_not_started] /\ map ps_nested (w_heap w) = [false; true] /\ rp_pipelines (w_pool w) = [].
Proof. vm_compute. repeat split. Qed.
