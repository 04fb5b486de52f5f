(* Property theorems C40, C41, C46 and C47. *)
From Verif Require Import Base BaseProofs Lit NumModel TextModel XmlModel WsmanModel ShellModel ShellSpec FragModel FragSpec MsgModel UtilModel TransModel PoolModel PoolSpec PoolProofs PoolProofs7 PoolProofs8 PoolProofs10 PoolProofs11 PoolProofs12 PoolToy.

(* ---- C40 and C41 ---- *)
(* The messages a start with this input is to send after the creation message:
   every object supplied in order and one end; [None] for a generator that
   yields None or nothing, for which the claim fails (see below). *)
Definition to_send {Obj Cmd} (i : option (input (Obj := Obj))) : option (list (omsg Obj Cmd)) :=
  match i with
  | None => Some []
  | Some (InValue i) => Some (map OInput (item_objs i) ++ [OEnd])
  | Some (InGen l) =>
      if match l with [] => true | _ => existsb (fun x => match x with None => true | Some _ => false end) l end then None
      else Some (map OInput (flat_map (fun x => match x with Some i => item_objs i | None => [] end) l) ++ [OEnd])
  end.

(* A start that returns has sent the creation message and exactly those, in
   that order.  The flag NoInput, the first argument of the creation message, is
   set when there is no input; for a generator it is not. *)
Theorem C40_input_partial : forall Obj Cmd HS RK (E : env Obj Cmd HS RK) r a ms w w',
  to_send (ia_input a) = Some ms -> begin_invoke E r a w = (Ret tt, w') ->
  exists no_input ap op h cs n ph rd,
    since w w' (map (EOut (Some (ps_id (the_ps r w)))) (OCreate no_input ap op h cs n ph rd :: ms)) /\
    (ia_input a = None -> no_input = true) /\ (forall l, ia_input a = Some (InGen l) -> no_input = false) /\
    (forall i, ia_input a = Some (InValue i) -> input_falsy E (InValue i) = false -> no_input = false).
Proof. exact @begin_sent. Qed.
Print Assumptions C40_input_partial.

(* The creation message and the input together: the first block travels in the
   Command request and the others follow in order in Send requests for the
   command the server named, and whoever reassembles them gets exactly those
   messages. *)
Theorem C41_pipeline : forall Obj Cmd HS RK (E : env Obj Cmd HS RK) r a ms w w',
  to_send (ia_input a) = Some ms -> begin_invoke E r a w = (Ret tt, w') ->
  let s := rp_sender (w_pool w) in
  (1 <= sd_max s < 2 ^ 32)%Z -> (0 <= sd_counter s)%Z -> (sd_counter s + 1 + zlen ms <= 2 ^ 64)%Z ->
  exists m bs f rest q x qs cid,
    since w w' (map (EOut (Some (ps_id (the_ps r w)))) (m :: ms)) /\
    mapM (packed E (rp_cipher (w_pool w)) (rp_id (w_pool w)) (Some (ps_id (the_ps r w)))) (m :: ms) = Ok bs /\
    requests w w' ((q, WBody (Some x)) :: qs) /\ q_op q = OpCommand /\
    q_body q = Some (command_line [] (Some [b64encode f]) (Some (ps_id (the_ps r w)))) /\
    Forall2 (fun f e => sends_on (lit "stdin") f cid (fst e)) rest qs /\
    (r < length (w_heap w) -> forall y, find_first [rsp (lit "CommandResponse"); rsp (lit "CommandId")] x = Some y -> cid = Some (or_empty (x_text y))) /\
    (Forall (fun b => b <> [] /\ (zlen b < 2 ^ 63)%Z) bs ->
     forall rc, (forall k, (sd_counter s <= k)%Z -> dict_get Z.eqb k rc = None) -> delivered (snd (receive_calls rc (f :: rest))) = Ok bs).
Proof. exact @begin_whole. Qed.
Print Assumptions C41_pipeline.

(* 40 bytes in a block: the creation message takes several *)
Definition C41_args : invoke_args := no_args (Some (InGen [Some (IOne (None, lit "a")); Some (IMany [(None, lit "b"); (None, lit "c")]); Some (IMany [])])).
Example C41_case :
  let w0 := toy_run [opened_msgs] 60 [PoolOpen None; Create pid1; AddCommand 0 65%N] in
  let w := set_w_pool (set_rp_sender (mkSender 40 (sd_counter (rp_sender (w_pool w0)))) (w_pool w0)) w0 in
  let '(x, w') := begin_invoke (toy_env (scripted [opened_msgs])) 0 C41_args w in
  x = Ret tt /\ skipn 2 (sent (w_log w')) = (Some pid1, OCreate false 2 None true [65%N] false None false) ::
    map (fun o => (Some pid1, o)) [OInput (None, lit "a"); OInput (None, lit "b"); OInput (None, lit "c"); OEnd] /\
  sd_counter (rp_sender (w_pool w)) = 3%Z /\ skipn 2 (ops_made w') = OpCommand :: repeat OpSend 7 /\ length (w_heap w) = 1.
Proof. vm_compute. repeat split. Qed.

(* Findings for C40: an empty list or a falsy value is sent although NoInput is
   set; after a generator has yielded None the rest and the end are not sent; an
   empty generator raises after the pipeline was started. *)
Theorem C40_falsy_input_refuted : exists i w',
  begin_invoke (toy_env (scripted [opened_msgs])) 0 (no_args (Some (InValue i))) (toy_run [opened_msgs] 1000 [PoolOpen None; Create pid1; AddCommand 0 65%N]) = (Ret tt, w') /\
  exists ap op h cs n ph rd o, skipn 2 (sent (w_log w')) = map (fun o => (Some pid1, o)) [OCreate true ap op h cs n ph rd; OInput o; OEnd].
Proof. exists (IOne (None, [])). eexists. split; [vm_compute; reflexivity|]. do 8 eexists. vm_compute. reflexivity. Qed.
Print Assumptions C40_falsy_input_refuted.
Theorem C40_generator_none_refuted : exists l o w',
  In (Some (IOne o)) l /\
  begin_invoke (toy_env (scripted [opened_msgs])) 0 (no_args (Some (InGen l))) (toy_run [opened_msgs] 1000 [PoolOpen None; Create pid1; AddCommand 0 65%N]) = (Ret tt, w') /\
  ~ In (Some pid1, OEnd) (sent (w_log w')) /\ ~ In (Some pid1, OInput o) (sent (w_log w')).
Proof.
  exists [None; Some (IOne (None, lit "b"))], (None, lit "b"). eexists. split; [right; left; reflexivity|]. split; [vm_compute; reflexivity|].
  split; vm_compute; intros H; repeat (destruct H as [H|H]; [discriminate H|]); exact H.
Qed.
Print Assumptions C40_generator_none_refuted.
Theorem C40_empty_generator_refuted : exists w',
  begin_invoke (toy_env (scripted [opened_msgs])) 0 (no_args (Some (InGen []))) (toy_run [opened_msgs] 1000 [PoolOpen None; Create pid1; AddCommand 0 65%N]) = (Raise (XExn StopIteration), w') /\
  ps_state (the_ps 0 w') = pl_running /\ ~ In (Some pid1, OEnd) (sent (w_log w')).
Proof.
  eexists. split; [vm_compute; reflexivity|]. split; [vm_compute; reflexivity|].
  vm_compute; intros H; repeat (destruct H as [H|H]; [discriminate H|]); exact H.
Qed.
Print Assumptions C40_empty_generator_refuted.

(* Opening: both messages travel whole when they fit one block together.  Full
   claim: for every size; see below. *)
Theorem C41_open_partial : forall Obj Cmd HS RK (E : env Obj Cmd HS RK) fuel a w w',
  rp_state (w_pool w) = rs_before_open -> sh_opened (rp_shell (w_pool w)) = false -> pool_open E fuel a w = (Ret tt, w') ->
  exists x y,
    mapM (packed E (rp_cipher (w_pool w)) (rp_id (w_pool w)) None)
      [capability; OInit (rp_min (w_pool w)) (rp_max (w_pool w)) (rp_thread (w_pool w)) (rp_apartment (w_pool w)) a] = Ok [x; y] /\
    ((1 <= zlen x)%Z -> (1 <= zlen y)%Z -> (zlen x + 21 + zlen y <= sd_max (rp_sender (w_pool w)))%Z -> (sd_max (rp_sender (w_pool w)) < 2 ^ 32)%Z ->
     (0 <= sd_counter (rp_sender (w_pool w)))%Z -> (sd_counter (rp_sender (w_pool w)) + 2 <= 2 ^ 64)%Z ->
     exists f q b qs, requests w w' ((q, WBody b) :: qs) /\ q_op q = OpCreate /\
       q_body q = Some (shell_content (rp_shell (w_pool w)) (Some (content_xml (lit "creationXml") f))) /\
       forall rc, (forall k, (sd_counter (rp_sender (w_pool w)) <= k)%Z -> dict_get Z.eqb k rc = None) ->
         delivered (snd (receive_calls rc [f])) = Ok [x; y]).
Proof. exact @open_whole. Qed.
Print Assumptions C41_open_partial.
Example C41_open_case :
  let w := toy_run [opened_msgs] 1000 [PoolOpen (Some (None, lit "arguments"))] in
  rp_state (w_pool w) = rs_opened /\ ops_made w = [OpCreate; OpReceive] /\ sd_max (rp_sender (w_pool (new_world 1000))) = 979%Z.
Proof. vm_compute. repeat split. Qed.

(* Finding: when they take more than one block the rest is never sent: opening
   sends the one Create request with the first block and then only receives,
   and the first block delivers nothing of the second message. *)
Theorem C41_open_large_refuted : exists args w' f q qs,
  pool_open (toy_env (scripted [opened_msgs])) 20 (Some args) (new_world 200) = (Ret tt, w') /\
  w_hist w' = q :: qs /\ q_body (fst q) = Some (shell_content (rp_shell (w_pool (new_world 200))) (Some (content_xml (lit "creationXml") f))) /\
  Forall (fun e => q_op (fst e) = OpReceive) qs /\
  length (sent (w_log w')) = 2 /\
  match delivered (snd (receive_calls [] [f])) with Ok l => length l = 1 | Err _ => False end.
Proof.
  set (f := match mapM (packed (toy_env (scripted [])) None rpid None) [capability; OInit (VInt 1) (VInt 1) 0 2 (Some (None, repeat 65%N 300))] with
            | Ok bs => match fragment_multiple (rp_sender (w_pool (new_world 200))) bs with Ok (_, f :: _) => f | _ => [] end | Err _ => [] end).
  exists (None, repeat 65%N 300). eexists. exists f. eexists. eexists. split; [vm_compute; reflexivity|]. split; [vm_compute; reflexivity|].
  split; [vm_compute; reflexivity|]. split; [vm_compute; repeat constructor|]. split; [vm_compute; reflexivity|]. vm_compute. reflexivity.
Qed.
Print Assumptions C41_open_large_refuted.

(* ---- C46 ---- *)
(* One Get request for this shell while new connections are disabled; the
   switch is as before afterwards.  True only for an answer that does not say
   Disconnected; the named failures give False and close the pool; any other is
   raised and changes nothing. *)
Theorem C46_alive : forall Obj Cmd HS RK (E : env Obj Cmd HS RK) t w,
  exists q, let a := ev_srv E true (w_hist w) q in
  let '(r, w') := is_alive E t w in
  q_op q = OpGet /\ q_selectors q = sh_selectors (rp_shell (w_pool w)) /\ q_timeout q = t /\
  requests w w' [(q, a)] /\ w_log w' = w_log w /\ w_heap w' = w_heap w /\ w_disabled w' = w_disabled w /\
  w_pool w' = match r with Ret false => set_rp_state rs_closed (w_pool w) | _ => w_pool w end /\
  match a with
  | WBody (Some b) =>
      r = Ret (negb (match find_first [rsp (lit "Shell")] b with
                     | Some e => match dict_get str_eqb (lit "State") (fold_left (fun d c => dict_set str_eqb (field_name (x_tag c)) (x_text c) d) (x_children e) []) with
                                 | Some (Some s) => str_eqb s (lit "Disconnected") | _ => false end
                     | None => false end))
  | WBody None => r = Raise (XExn AttributeError)
  | WFault f => r = if match f_code f with CInt z => (Z.eqb z 2150858793 || Z.eqb z 2150858843)%bool | _ => false end then Ret false else Raise (XFault f)
  | WHttp c x => r = Raise (XHttp c x)
  | WExn e => r = match e with NewConnectionDisabled | BuiltinTimeoutError | RequestsConnectionError | ConnectTimeout => Ret false | _ => Raise (XExn e) end
  end.
Proof. exact @alive_spelled. Qed.
Print Assumptions C46_alive.

Theorem C46_close_after : forall Obj Cmd HS RK (E : env Obj Cmd HS RK) t w w',
  is_alive E t w = (Ret false, w') -> pool_close E w' = (Ret tt, w').
Proof. exact @alive_closed. Qed.
Print Assumptions C46_close_after.

Definition dead (x : wresult) (d : bool) (h : history) (q : sreq) : wresult := match q_op q with OpGet => x | _ => scripted [opened_msgs] d h q end.
Definition opened_with (x : wresult) (ops : list op) : world tobj N nat N :=
  run_ops (toy_env (dead x)) (map (fun o => (20%nat, o)) (PoolOpen None :: ops)) (new_world 1000).
Example C46_case :
  fst (is_alive (toy_env (dead (said_shell (lit "Connected")))) None (opened_with said_ok [])) = Ret true /\
  fst (is_alive (toy_env (dead (said_shell (lit "Disconnected")))) None (opened_with said_ok [])) = Ret false /\
  ops_made (opened_with (WExn RequestsConnectionError) [IsAlive (Some 5%Z); PoolClose]) = [OpCreate; OpReceive; OpGet] /\
  ops_made (opened_with (WHttp 503 []) [IsAlive (Some 5%Z); PoolClose]) = [OpCreate; OpReceive; OpGet; OpDelete].
Proof. vm_compute. repeat split. Qed.

(* Finding: a read that times out is raised, not taken for a dead pool: of the
   exceptions of requests only ConnectionError and its subclasses are caught,
   and ReadTimeout is none. *)
Theorem C46_read_timeout_refuted : exists srv (w w' : world tobj N nat N),
  is_alive (toy_env srv) (Some 5%Z) w = (Raise (XExn ReadTimeout), w') /\ rp_state (w_pool w') = rs_opened.
Proof. exists (dead (WExn ReadTimeout)), (opened_with said_ok []). eexists. split; vm_compute; reflexivity. Qed.
Print Assumptions C46_read_timeout_refuted.

(* ---- C47 ---- *)
(* after every history of a pool that started with no pipelines: disconnecting
   keeps the registry, and lists exactly the pipelines in it *)
Theorem C47_disconnect_lists : forall Obj Cmd HS RK (E : env Obj Cmd HS RK) l w0 w', rp_pipelines (w_pool w0) = [] ->
  let w := run_ops E l w0 in rp_state (w_pool w) = rs_opened -> pool_disconnect E w = (Ret tt, w') ->
  rp_pipelines (w_pool w') = rp_pipelines (w_pool w) /\
  create_disconnected w' = (Ret (map snd (rp_pipelines (w_pool w))), w') /\
  forall r, In r (map snd (rp_pipelines (w_pool w))) -> r < length (w_heap w') /\ ps_state (the_ps r w') = pl_disconnected.
Proof. exact @disconnect_lists. Qed.
Print Assumptions C47_disconnect_lists.

(* connecting, whether it succeeds or not, leaves the registry and the
   pipelines alone *)
Theorem C47_connect_keeps : forall Obj Cmd HS RK (E : env Obj Cmd HS RK) w, let w' := snd (pool_connect E w) in
  rp_pipelines (w_pool w') = rp_pipelines (w_pool w) /\ length (w_heap w') = length (w_heap w) /\
  forall r, r < length (w_heap w) -> ps_state (the_ps r w') = ps_state (the_ps r w) /\ settled (the_ps r w) (the_ps r w').
Proof. exact @connect_untouched. Qed.
Print Assumptions C47_connect_keeps.

(* each of them can then be connected: one request with its id, and it runs
   again when that is answered *)
Theorem C47_reconnect : forall Obj Cmd HS RK (E : env Obj Cmd HS RK) r w,
  ps_state (the_ps r w) = pl_disconnected -> r < length (w_heap w) ->
  exists q a w', snd (ps_connect_async E r w) = w' /\ requests w w' [(q, a)] /\ a = ev_srv E (w_disabled w) (w_hist w) q /\ q_op q = OpConnect /\
    q_body q = Some (Elem (rsp (lit "Connect")) [(lit "CommandId", ps_id (the_ps r w))] None []) /\
    forall b, a = WBody b -> fst (ps_connect_async E r w) = Ret tt /\ ps_state (the_ps r w') = pl_running /\ ps_from_disconnect (the_ps r w') = true.
Proof. exact @reconnect_any. Qed.
Print Assumptions C47_reconnect.

(* a pipeline that was stopped or closed is not listed until it is started again *)
Theorem C47_stopped_unlisted : forall Obj Cmd HS RK (E : env Obj Cmd HS RK) l later r w0 w',
  rp_pipelines (w_pool w0) = [] -> (forall fuel a, ~ In (fuel, Begin r a) later) ->
  let w := run_ops E l w0 in r < length (w_heap w) -> ps_state (the_ps r w) = pl_running -> ps_stop E r w = (Ret tt, w') ->
  ~ In r (map snd (rp_pipelines (w_pool (run_ops E later w')))).
Proof. exact @stop_unlists. Qed.
Print Assumptions C47_stopped_unlisted.
Theorem C47_closed_unlisted : forall Obj Cmd HS RK (E : env Obj Cmd HS RK) l later r w0 w',
  rp_pipelines (w_pool w0) = [] -> (forall fuel a, ~ In (fuel, Begin r a) later) ->
  let w := run_ops E l w0 in r < length (w_heap w) -> In (ps_state (the_ps r w)) [pl_completed; pl_stopped; pl_failed] -> ps_close E r w = (Ret tt, w') ->
  ~ In r (map snd (rp_pipelines (w_pool (run_ops E later w')))).
Proof. exact @close_unlists. Qed.
Print Assumptions C47_closed_unlisted.

(* pools listed from the server: disconnected, with all the pipelines the
   server named, to be connected as a new client *)
Theorem C47_listed_pools : forall Obj Cmd RK srv env pay h (ps : list (pool Obj RK * list (PoolModel.ps Obj Cmd))) h',
  get_runspace_pools srv env pay h = (Ret ps, h') ->
  exists q b, h' = h ++ (q, WBody (Some b)) :: skipn (S (length h)) h' /\ q_op q = OpEnumerate /\
  Forall (fun p => rp_state (fst p) = rs_disconnected /\ rp_new_client (fst p) = true /\ sh_opened (rp_shell (fst p)) = true /\
            Forall (fun x => ps_state x = pl_disconnected /\ ps_command_id x = Some (ps_id x)) (snd p) /\
            forall id j, In (id, j) (rp_pipelines (fst p)) -> j < length (snd p) /\ forall d, ps_id (nth j (snd p) d) = id) ps /\
  Forall2 (fun e p => exists id q' b', sub_text (lit "ShellId") e = Ok id /\ rp_id (fst p) = id /\ In (q', WBody (Some b')) h' /\ q_op q' = OpEnumerate /\
             q_body q' = Some (enumerate_body [Elem (qname ns_wsman (lit "Filter")) [(lit "Dialect", lit "http://schemas.dmtf.org/wbem/wsman/1/wsman/SelectorFilter")] None [pack_set (shell_selector id)]]) /\
             Forall (fun c => exists cid, sub_text (lit "CommandId") c = Ok cid /\ dict_get str_eqb cid (rp_pipelines (fst p)) <> None) (items (lit "Command") b'))
    (items (lit "Shell") b) ps.
Proof. exact (fun Obj Cmd RK => @runspace_pools_found Obj Cmd RK). Qed.
Print Assumptions C47_listed_pools.

Definition C47_history : list op :=
  [PoolOpen None; Create pid1; AddCommand 0 65%N; Create pid2; AddCommand 1 66%N; Begin 0 (no_args None); Begin 1 (no_args None)].
Example C47_case :
  let w := toy_run [opened_msgs] 1000 C47_history in
  rp_state (w_pool w) = rs_opened /\
  fst (create_disconnected (snd (pool_disconnect (toy_env (scripted [opened_msgs])) w))) = Ret [0; 1] /\
  let w1 := toy_run [opened_msgs] 1000 (C47_history ++ [Stop 0; PoolDisconnect]) in
  fst (create_disconnected w1) = Ret [1] /\
  let w2 := toy_run [opened_msgs] 1000 (C47_history ++ [PoolDisconnect; PoolConnect; ConnectAsync 1]) in
  map ps_state (w_heap w2) = [pl_disconnected; pl_running] /\ rp_state (w_pool w2) = rs_opened.
Proof. vm_compute. repeat split. Qed.
