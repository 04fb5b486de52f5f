(* C65: what a pool asks its server reaches it as it was asked.
   Missing from the partial theorems: texts with characters that XML does not
   allow (ids, settings of the shell), see C64; the content of the messages,
   which is C61 and C63; answers of the server are element trees whose texts are
   XML characters. *)
From Verif Require Import Base BaseProofs Lit NumModel TextSpec TextModel Utf8Model XmlModel XtModel XtSpec WsmanModel WsmanSpec ShellModel ShellSpec FragModel FragSpec MsgModel
  UtilModel TransModel PoolModel PoolSpec PoolToy PoolProofs PoolProofs12 EnvModel EnvSpec EnvProofs EnvProofs2 HomeSpec HomeProofs2 JobSpec JobProofs JobProofs2 JobToy.
Local Open Scope list_scope.

(* The messages a start with this input is to send after the creation message,
   as in C40. *)
Definition to_send {Obj Cmd} (i : option (input (Obj := Obj))) : option (list (omsg Obj Cmd)) :=
  match i with
  | None => Some []
  | Some (InValue i) => Some (map OInput (item_objs i) ++ [OEnd])
  | Some (InGen l) =>
      if match l with [] => true | _ => existsb (fun x => match x with None => true | Some _ => false end) l end then None
      else Some (map OInput (flat_map (fun x => match x with Some i => item_objs i | None => [] end) l) ++ [OEnd])
  end.
(* a pool whose texts can be written *)
Definition writable_pool {Obj Cmd HS RK} (w : world Obj Cmd HS RK) : Prop :=
  ready (rp_shell (w_pool w)) /\ fit (rp_id (w_pool w)) /\ Forall (fun p => fit (ps_id p) /\ fit_opt (ps_command_id p)) (w_heap w).

(* Every request made by any sequence of operations on a pool and its pipelines
   can be written, and its bytes are read as that request: its action, the
   resource, its options, selectors and timeout, and as its body the element it
   was given (an attribute xmlns says in which namespace the element is).  The
   pool stays such a pool. *)
Theorem C65_legible_partial : forall Obj Cmd HS RK (E : env Obj Cmd HS RK) (l : list (nat * op)) (w : world Obj Cmd HS RK),
  (forall b, speaks (ev_srv E b)) ->
  Forall (fun o => match snd o with Metadata id _ | Create id | Nested _ id => fit id | _ => True end) l ->
  writable_pool w ->
  writable_pool (run_ops E l w) /\
  exists es, requests w (run_ops E l w) es /\ Forall (fun e => let q := fst e in
    exists oes ses, q_options q = option_map (built option_set) oes /\ q_selectors q = option_map (built selector_set) ses /\
      forall c uuid, fit_wsman c -> fit uuid -> exists b, request_bytes c uuid q = Ok b /\
        received b (fun y => exists body,
          asks c uuid {| a_op := q_op q; a_uri := match q_uri q with Some u => u | None => [] end; a_options := oes; a_selectors := ses; a_timeout := q_timeout q |} y body /\
          Forall2 XtSpec.arrives (match q_body q with Some x => [homed x] | None => [] end) (x_children body))) es.
Proof. intros Obj Cmd HS RK E l w V. exact (ops_legible E V l w). Qed.
Print Assumptions C65_legible_partial.

(* Opening: the shell is created with the settings of the pool and the version
   of the protocol, and reads from the element creationXml the first block made
   of the two messages (they are whole in it if they fit, C41). *)
Theorem C65_open_partial : forall Obj Cmd HS RK (E : env Obj Cmd HS RK) fuel a (w w' : world Obj Cmd HS RK),
  (forall b, speaks (ev_srv E b)) -> writable_pool w ->
  rp_state (w_pool w) = rs_before_open -> sh_opened (rp_shell (w_pool w)) = false -> pool_open E fuel a w = (Ret tt, w') ->
  let sh := rp_shell (w_pool w) in
  exists bs s f rest q x qs,
    mapM (PoolModel.packed E (rp_cipher (w_pool w)) (rp_id (w_pool w)) None)
      [capability; OInit (rp_min (w_pool w)) (rp_max (w_pool w)) (rp_thread (w_pool w)) (rp_apartment (w_pool w)) a] = Ok bs /\
    fragment_multiple (rp_sender (w_pool w)) bs = Ok (s, f :: rest) /\
    requests w w' ((q, WBody x) :: qs) /\
    request_read sh OpCreate (Some (settings sh (Some [(lit "protocolversion", lit "2.3", [(lit "MustComply", lit "true")])]))) None None (opens sh f) q.
Proof. intros Obj Cmd HS RK E fuel a w w' V. exact (open_read E fuel a w w'). Qed.
Print Assumptions C65_open_partial.

(* Starting a pipeline: the server reads a command with the id of the pipeline
   whose argument is a block, then input for that command, block by block, all
   for the shell of the pool; what it reassembles from the blocks are the
   messages: the creation message made of the commands and settings given, the
   inputs, and the end. *)
Theorem C65_begin_partial : forall Obj Cmd HS RK (E : env Obj Cmd HS RK) r a ms (w w' : world Obj Cmd HS RK),
  (forall b, speaks (ev_srv E b)) -> writable_pool w ->
  to_send (ia_input a) = Some ms -> begin_invoke E r a w = (Ret tt, w') ->
  let s := rp_sender (w_pool w) in let sh := rp_shell (w_pool w) in let p := the_ps r w in
  (1 <= sd_max s < 2 ^ 32)%Z -> (0 <= sd_counter s)%Z -> (sd_counter s + 1 + zlen ms <= 2 ^ 64)%Z ->
  exists bs f rest q x qs cid ses, selected sh ses /\
    mapM (PoolModel.packed E (rp_cipher (w_pool w)) (rp_id (w_pool w)) (Some (ps_id p)))
      (OCreate (match ia_input a with None => true | Some i => input_falsy E i end)
         (match ia_apartment a with Some z => if Z.eqb z 0 then rp_apartment (w_pool w) else z | None => rp_apartment (w_pool w) end)
         (ia_options a) (ia_history a) (ps_commands p) (ps_nested p) (ps_history p) (ia_redirect a) :: ms) = Ok bs /\
    requests w w' ((q, WBody (Some x)) :: qs) /\
    request_read sh OpCommand (Some [(lit "WINRS_SKIP_CMD_SHELL", lit "False", [])]) ses None (launches (ps_id p) f) q /\
    Forall2 (fun d e => request_read sh OpSend None ses None (feeds (lit "stdin") d cid None) (fst e)) rest qs /\
    (r < length (w_heap w) -> forall y, find_first [rsp (lit "CommandResponse"); rsp (lit "CommandId")] x = Some y -> cid = Some (or_empty (x_text y))) /\
    (Forall (fun b => zlen b < 2 ^ 63)%Z bs ->
     forall rc, (forall k, (sd_counter s <= k)%Z -> dict_get Z.eqb k rc = None) -> delivered (snd (receive_calls rc (f :: rest))) = Ok bs).
Proof. intros Obj Cmd HS RK E r a ms w w' V. exact (begin_read E V r a ms w w'). Qed.
Print Assumptions C65_begin_partial.

(* ---- cases ---- *)
Definition a_client : wsman :=
  {| w_session_id := lit "d0e521f3-4a03"; w_locale := lit "en-US"; w_data_locale := lit "en-US"; w_endpoint := lit "http://h:5985/wsman";
     w_max_envelope := 153600; w_operation_timeout := 20 |}.
(* the blocks in the requests of a pool, as a server finds them *)
Definition blocks (path : list (list N)) (q : sreq) : list (res bytes) :=
  match request_bytes a_client (lit "6b1e") q with
  | Ok b => match utf8_decode b with
            | Ok s => match xml_parse s with Some y => map (fun c => b64decode (words c)) (find_all (soap (lit "Body") :: path) y) | None => [] end
            | Err _ => []
            end
  | Err _ => []
  end.
Definition input_args : invoke_args (Obj := tobj) := no_args (Some (InGen [Some (IOne (None, lit "a")); Some (IMany [(None, lit "b"); (None, lit "c")])])).
Definition the_ops : list (nat * op (Obj := tobj) (Cmd := N)) := map (fun o => (20, o)) [PoolOpen None; Create pid1; AddCommand 0 65%N; SetMin 2; Stop 0; PoolDisconnect].
Example C65_case :
  let w0 := new_world 60 in
  let w1 := toy_run [opened_msgs] 60 [PoolOpen None; Create pid1; AddCommand 0 65%N] in
  let w := set_w_pool (set_rp_sender (mkSender 40 (sd_counter (rp_sender (w_pool w1)))) (w_pool w1)) w1 in
  let '(x, w') := begin_invoke (toy_env some_server) 0 input_args w in
  (forall b, speaks (some_server b)) /\ writable_pool w0 /\ writable_pool w /\
  Forall (fun o => match snd o with Metadata id _ | Create id | Nested _ id => fit id | _ => True end) the_ops /\
  (rp_state (w_pool w0) = rs_before_open /\ sh_opened (rp_shell (w_pool w0)) = false /\ fst (pool_open (toy_env some_server) 20 None w0) = Ret tt) /\
  x = Ret tt /\ sd_counter (rp_sender (w_pool w)) = 3%Z /\ length (w_heap w) = 1 /\
  map (fun b => match b with Ok f => length f | Err _ => 0 end)
    (flat_map (fun e => blocks [rshell (lit "Shell"); lit "{http://schemas.microsoft.com/powershell}creationXml"] (fst e)) (firstn 1 (w_hist w1))) = [60] /\
  match mapM (fun b => b) (flat_map (fun e => blocks [rshell (lit "CommandLine"); rshell (lit "Arguments")] (fst e) ++ blocks [rshell (lit "Send"); rshell (lit "Stream")] (fst e))
                             (skipn 2 (w_hist w'))) with
  | Ok bs => length bs = 8 /\
      map (fun b => skipn 40 b) (match delivered (snd (receive_calls [] bs)) with Ok l => l | Err _ => [] end) = [lit "inputA"; lit "a"; lit "b"; lit "c"; []]
  | Err _ => False
  end.
Proof.
  assert (F1 : fit_world (toy_run [opened_msgs] 60 [PoolOpen None; Create pid1; AddCommand 0 65%N])).
  { refine (proj1 (ops_legible (toy_env some_server) some_server_speaks _ _ _ (new_world_fit 60))). repeat (apply Forall_cons; [first [exact I|apply fit_lit; reflexivity]|]). apply Forall_nil. }
  cbv zeta. set (w1 := toy_run _ _ _) in *. set (w := set_w_pool _ w1). destruct (begin_invoke (toy_env some_server) 0 input_args w) as [x w'] eqn:B.
  split; [exact some_server_speaks|]. split; [exact (new_world_fit 60)|]. split; [exact (fit_sender _ _ F1)|].
  split; [repeat (apply Forall_cons; [first [exact I|apply fit_lit; reflexivity]|]); apply Forall_nil|].
  split; [repeat split; vm_compute; reflexivity|].
  assert (Ex : x = fst (begin_invoke (toy_env some_server) 0 input_args w)) by (rewrite B; reflexivity).
  assert (Ew : w' = snd (begin_invoke (toy_env some_server) 0 input_args w)) by (rewrite B; reflexivity). clear B. subst x w'.
  split; [vm_compute; reflexivity|]. split; [vm_compute; reflexivity|]. split; [vm_compute; reflexivity|]. split; [vm_compute; reflexivity|].
  vm_compute. split; reflexivity.
Qed.
