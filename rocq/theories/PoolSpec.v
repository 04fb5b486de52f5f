(* What the theorems about runspace pools and pipelines say, in terms of the
   messages received and sent, the requests made and the attributes a caller
   can read. *)
From Verif Require Import Base Lit XmlModel WsmanModel ShellModel ShellSpec FragModel MsgModel PoolModel.

Section PoolSpec.
  Context {Obj Cmd HS RK : Type} (E : env Obj Cmd HS RK).
  Notation world := (world Obj Cmd HS RK).
  Notation event := (event Obj Cmd).

  (* what happened between two moments *)
  Definition since (w w' : world) (l : list event) : Prop := w_log w' = w_log w ++ l.
  Definition requests (w w' : world) (qs : list (sreq * wresult)) : Prop := w_hist w' = w_hist w ++ qs.

  (* the object a message carries *)
  Definition carried (m : message Obj) : option Obj :=
    match m_data m with DObj _ o => Some o | DInput o => Some o | DOutput o => Some o | DPublicKeyRequest => None end.
  Definition carries (ty : Z) (m : message Obj) (o : Obj) : Prop := m_type m = ty /\ carried m = Some o.

  (* the server reports the state [st] of the pool in [m] *)
  Definition reports (m : message Obj) (st : Z) : Prop :=
    exists o, carries RUNSPACEPOOL_STATE m o /\ ev_pool_state E o = st.
  Definition last_reported (l : list event) (st : Z) : Prop :=
    exists l1 pl m l2, l = l1 ++ EMsg pl m :: l2 /\ reports m st /\
      forall pl' m' st', In (EMsg pl' m') l2 -> ~ reports m' st'.

  (* the messages of a log processed for one pipeline, in order *)
  Definition for_pipeline (r : nat) (l : list event) : list (message Obj) :=
    flat_map (fun e => match e with EMsg (Some r') m => if Nat.eqb r r' then [m] else [] | _ => [] end) l.
  (* the objects of the messages of one type, in order *)
  Definition objects (ty : Z) (ms : list (message Obj)) : list Obj :=
    flat_map (fun m => if Z.eqb (m_type m) ty then match carried m with Some o => [o] | None => [] end else []) ms.
  (* the error stream also gets the error record of a state message *)
  Definition errors (ms : list (message Obj)) : list Obj :=
    flat_map (fun m =>
      match carried m with
      | None => []
      | Some o =>
          if Z.eqb (m_type m) ERROR_RECORD then [o]
          else if Z.eqb (m_type m) PIPELINE_STATE then match snd (ev_pipe_state E o) with Some e => [e] | None => [] end
          else []
      end) ms.
  (* the state after the state messages of a pipeline, and whether one said Failed *)
  Definition final_state (z : Z) (ms : list (message Obj)) : Z :=
    fold_left (fun z m => if Z.eqb (m_type m) PIPELINE_STATE then match carried m with Some o => fst (ev_pipe_state E o) | None => z end else z) ms z.
  Definition any_failed (ms : list (message Obj)) : bool :=
    existsb (fun m => (Z.eqb (m_type m) PIPELINE_STATE && match carried m with Some o => Z.eqb (fst (ev_pipe_state E o)) pl_failed | None => false end)%bool) ms.

  (* the attributes of a pipeline that messages change *)
  Definition grown (p p' : ps Obj Cmd) (ms : list (message Obj)) : Prop :=
    ps_error p' = ps_error p ++ errors ms /\
    ps_debug p' = ps_debug p ++ objects DEBUG_RECORD ms /\
    ps_verbose p' = ps_verbose p ++ objects VERBOSE_RECORD ms /\
    ps_warning p' = ps_warning p ++ objects WARNING_RECORD ms /\
    ps_progress p' = ps_progress p ++ objects PROGRESS_RECORD ms /\
    ps_information p' = ps_information p ++ objects INFORMATION_RECORD ms.
  Definition attended (p p' : ps Obj Cmd) (ms : list (message Obj)) : Prop :=
    grown p p' ms /\
    ps_state p' = final_state (ps_state p) ms /\
    ps_had_errors p' = (ps_had_errors p || any_failed ms)%bool.
  (* those it is created with *)
  Definition settled (p p' : ps Obj Cmd) : Prop :=
    ps_id p' = ps_id p /\ ps_commands p' = ps_commands p /\ ps_nested p' = ps_nested p /\ ps_history p' = ps_history p /\
    ps_from_disconnect p' = ps_from_disconnect p /\ ps_command_id p' = ps_command_id p.

  (* a request that sends data on a stream *)
  Definition sends_on (stream : list N) (data : bytes) (cid : option (list N)) (q : sreq) : Prop :=
    q_op q = OpSend /\ q_body q = Some (send_body stream data cid None).

  (* ---- calls to the host ---- *)
  Definition is_host_call (pl : option nat) (m : message Obj) : bool :=
    (Z.eqb (m_type m) RUNSPACEPOOL_HOST_CALL ||
     match pl with Some _ => Z.eqb (m_type m) PIPELINE_HOST_CALL | None => false end)%bool.
  (* the pipeline the host is given *)
  Definition caller (pl : option nat) (m : message Obj) : option nat :=
    if Z.eqb (m_type m) RUNSPACEPOOL_HOST_CALL then None else pl.
  (* the calls a log asks for and the runs of the host it shows *)
  Definition asked (l : list event) : list (Z * Obj * option nat) :=
    flat_map (fun e => match e with
      | EMsg pl m => if is_host_call pl m then match carried m with
          | Some o => let '(_, mi, mp) := ev_host_call E o in [(mi, mp, caller pl m)] | None => [] end else []
      | _ => [] end) l.
  Definition ran (l : list event) : list (Z * Obj * option nat) :=
    flat_map (fun e => match e with EHost mi mp pl _ => [(mi, mp, pl)] | _ => [] end) l.

  (* ---- calls by id ---- *)
  Definition call_ids (l : list event) : list Z :=
    flat_map (fun e => match e with
      | EOut _ (OSetMin _ ci) | EOut _ (OSetMax _ ci) | EOut _ (OAvailable ci) | EOut _ (OReset ci) => [ci]
      | _ => [] end) l.
  (* the answers a log gives to one call *)
  Definition answers_to (ci : Z) (l : list event) : list rval :=
    flat_map (fun e => match e with
      | EMsg _ m => if Z.eqb (m_type m) RUNSPACE_AVAILABILITY then match carried m with
          | Some o => if Z.eqb (fst (ev_availability E o)) ci then [snd (ev_availability E o)] else [] | None => [] end else []
      | _ => [] end) l.

  (* ---- keys ---- *)
  Definition public_keys (l : list event) : list bytes :=
    flat_map (fun e => match e with EOut _ (OPublicKey k) => [k] | _ => [] end) l.

  (* ---- messages sent ---- *)
  Definition sent (l : list event) : list (option (list N) * omsg Obj Cmd) :=
    flat_map (fun e => match e with EOut pid o => [(pid, o)] | _ => [] end) l.

  (* ---- what the server said in answer to the receive requests ---- *)
  Definition receives (qs : list (sreq * wresult)) : list wresult :=
    map snd (filter (fun q => match q_op (fst q) with OpReceive => true | _ => false end) qs).
  Definition arrived (ss : list said) : list bytes :=
    flat_map (fun s => match s with SaidNothing => [] | Said _ _ _ => [on_stream (lit "stdout") s] end) ss.
  (* decoding by class gives an object of that class, if of a message class *)
  Definition honest (cd : codec Obj) : Prop :=
    forall ty t o ty', cd_deser_class cd ty t = Ok o -> cd_type cd o = Some ty' -> ty' = ty.
  (* no answer to the host's data came as an operation timeout, and no host
     method raised one *)
  Definition late (r : wresult) : Prop := exists f, r = WFault f /\ f_code f = CInt 2150858793.
  Definition undisturbed (qs : list (sreq * wresult)) (l : list event) : Prop :=
    (forall q r, In (q, r) qs -> q_op q = OpSend -> ~ late r) /\
    (forall mi mp pl f, In (EHost mi mp pl (Raise (XFault f))) l -> f_code f <> CInt 2150858793).
End PoolSpec.
