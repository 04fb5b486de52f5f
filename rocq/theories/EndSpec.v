(* A server that comes to an end: what it answers to a pipeline that waits. *)
From Verif Require Import Base Lit MsgModel WsmanModel ShellModel ShellSpec PoolModel PoolSpec.

(* what belongs to a pipeline and asks nothing of the client: output, the records
   of the streams, and the state *)
Definition reports_of_a_pipeline : list Z :=
  [PIPELINE_OUTPUT; PIPELINE_STATE; ERROR_RECORD; DEBUG_RECORD; VERBOSE_RECORD; WARNING_RECORD; PROGRESS_RECORD; INFORMATION_RECORD].

(* a message that makes the client send nothing: a report, or a call to the host (as
   those behind Write-Host) that the host has no answer to, whatever its state; a
   client without a host only looks the method up, of which there are 56 *)
Definition asks_nothing {Obj Cmd HS RK} (E : env Obj Cmd HS RK) (m : message Obj) : Prop :=
  In (m_type m) reports_of_a_pipeline \/
  (m_type m = PIPELINE_HOST_CALL /\ forall o, carried m = Some o -> exists ci mi mp, ev_host_call E o = (ci, mi, mp) /\
    match ev_host E with None => (1 <= mi <= 56)%Z | Some run => forall st pid, fst (run st mi mp pid) = Ret None end).

(* an answer has data on stdout only, which is what was asked for *)
Definition only_stdout (m : said) : Prop :=
  match m with SaidNothing => True | Said _ _ cs => Forall (fun c => fst c = lit "stdout") cs end.

(* after the history [h], whoever asks for the output of the command [cid], and for
   nothing else, gets the answers in turn *)
Definition in_turn (srv : history -> sreq -> wresult) (h : history) (cid : option (list N)) (answers : list wresult) : Prop :=
  forall qs q a, Forall (fun e => q_op (fst e) = OpReceive) qs -> map snd qs = firstn (length qs) answers ->
    q_op q = OpReceive -> q_body q = Some (receive_body (lit "stdout") cid) ->
    nth_error answers (length qs) = Some a -> srv (h ++ qs) q = a.
