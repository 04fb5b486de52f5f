(* What the errors say: exceptions.py and the states' texts of complex_objects.py.
   The texts of WSManFaultError and WinRMTransportError are in WsmanModel.v.

   Simplified: the arguments of a state error are given by [refusal] beside the
   operations of PoolModel.v, whose exceptions have none.
   Not modelled: the properties that only give back an argument. *)
From Verif Require Import Base Lit NumModel WsmanModel PoolModel.

(* complex_objects.py:270-283, 303-312 __str__ *)
Definition pool_texts : list (Z * list N) :=
  [(0, lit "BeforeOpen"); (1, lit "Opening"); (2, lit "Opened"); (3, lit "Closed"); (4, lit "Closing"); (5, lit "Broken");
   (6, lit "NegotiationSent"); (7, lit "NegotiationSucceeded"); (8, lit "Connecting"); (9, lit "Disconnected")]%Z.
Definition pipeline_texts : list (Z * list N) :=
  [(0, lit "NotStarted"); (1, lit "Running"); (2, lit "Stopping"); (3, lit "Stopped"); (4, lit "Completed"); (5, lit "Failed");
   (6, lit "Disconnected")]%Z.
Definition state_text (texts : list (Z * list N)) (st : Z) : res (list N) :=
  match dict_get Z.eqb st texts with Some t => Ok t | None => Err KeyError end.

(* exceptions.py:116-127 _InvalidStateError.message; an expected state that is not
   a list is a list of one *)
Definition state_message (texts : list (Z * list N)) (current : Z) (expected : list Z) (action : list N) : res (list N) :=
  do c <- state_text texts current;
  do es <- mapM (state_text texts) expected;
  Ok (lit "Cannot '" ++ action ++ lit "' on the current state '" ++ c ++ lit "', expecting state(s): '" ++ join (lit ", ") es ++ lit "'").

(* what an operation on a pool or a pipeline gives the state error that it raises in
   a state: the expected states and the action; None where it raises none *)
Inductive operation := KOpen | KConnect | KDisconnect | KReset | KMetadata | KBegin | KStop | KClose | KReconnect | KNested.
Definition texts_of (k : operation) : list (Z * list N) :=
  match k with KOpen | KConnect | KDisconnect | KReset | KMetadata => pool_texts | _ => pipeline_texts end.
Definition unless (ok : bool) (expected : list Z) (action : list N) : option (list Z * list N) :=
  if ok then None else Some (expected, action).
Definition refusal (k : operation) (st : Z) : option (list Z * list N) :=
  match k with
  (* powershell.py:543-546 *)
  | KOpen => unless (in_states st [rs_opened; rs_before_open]) [rs_before_open] (lit "open a new Runspace Pool")
  (* powershell.py:307-312 *)
  | KConnect => unless (in_states st [rs_opened; rs_disconnected]) [rs_disconnected] (lit "connect to a disconnected Runspace Pool")
  (* powershell.py:371-374 *)
  | KDisconnect => unless (in_states st [rs_disconnected; rs_opened]) [rs_opened] (lit "disconnect a Runspace Pool")
  (* powershell.py:621-627 *)
  | KReset => unless (in_states st [rs_before_open; rs_opened]) [rs_before_open; rs_opened] (lit "reset RunspacePool state")
  (* powershell.py:441-442 *)
  | KMetadata => unless (Z.eqb st rs_opened) [rs_opened] (lit "get command metadata")
  (* powershell.py:1220-1227 *)
  | KBegin => unless (in_states st [pl_not_started; pl_stopped; pl_completed; pl_failed]) [pl_not_started; pl_stopped; pl_completed; pl_failed] (lit "start a PowerShell pipeline")
  (* powershell.py:1508-1511 *)
  | KStop => unless (in_states st [pl_stopping; pl_stopped; pl_running]) [pl_running] (lit "stop a running pipeline")
  (* powershell.py:1129-1133 *)
  | KClose => unless (in_states st [pl_not_started; pl_completed; pl_stopped; pl_failed]) [pl_completed; pl_stopped; pl_failed] (lit "close a PowerShell pipeline")
  (* powershell.py:1154-1157 *)
  | KReconnect => unless (Z.eqb st pl_disconnected) [pl_disconnected] (lit "connect to a disconnected pipeline")
  (* powershell.py:1181-1184 *)
  | KNested => unless (Z.eqb st pl_running) [pl_running] (lit "create a nested PowerShell pipeline")
  end.
