(* What a reader of an error is to learn from it; apart from how it is put together. *)
From Verif Require Import Base Lit WsmanModel ShellModel PoolModel ErrModel.

(* [MS-PSRP] 2.2.3.4 and 2.2.3.5: the states in the order of their numbers *)
Definition pool_state_names : list String.string :=
  ["BeforeOpen"; "Opening"; "Opened"; "Closed"; "Closing"; "Broken"; "NegotiationSent"; "NegotiationSucceeded"; "Connecting"; "Disconnected"]%string.
Definition pipeline_state_names : list String.string :=
  ["NotStarted"; "Running"; "Stopping"; "Stopped"; "Completed"; "Failed"; "Disconnected"]%string.

(* somewhere in a text *)
Definition within (t s : list N) : Prop := exists a b, s = a ++ t ++ b.
Definition quoted (t : list N) : list N := lit "'" ++ t ++ lit "'".

(* what a fault may tell, with what it is called; the code 0 is no code *)
Definition told_by (f : fault) : list (list N * option (list N)) :=
  [(lit "Code: ", code_text (f_code f)); (lit "Machine: ", f_machine f); (lit "Reason: ", f_reason f);
   (lit "Provider: ", f_provider f); (lit "Provider Path: ", f_path f); (lit "Provider Fault: ", f_pfault f)].
Definition given (t : option (list N)) : option (list N) := match t with Some [] => None | _ => t end.

(* the operation is refused in the state that it is in: the error is raised and
   nothing has happened *)
Definition current {Obj Cmd HS RK} (k : operation) (r : nat) (w : world Obj Cmd HS RK) : Z :=
  match k with KOpen | KConnect | KDisconnect | KReset | KMetadata => rp_state (w_pool w) | _ => ps_state (the_ps r w) end.
Definition refused {Obj Cmd HS RK} (E : env Obj Cmd HS RK) (k : operation) (r : nat) (w : world Obj Cmd HS RK) : Prop :=
  match k with
  | KOpen => forall fuel a, pool_open E fuel a w = (Raise (XExn InvalidRunspacePoolStateError), w)
  | KConnect => pool_connect E w = (Raise (XExn InvalidRunspacePoolStateError), w)
  | KDisconnect => pool_disconnect E w = (Raise (XExn InvalidRunspacePoolStateError), w)
  | KReset => forall fuel, reset_runspace_state E fuel w = (Raise (XExn InvalidRunspacePoolStateError), w)
  | KMetadata => forall fuel id a, get_command_metadata E fuel id a w = (Raise (XExn InvalidRunspacePoolStateError), w)
  | KBegin => forall a, begin_invoke E r a w = (Raise (XExn InvalidPipelineStateError), w)
  | KStop => ps_stop E r w = (Raise (XExn InvalidPipelineStateError), w)
  | KClose => ps_close E r w = (Raise (XExn InvalidPipelineStateError), w)
  | KReconnect => ps_connect_async E r w = (Raise (XExn InvalidPipelineStateError), w)
  | KNested => forall id, create_nested r id w = (Raise (XExn InvalidPipelineStateError), w)
  end.
