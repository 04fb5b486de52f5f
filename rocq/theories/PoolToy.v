(* A small world to show that the hypotheses of the theorems about pools can be
   met: objects are a message type with a text, the serializer writes the text
   as it is, and the server answers by a script. *)
From Verif Require Import Base Lit NumModel TextModel XmlModel WsmanModel ShellModel FragModel MsgModel UtilModel TransModel PoolModel.

Definition tobj : Type := option Z * list N.
Definition toy_codec : codec tobj :=
  mkCodec tobj (fun o => Ok (Some (snd o))) (fun t => Ok (None, t)) (fun t => Ok (None, t)) (fun ty t => Ok (Some ty, t)) fst (fun _ => (None, None)).
Definition num (l : list N) (i : nat) : Z := Z.of_N (nth i l 0%N).
Definition char_of (z : Z) : N := Z.to_N z.
Definition rval_char (v : rval) : N := match v with VInt z => Z.to_N z | VBool true => 1%N | _ => 0%N end.
Definition toy_build (o : omsg tobj N) : tobj :=
  match o with
  | OCapability _ _ _ => (None, lit "capability")
  | OInit mn mx th ap a => (None, lit "init" ++ [rval_char mn; rval_char mx] ++ match a with Some x => snd x | None => [] end)
  | OConnect => (None, lit "connect")
  | OSetMin v ci => (None, lit "min" ++ [char_of v; char_of ci])
  | OSetMax v ci => (None, lit "max" ++ [char_of v; char_of ci])
  | OAvailable ci => (None, lit "available" ++ [char_of ci])
  | OReset ci => (None, lit "reset" ++ [char_of ci])
  | OPublicKey k => (None, k)
  | OPoolResponse ci mi mr | OPipelineResponse ci mi mr => (None, [char_of ci; char_of mi] ++ snd mr)
  | OCreate ni _ _ _ cmds _ _ _ => (None, (if ni then lit "no input" else lit "input") ++ cmds)
  | OMetadata a => a
  | OInput o => o
  | OEnd => (None, lit "end")
  end.
(* the answer of a host method: none when the method is 2, otherwise "yes" *)
Definition toy_host (n : nat) (mi : Z) (mp : tobj) (pid : option (list N)) : out (option tobj) * nat :=
  (if Z.eqb mi 2 then Ret None else Ret (Some (None, lit "yes")), S n).
Definition toy_env (srv : bool -> history -> sreq -> wresult) : env tobj N nat N := {|
  ev_srv := srv;
  ev_codec := fun _ => toy_codec;
  ev_build := toy_build;
  ev_capability := fun _ => (Some (lit "2.3"), Some (lit "2.0"), Some (lit "1.1.0.1"));
  ev_session_key := fun o => snd o;
  ev_init := fun o => (num (snd o) 0, num (snd o) 1);
  ev_availability := fun o => (num (snd o) 0, match nth 1 (snd o) 9%N with 0%N => VBool false | 1%N => VBool true | x => VInt (Z.of_N x) end);
  ev_pool_state := fun o => num (snd o) 0;
  ev_host_call := fun o => (num (snd o) 0, num (snd o) 1, o);
  ev_pipe_state := fun o => (num (snd o) 0, match skipn 1 (snd o) with [] => None | t => Some (None, t) end);
  ev_host := Some toy_host;
  ev_keygen := fun h => 12345%N;
  ev_modulus := fun k => (k * 1000003)%N;
  ev_exponent := fun _ => 65537%N;
  ev_decrypt := fun _ b => Ok b;
  ev_clock := fun h => Z.of_nat (length h);
  ev_falsy := fun o => match snd o with [] => true | _ => false end;
  ev_skeleton := 1200 |}.

Definition rpid : list N := lit "00000000-0000-0000-0000-0000000000aa".
Definition pid1 : list N := lit "00000000-0000-0000-0000-0000000000b1".
Definition pid2 : list N := lit "00000000-0000-0000-0000-0000000000b2".

(* ---- the server ---- *)
Definition el (tag : list N) (text : option (list N)) (cs : list xml) : xml := Elem tag [] text cs.
Definition said_ok : wresult := WBody (Some (el (lit "Body") None [])).
Definition said_created : wresult := WBody (Some (el (lit "Body") None [el (rsp (lit "Shell")) None [el (rsp (lit "ShellId")) (Some rpid) []]])).
Definition said_command : wresult := WBody (Some (el (lit "Body") None [el (rsp (lit "CommandResponse")) None [el (rsp (lit "CommandId")) (Some (lit "CMD")) []]])).
Definition said_late : wresult :=
  WFault {| f_code := CInt 2150858793; f_machine := None; f_reason := None; f_provider := None; f_path := None; f_pfault := None |}.
Definition said_shell (state : list N) : wresult :=
  WBody (Some (el (lit "Body") None [el (rsp (lit "Shell")) None [el (rsp (lit "State")) (Some state) []]])).
(* output in chunks *)
Definition said_data (chunks : list bytes) : wresult :=
  WBody (Some (el (lit "Body") None [el (rsp (lit "ReceiveResponse")) None
    (map (fun c => Elem (rsp (lit "Stream")) [(lit "Name", lit "stdout")] (Some (b64encode c)) []) chunks)])).
(* the bytes of a message from the server, as one fragment of the object [oid],
   or cut after [n] bytes into two *)
Definition srv_msg (ty : Z) (t : list N) : bytes :=
  match message_pack toy_codec (mkMsg dest_client ty (repeat 0%N 16) (repeat 0%N 16) (DObj ty (None, t))) with Ok b => b | Err _ => [] end.
Definition whole (oid ty : Z) (t : list N) : bytes :=
  match frag_pack (mkFrag oid 0 (srv_msg ty t) true true) with Ok b => b | Err _ => [] end.
Definition part1 (n : nat) (oid ty : Z) (t : list N) : bytes :=
  match frag_pack (mkFrag oid 0 (firstn n (srv_msg ty t)) true false) with Ok b => b | Err _ => [] end.
Definition part2 (n : nat) (oid ty : Z) (t : list N) : bytes :=
  match frag_pack (mkFrag oid 1 (skipn n (srv_msg ty t)) false true) with Ok b => b | Err _ => [] end.

(* answers to the receive requests in order; [other] answers the rest *)
Definition scripted (answers : list wresult) (_ : bool) (h : history) (q : sreq) : wresult :=
  match q_op q with
  | OpReceive => nth (length (filter (fun e => match q_op (fst e) with OpReceive => true | _ => false end) h)) answers said_late
  | OpCreate => said_created
  | OpCommand => said_command
  | _ => said_ok
  end.
Definition opened_msgs : wresult := said_data [whole 1 SESSION_CAPABILITY (lit "c") ++ whole 2 RUNSPACEPOOL_STATE [2%N]].

Definition new_world (payload : Z) : world tobj N nat N :=
  mkWorld (new_pool rpid 2 0 (lit "Microsoft.PowerShell") 1 1 60000 false None 153600 payload) [] [] 0%nat false [].
Definition toy_run (answers : list wresult) (payload : Z) (ops : list op) : world tobj N nat N :=
  run_ops (toy_env (scripted answers)) (map (fun o => (20%nat, o)) ops) (new_world payload).
Definition no_args (i : option (input (Obj := tobj))) : invoke_args := mkArgs i true None false None.
Definition ops_made {O C H R} (w : world O C H R) : list wop := map (fun e => q_op (fst e)) (w_hist w).
