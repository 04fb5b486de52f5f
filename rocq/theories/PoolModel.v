(* Model of RunspacePool and PowerShell, src/pypsrp/powershell.py:98-1617,
   over the shell (ShellModel.v), the fragmenter (FragModel.v) and the message
   envelope (MsgModel.v).

   Not modelled: log messages, warnings, get_command_metadata's decoding of the
   objects it gets, and hosts that call back into the pool or the pipelines
   while a host call is being processed. *)
From Verif Require Import Base Lit NumModel TextModel XmlModel WsmanModel ShellModel FragModel MsgModel UtilModel TransModel.

(* ---- states: complex_objects.py, RunspacePoolState and PSInvocationState ---- *)
Definition rs_before_open : Z := 0.
Definition rs_opening : Z := 1.
Definition rs_opened : Z := 2.
Definition rs_closed : Z := 3.
Definition rs_closing : Z := 4.
Definition rs_broken : Z := 5.
Definition rs_negotiation_sent : Z := 6.
Definition rs_negotiation_succeeded : Z := 7.
Definition rs_connecting : Z := 8.
Definition rs_disconnected : Z := 9.
Definition pl_not_started : Z := 0.
Definition pl_running : Z := 1.
Definition pl_stopping : Z := 2.
Definition pl_stopped : Z := 3.
Definition pl_completed : Z := 4.
Definition pl_failed : Z := 5.
Definition pl_disconnected : Z := 6.

(* The response of a RunspaceAvailability message: a bool or an int; None when
   the message has none. *)
Inductive rval := VBool (b : bool) | VInt (z : Z) | VNone.
(* not response *)
Definition rfalsy (v : rval) : bool :=
  match v with VBool b => negb b | VInt z => Z.eqb z 0 | VNone => true end.
(* value == int, where True == 1 *)
Definition rval_is (v : rval) (z : Z) : bool :=
  match v with VBool b => Z.eqb z (if b then 1 else 0) | VInt y => Z.eqb y z | VNone => false end.

(* An entry of ci_table: one of the response handlers powershell.py:213-216,
   253-256, 393-395, 634-637, or the response that replaced it. *)
Inductive handler := HSetMin | HSetMax | HAvailable | HReset.
Inductive slot := SHandler (k : handler) | SValue (v : rval).

(* str.upper() on the characters of an identifier *)
Definition upper_char (c : N) : N := if (N.leb 97 c && N.leb c 122)%bool then (c - 32)%N else c.
Definition upper (s : list N) : list N := map upper_char s.

(* The public key blob: powershell.py:593-600 *)
Definition blob_header : bytes := [6; 2; 0; 0; 0; 164; 0; 0; 82; 83; 65; 49; 0; 8; 0; 0]%N.
Definition modulus_bytes (n : N) : bytes := map (fun i => N.land (N.shiftr n (N.of_nat i * 8)) 255) (seq 0 256).
Definition public_blob (n e : N) : res bytes :=
  do x <- struct_pack_le 4 (Z.of_N e);
  Ok (blob_header ++ x ++ modulus_bytes n).

Section Types.
  (* [Obj]: the objects the serializer handles; [Cmd]: Command objects; [HS]:
     the state of the host; [RK]: RSA private keys *)
  Context {Obj Cmd HS RK : Type}.

  (* The message objects the client builds, with the arguments of their
     constructors: powershell.py:218, 258, 331-332, 401, 447, 548-556, 602,
     643, 812-815, 1240-1254, 1268-1272. *)
  Inductive omsg :=
  | OCapability (protocol ps serialization : list N)
  | OInit (min max : rval) (thread apartment : Z) (arguments : option Obj)
  | OConnect
  | OSetMin (v ci : Z) | OSetMax (v ci : Z) | OAvailable (ci : Z) | OReset (ci : Z)
  | OPublicKey (key : list N)
  | OPoolResponse (ci mi : Z) (mr : Obj) | OPipelineResponse (ci mi : Z) (mr : Obj)
  | OCreate (no_input : bool) (apartment : Z) (options : option Z) (to_history : bool)
            (cmds : list Cmd) (nested : bool) (history : option (list N)) (redirect : bool)
  | OMetadata (arguments : Obj)
  | OInput (o : Obj) | OEnd.

  (* The Python objects of a pool and of a pipeline: powershell.py:144-178 and
     948-965.  The output list and each stream is a list of objects. *)
  Record pool := mkPool {
    rp_id : list N;
    rp_state : Z;
    rp_shell : shell;
    rp_table : list (Z * slot)   (* ci_table *);
    rp_pipelines : list (list N * nat)   (* id to object *);
    rp_min : rval;
    rp_max : rval;
    rp_apartment : Z;
    rp_thread : Z;
    rp_protocol : option (list N);
    rp_psver : option (list N);
    rp_server : option (list N)   (* serialization_version *);
    rp_events : list Obj   (* user_events *);
    rp_private : option Obj;
    rp_sender : sender   (* the fragmenter *);
    rp_receiver : list (Z * inbuf);
    rp_exchange : option RK   (* _exchange_key *);
    rp_exchanged : bool   (* _key_exchanged *);
    rp_cipher : option bytes   (* the AES key of the cipher *);
    rp_key_timeout : Z;
    rp_new_client : bool;
    rp_ci : Z   (* _ci_counter *);
    rp_envelope : Z   (* connection.max_envelope_size *);
    rp_payload : Z   (* connection.max_payload_size *) }.
  Definition set_rp_id (v : list N) (x : pool) : pool := mkPool v (rp_state x) (rp_shell x) (rp_table x) (rp_pipelines x) (rp_min x) (rp_max x) (rp_apartment x) (rp_thread x) (rp_protocol x) (rp_psver x) (rp_server x) (rp_events x) (rp_private x) (rp_sender x) (rp_receiver x) (rp_exchange x) (rp_exchanged x) (rp_cipher x) (rp_key_timeout x) (rp_new_client x) (rp_ci x) (rp_envelope x) (rp_payload x).
  Definition set_rp_state (v : Z) (x : pool) : pool := mkPool (rp_id x) v (rp_shell x) (rp_table x) (rp_pipelines x) (rp_min x) (rp_max x) (rp_apartment x) (rp_thread x) (rp_protocol x) (rp_psver x) (rp_server x) (rp_events x) (rp_private x) (rp_sender x) (rp_receiver x) (rp_exchange x) (rp_exchanged x) (rp_cipher x) (rp_key_timeout x) (rp_new_client x) (rp_ci x) (rp_envelope x) (rp_payload x).
  Definition set_rp_shell (v : shell) (x : pool) : pool := mkPool (rp_id x) (rp_state x) v (rp_table x) (rp_pipelines x) (rp_min x) (rp_max x) (rp_apartment x) (rp_thread x) (rp_protocol x) (rp_psver x) (rp_server x) (rp_events x) (rp_private x) (rp_sender x) (rp_receiver x) (rp_exchange x) (rp_exchanged x) (rp_cipher x) (rp_key_timeout x) (rp_new_client x) (rp_ci x) (rp_envelope x) (rp_payload x).
  Definition set_rp_table (v : list (Z * slot)) (x : pool) : pool := mkPool (rp_id x) (rp_state x) (rp_shell x) v (rp_pipelines x) (rp_min x) (rp_max x) (rp_apartment x) (rp_thread x) (rp_protocol x) (rp_psver x) (rp_server x) (rp_events x) (rp_private x) (rp_sender x) (rp_receiver x) (rp_exchange x) (rp_exchanged x) (rp_cipher x) (rp_key_timeout x) (rp_new_client x) (rp_ci x) (rp_envelope x) (rp_payload x).
  Definition set_rp_pipelines (v : list (list N * nat)) (x : pool) : pool := mkPool (rp_id x) (rp_state x) (rp_shell x) (rp_table x) v (rp_min x) (rp_max x) (rp_apartment x) (rp_thread x) (rp_protocol x) (rp_psver x) (rp_server x) (rp_events x) (rp_private x) (rp_sender x) (rp_receiver x) (rp_exchange x) (rp_exchanged x) (rp_cipher x) (rp_key_timeout x) (rp_new_client x) (rp_ci x) (rp_envelope x) (rp_payload x).
  Definition set_rp_min (v : rval) (x : pool) : pool := mkPool (rp_id x) (rp_state x) (rp_shell x) (rp_table x) (rp_pipelines x) v (rp_max x) (rp_apartment x) (rp_thread x) (rp_protocol x) (rp_psver x) (rp_server x) (rp_events x) (rp_private x) (rp_sender x) (rp_receiver x) (rp_exchange x) (rp_exchanged x) (rp_cipher x) (rp_key_timeout x) (rp_new_client x) (rp_ci x) (rp_envelope x) (rp_payload x).
  Definition set_rp_max (v : rval) (x : pool) : pool := mkPool (rp_id x) (rp_state x) (rp_shell x) (rp_table x) (rp_pipelines x) (rp_min x) v (rp_apartment x) (rp_thread x) (rp_protocol x) (rp_psver x) (rp_server x) (rp_events x) (rp_private x) (rp_sender x) (rp_receiver x) (rp_exchange x) (rp_exchanged x) (rp_cipher x) (rp_key_timeout x) (rp_new_client x) (rp_ci x) (rp_envelope x) (rp_payload x).
  Definition set_rp_apartment (v : Z) (x : pool) : pool := mkPool (rp_id x) (rp_state x) (rp_shell x) (rp_table x) (rp_pipelines x) (rp_min x) (rp_max x) v (rp_thread x) (rp_protocol x) (rp_psver x) (rp_server x) (rp_events x) (rp_private x) (rp_sender x) (rp_receiver x) (rp_exchange x) (rp_exchanged x) (rp_cipher x) (rp_key_timeout x) (rp_new_client x) (rp_ci x) (rp_envelope x) (rp_payload x).
  Definition set_rp_thread (v : Z) (x : pool) : pool := mkPool (rp_id x) (rp_state x) (rp_shell x) (rp_table x) (rp_pipelines x) (rp_min x) (rp_max x) (rp_apartment x) v (rp_protocol x) (rp_psver x) (rp_server x) (rp_events x) (rp_private x) (rp_sender x) (rp_receiver x) (rp_exchange x) (rp_exchanged x) (rp_cipher x) (rp_key_timeout x) (rp_new_client x) (rp_ci x) (rp_envelope x) (rp_payload x).
  Definition set_rp_protocol (v : option (list N)) (x : pool) : pool := mkPool (rp_id x) (rp_state x) (rp_shell x) (rp_table x) (rp_pipelines x) (rp_min x) (rp_max x) (rp_apartment x) (rp_thread x) v (rp_psver x) (rp_server x) (rp_events x) (rp_private x) (rp_sender x) (rp_receiver x) (rp_exchange x) (rp_exchanged x) (rp_cipher x) (rp_key_timeout x) (rp_new_client x) (rp_ci x) (rp_envelope x) (rp_payload x).
  Definition set_rp_psver (v : option (list N)) (x : pool) : pool := mkPool (rp_id x) (rp_state x) (rp_shell x) (rp_table x) (rp_pipelines x) (rp_min x) (rp_max x) (rp_apartment x) (rp_thread x) (rp_protocol x) v (rp_server x) (rp_events x) (rp_private x) (rp_sender x) (rp_receiver x) (rp_exchange x) (rp_exchanged x) (rp_cipher x) (rp_key_timeout x) (rp_new_client x) (rp_ci x) (rp_envelope x) (rp_payload x).
  Definition set_rp_server (v : option (list N)) (x : pool) : pool := mkPool (rp_id x) (rp_state x) (rp_shell x) (rp_table x) (rp_pipelines x) (rp_min x) (rp_max x) (rp_apartment x) (rp_thread x) (rp_protocol x) (rp_psver x) v (rp_events x) (rp_private x) (rp_sender x) (rp_receiver x) (rp_exchange x) (rp_exchanged x) (rp_cipher x) (rp_key_timeout x) (rp_new_client x) (rp_ci x) (rp_envelope x) (rp_payload x).
  Definition set_rp_events (v : list Obj) (x : pool) : pool := mkPool (rp_id x) (rp_state x) (rp_shell x) (rp_table x) (rp_pipelines x) (rp_min x) (rp_max x) (rp_apartment x) (rp_thread x) (rp_protocol x) (rp_psver x) (rp_server x) v (rp_private x) (rp_sender x) (rp_receiver x) (rp_exchange x) (rp_exchanged x) (rp_cipher x) (rp_key_timeout x) (rp_new_client x) (rp_ci x) (rp_envelope x) (rp_payload x).
  Definition set_rp_private (v : option Obj) (x : pool) : pool := mkPool (rp_id x) (rp_state x) (rp_shell x) (rp_table x) (rp_pipelines x) (rp_min x) (rp_max x) (rp_apartment x) (rp_thread x) (rp_protocol x) (rp_psver x) (rp_server x) (rp_events x) v (rp_sender x) (rp_receiver x) (rp_exchange x) (rp_exchanged x) (rp_cipher x) (rp_key_timeout x) (rp_new_client x) (rp_ci x) (rp_envelope x) (rp_payload x).
  Definition set_rp_sender (v : sender) (x : pool) : pool := mkPool (rp_id x) (rp_state x) (rp_shell x) (rp_table x) (rp_pipelines x) (rp_min x) (rp_max x) (rp_apartment x) (rp_thread x) (rp_protocol x) (rp_psver x) (rp_server x) (rp_events x) (rp_private x) v (rp_receiver x) (rp_exchange x) (rp_exchanged x) (rp_cipher x) (rp_key_timeout x) (rp_new_client x) (rp_ci x) (rp_envelope x) (rp_payload x).
  Definition set_rp_receiver (v : list (Z * inbuf)) (x : pool) : pool := mkPool (rp_id x) (rp_state x) (rp_shell x) (rp_table x) (rp_pipelines x) (rp_min x) (rp_max x) (rp_apartment x) (rp_thread x) (rp_protocol x) (rp_psver x) (rp_server x) (rp_events x) (rp_private x) (rp_sender x) v (rp_exchange x) (rp_exchanged x) (rp_cipher x) (rp_key_timeout x) (rp_new_client x) (rp_ci x) (rp_envelope x) (rp_payload x).
  Definition set_rp_exchange (v : option RK) (x : pool) : pool := mkPool (rp_id x) (rp_state x) (rp_shell x) (rp_table x) (rp_pipelines x) (rp_min x) (rp_max x) (rp_apartment x) (rp_thread x) (rp_protocol x) (rp_psver x) (rp_server x) (rp_events x) (rp_private x) (rp_sender x) (rp_receiver x) v (rp_exchanged x) (rp_cipher x) (rp_key_timeout x) (rp_new_client x) (rp_ci x) (rp_envelope x) (rp_payload x).
  Definition set_rp_exchanged (v : bool) (x : pool) : pool := mkPool (rp_id x) (rp_state x) (rp_shell x) (rp_table x) (rp_pipelines x) (rp_min x) (rp_max x) (rp_apartment x) (rp_thread x) (rp_protocol x) (rp_psver x) (rp_server x) (rp_events x) (rp_private x) (rp_sender x) (rp_receiver x) (rp_exchange x) v (rp_cipher x) (rp_key_timeout x) (rp_new_client x) (rp_ci x) (rp_envelope x) (rp_payload x).
  Definition set_rp_cipher (v : option bytes) (x : pool) : pool := mkPool (rp_id x) (rp_state x) (rp_shell x) (rp_table x) (rp_pipelines x) (rp_min x) (rp_max x) (rp_apartment x) (rp_thread x) (rp_protocol x) (rp_psver x) (rp_server x) (rp_events x) (rp_private x) (rp_sender x) (rp_receiver x) (rp_exchange x) (rp_exchanged x) v (rp_key_timeout x) (rp_new_client x) (rp_ci x) (rp_envelope x) (rp_payload x).
  Definition set_rp_key_timeout (v : Z) (x : pool) : pool := mkPool (rp_id x) (rp_state x) (rp_shell x) (rp_table x) (rp_pipelines x) (rp_min x) (rp_max x) (rp_apartment x) (rp_thread x) (rp_protocol x) (rp_psver x) (rp_server x) (rp_events x) (rp_private x) (rp_sender x) (rp_receiver x) (rp_exchange x) (rp_exchanged x) (rp_cipher x) v (rp_new_client x) (rp_ci x) (rp_envelope x) (rp_payload x).
  Definition set_rp_new_client (v : bool) (x : pool) : pool := mkPool (rp_id x) (rp_state x) (rp_shell x) (rp_table x) (rp_pipelines x) (rp_min x) (rp_max x) (rp_apartment x) (rp_thread x) (rp_protocol x) (rp_psver x) (rp_server x) (rp_events x) (rp_private x) (rp_sender x) (rp_receiver x) (rp_exchange x) (rp_exchanged x) (rp_cipher x) (rp_key_timeout x) v (rp_ci x) (rp_envelope x) (rp_payload x).
  Definition set_rp_ci (v : Z) (x : pool) : pool := mkPool (rp_id x) (rp_state x) (rp_shell x) (rp_table x) (rp_pipelines x) (rp_min x) (rp_max x) (rp_apartment x) (rp_thread x) (rp_protocol x) (rp_psver x) (rp_server x) (rp_events x) (rp_private x) (rp_sender x) (rp_receiver x) (rp_exchange x) (rp_exchanged x) (rp_cipher x) (rp_key_timeout x) (rp_new_client x) v (rp_envelope x) (rp_payload x).
  Definition set_rp_envelope (v : Z) (x : pool) : pool := mkPool (rp_id x) (rp_state x) (rp_shell x) (rp_table x) (rp_pipelines x) (rp_min x) (rp_max x) (rp_apartment x) (rp_thread x) (rp_protocol x) (rp_psver x) (rp_server x) (rp_events x) (rp_private x) (rp_sender x) (rp_receiver x) (rp_exchange x) (rp_exchanged x) (rp_cipher x) (rp_key_timeout x) (rp_new_client x) (rp_ci x) v (rp_payload x).
  Definition set_rp_payload (v : Z) (x : pool) : pool := mkPool (rp_id x) (rp_state x) (rp_shell x) (rp_table x) (rp_pipelines x) (rp_min x) (rp_max x) (rp_apartment x) (rp_thread x) (rp_protocol x) (rp_psver x) (rp_server x) (rp_events x) (rp_private x) (rp_sender x) (rp_receiver x) (rp_exchange x) (rp_exchanged x) (rp_cipher x) (rp_key_timeout x) (rp_new_client x) (rp_ci x) (rp_envelope x) v.

  Record ps := mkPs {
    ps_id : list N;
    ps_state : Z;
    ps_commands : list Cmd;
    ps_had_errors : bool;
    ps_nested : bool;
    ps_history : option (list N);
    ps_output : list Obj;
    ps_error : list Obj;
    ps_debug : list Obj;
    ps_verbose : list Obj;
    ps_warning : list Obj;
    ps_progress : list Obj;
    ps_information : list Obj;
    ps_from_disconnect : bool;
    ps_command_id : option (list N) }.
  Definition set_ps_id (v : list N) (x : ps) : ps := mkPs v (ps_state x) (ps_commands x) (ps_had_errors x) (ps_nested x) (ps_history x) (ps_output x) (ps_error x) (ps_debug x) (ps_verbose x) (ps_warning x) (ps_progress x) (ps_information x) (ps_from_disconnect x) (ps_command_id x).
  Definition set_ps_state (v : Z) (x : ps) : ps := mkPs (ps_id x) v (ps_commands x) (ps_had_errors x) (ps_nested x) (ps_history x) (ps_output x) (ps_error x) (ps_debug x) (ps_verbose x) (ps_warning x) (ps_progress x) (ps_information x) (ps_from_disconnect x) (ps_command_id x).
  Definition set_ps_commands (v : list Cmd) (x : ps) : ps := mkPs (ps_id x) (ps_state x) v (ps_had_errors x) (ps_nested x) (ps_history x) (ps_output x) (ps_error x) (ps_debug x) (ps_verbose x) (ps_warning x) (ps_progress x) (ps_information x) (ps_from_disconnect x) (ps_command_id x).
  Definition set_ps_had_errors (v : bool) (x : ps) : ps := mkPs (ps_id x) (ps_state x) (ps_commands x) v (ps_nested x) (ps_history x) (ps_output x) (ps_error x) (ps_debug x) (ps_verbose x) (ps_warning x) (ps_progress x) (ps_information x) (ps_from_disconnect x) (ps_command_id x).
  Definition set_ps_nested (v : bool) (x : ps) : ps := mkPs (ps_id x) (ps_state x) (ps_commands x) (ps_had_errors x) v (ps_history x) (ps_output x) (ps_error x) (ps_debug x) (ps_verbose x) (ps_warning x) (ps_progress x) (ps_information x) (ps_from_disconnect x) (ps_command_id x).
  Definition set_ps_history (v : option (list N)) (x : ps) : ps := mkPs (ps_id x) (ps_state x) (ps_commands x) (ps_had_errors x) (ps_nested x) v (ps_output x) (ps_error x) (ps_debug x) (ps_verbose x) (ps_warning x) (ps_progress x) (ps_information x) (ps_from_disconnect x) (ps_command_id x).
  Definition set_ps_output (v : list Obj) (x : ps) : ps := mkPs (ps_id x) (ps_state x) (ps_commands x) (ps_had_errors x) (ps_nested x) (ps_history x) v (ps_error x) (ps_debug x) (ps_verbose x) (ps_warning x) (ps_progress x) (ps_information x) (ps_from_disconnect x) (ps_command_id x).
  Definition set_ps_error (v : list Obj) (x : ps) : ps := mkPs (ps_id x) (ps_state x) (ps_commands x) (ps_had_errors x) (ps_nested x) (ps_history x) (ps_output x) v (ps_debug x) (ps_verbose x) (ps_warning x) (ps_progress x) (ps_information x) (ps_from_disconnect x) (ps_command_id x).
  Definition set_ps_debug (v : list Obj) (x : ps) : ps := mkPs (ps_id x) (ps_state x) (ps_commands x) (ps_had_errors x) (ps_nested x) (ps_history x) (ps_output x) (ps_error x) v (ps_verbose x) (ps_warning x) (ps_progress x) (ps_information x) (ps_from_disconnect x) (ps_command_id x).
  Definition set_ps_verbose (v : list Obj) (x : ps) : ps := mkPs (ps_id x) (ps_state x) (ps_commands x) (ps_had_errors x) (ps_nested x) (ps_history x) (ps_output x) (ps_error x) (ps_debug x) v (ps_warning x) (ps_progress x) (ps_information x) (ps_from_disconnect x) (ps_command_id x).
  Definition set_ps_warning (v : list Obj) (x : ps) : ps := mkPs (ps_id x) (ps_state x) (ps_commands x) (ps_had_errors x) (ps_nested x) (ps_history x) (ps_output x) (ps_error x) (ps_debug x) (ps_verbose x) v (ps_progress x) (ps_information x) (ps_from_disconnect x) (ps_command_id x).
  Definition set_ps_progress (v : list Obj) (x : ps) : ps := mkPs (ps_id x) (ps_state x) (ps_commands x) (ps_had_errors x) (ps_nested x) (ps_history x) (ps_output x) (ps_error x) (ps_debug x) (ps_verbose x) (ps_warning x) v (ps_information x) (ps_from_disconnect x) (ps_command_id x).
  Definition set_ps_information (v : list Obj) (x : ps) : ps := mkPs (ps_id x) (ps_state x) (ps_commands x) (ps_had_errors x) (ps_nested x) (ps_history x) (ps_output x) (ps_error x) (ps_debug x) (ps_verbose x) (ps_warning x) (ps_progress x) v (ps_from_disconnect x) (ps_command_id x).
  Definition set_ps_from_disconnect (v : bool) (x : ps) : ps := mkPs (ps_id x) (ps_state x) (ps_commands x) (ps_had_errors x) (ps_nested x) (ps_history x) (ps_output x) (ps_error x) (ps_debug x) (ps_verbose x) (ps_warning x) (ps_progress x) (ps_information x) v (ps_command_id x).
  Definition set_ps_command_id (v : option (list N)) (x : ps) : ps := mkPs (ps_id x) (ps_state x) (ps_commands x) (ps_had_errors x) (ps_nested x) (ps_history x) (ps_output x) (ps_error x) (ps_debug x) (ps_verbose x) (ps_warning x) (ps_progress x) (ps_information x) (ps_from_disconnect x) v.

  (* What the theorems observe besides the requests: each message handed to its
     handler with the pipeline it is processed for, each message cut into
     fragments with the pipeline id it carries, and each run of a host method
     with what it gave. *)
  Inductive event :=
  | EMsg (pl : option nat) (m : message Obj)
  | EOut (pid : option (list N)) (o : omsg)
  | EHost (mi : Z) (mp : Obj) (pl : option nat) (r : out (option Obj)).

  Record world := mkWorld {
    w_pool : pool;
    w_heap : list ps   (* the PowerShell objects *);
    w_hist : history;
    w_host : HS   (* the state of the host *);
    w_disabled : bool   (* the context variable of _pool_manager.py *);
    w_log : list event   (* observation only *) }.
  Definition set_w_pool (v : pool) (x : world) : world := mkWorld v (w_heap x) (w_hist x) (w_host x) (w_disabled x) (w_log x).
  Definition set_w_heap (v : list ps) (x : world) : world := mkWorld (w_pool x) v (w_hist x) (w_host x) (w_disabled x) (w_log x).
  Definition set_w_hist (v : history) (x : world) : world := mkWorld (w_pool x) (w_heap x) v (w_host x) (w_disabled x) (w_log x).
  Definition set_w_host (v : HS) (x : world) : world := mkWorld (w_pool x) (w_heap x) (w_hist x) v (w_disabled x) (w_log x).
  Definition set_w_disabled (v : bool) (x : world) : world := mkWorld (w_pool x) (w_heap x) (w_hist x) (w_host x) v (w_log x).
  Definition set_w_log (v : list event) (x : world) : world := mkWorld (w_pool x) (w_heap x) (w_hist x) (w_host x) (w_disabled x) v.

  (* The environment, all of it arbitrary. *)
  Record env := mkEnv {
    ev_srv : bool -> history -> sreq -> wresult;   (* what a request gives, with new connections disabled or not *)
    ev_codec : option bytes -> codec Obj;          (* the serializer with its cipher *)
    ev_build : omsg -> Obj;                        (* the constructors of the message classes *)
    ev_capability : Obj -> option (list N) * option (list N) * option (list N);
    ev_session_key : Obj -> list N;
    ev_init : Obj -> Z * Z;
    ev_availability : Obj -> Z * rval;             (* ci, response *)
    ev_pool_state : Obj -> Z;
    ev_host_call : Obj -> Z * Z * Obj;             (* ci, mi, mp *)
    ev_pipe_state : Obj -> Z * option Obj;         (* state, error_record *)
    ev_host : option (HS -> Z -> Obj -> option (list N) -> out (option Obj) * HS);  (* run_method *)
    ev_keygen : history -> RK;
    ev_modulus : RK -> N;
    ev_exponent : RK -> N;
    ev_decrypt : RK -> bytes -> res bytes;
    ev_clock : history -> Z;                       (* time.time() in milliseconds *)
    ev_falsy : Obj -> bool;                        (* not obj *)
    ev_skeleton : Z                                (* length of the sample envelope of _calc_envelope_size *)
  }.
End Types.
Arguments omsg : clear implicits.
Arguments pool : clear implicits.
Arguments ps : clear implicits.
Arguments world : clear implicits.
Arguments event : clear implicits.
Arguments env : clear implicits.

Definition new_ps {Obj Cmd} (id : list N) : ps Obj Cmd :=
  mkPs id pl_not_started [] false false None [] [] [] [] [] [] [] false None.

(* powershell.py:144-178; the connection's sizes are given *)
Definition new_pool_shell (id uri : list N) (no_profile : bool) (idle : option (list N)) : shell :=
  {| sh_opened := false; sh_id := Some id; sh_uri := Some (lit "http://schemas.microsoft.com/powershell/" ++ uri);
     sh_input := lit "stdin pr"; sh_output := Some (lit "stdout"); sh_codepage := None; sh_env := None; sh_idle := idle;
     sh_lifetime := None; sh_name := None; sh_no_profile := no_profile; sh_dir := None; sh_owner := None;
     sh_client_ip := None; sh_run_time := None; sh_inactivity := None; sh_selectors := None |}.
Definition new_pool {Obj RK} (id : list N) (apartment thread : Z) (configuration : list N) (min max timeout : Z)
    (no_profile : bool) (idle : option (list N)) (envelope payload : Z) : pool Obj RK :=
  mkPool id rs_before_open (new_pool_shell id configuration no_profile idle) [] [] (VInt min) (VInt max)
    apartment thread None None None [] None (sender_init payload) [] None false None timeout false 0 envelope payload.

Fixpoint list_upd {A} (n : nat) (f : A -> A) (l : list A) : list A :=
  match l, n with
  | [], _ => []
  | x :: l', O => f x :: l'
  | x :: l', S n' => x :: list_upd n' f l'
  end.

Section Pool.
  Context {Obj Cmd HS RK : Type} (E : env Obj Cmd HS RK).
  Notation world := (world Obj Cmd HS RK).
  Notation msg := (omsg Obj Cmd).

  (* ---- effects: a result or an exception, and the world after it ---- *)
  Notation M A := (world -> out A * world).
  Definition ret {A} (a : A) : M A := fun w => (Ret a, w).
  Definition fail {A} (x : raised) : M A := fun w => (Raise x, w).
  Definition throw {A} (e : exn) : M A := fail (XExn e).
  Definition mbind {A B} (a : M A) (f : A -> M B) : M B :=
    fun w => match a w with (Ret x, w') => f x w' | (Raise x, w') => (Raise x, w') end.
  Notation "x <-- a ;; b" := (mbind a (fun x => b)) (at level 61, a at next level, right associativity).
  Notation "a ;;; b" := (mbind a (fun _ => b)) (at level 61, right associativity).
  Definition get {A} (f : world -> A) : M A := fun w => (Ret (f w), w).
  Definition upd (f : world -> world) : M unit := fun w => (Ret tt, f w).
  Definition lift {A} (r : res A) : M A := match r with Ok a => ret a | Err e => throw e end.
  Definition getp {A} (f : pool Obj RK -> A) : M A := get (fun w => f (w_pool w)).
  Definition updp (f : pool Obj RK -> pool Obj RK) : M unit := upd (fun w => set_w_pool (f (w_pool w)) w).
  Definition observe (e : event Obj Cmd) : M unit := upd (fun w => set_w_log (w_log w ++ [e]) w).
  Definition the_ps (r : nat) (w : world) : ps Obj Cmd := nth r (w_heap w) (new_ps []).
  Definition getps {A} (r : nat) (f : ps Obj Cmd -> A) : M A := get (fun w => f (the_ps r w)).
  Definition updps (r : nat) (f : ps Obj Cmd -> ps Obj Cmd) : M unit := upd (fun w => set_w_heap (list_upd r f (w_heap w)) w).
  Fixpoint each {A} (f : A -> M unit) (l : list A) : M unit :=
    match l with [] => ret tt | a :: l' => f a ;;; each f l' end.

  (* the shell's methods, which do not change the shell unless given *)
  Definition on_shell {A} (f : (history -> sreq -> wresult) -> shell -> history -> out A * history) : M A :=
    fun w => let '(r, h) := f (ev_srv E (w_disabled w)) (rp_shell (w_pool w)) (w_hist w) in (r, set_w_hist h w).
  Definition on_shell_state {A} (f : (history -> sreq -> wresult) -> shell -> history -> out A * shell * history) : M A :=
    fun w => let '(r, s, h) := f (ev_srv E (w_disabled w)) (rp_shell (w_pool w)) (w_hist w) in
      (r, set_w_hist h (set_w_pool (set_rp_shell s (w_pool w)) w)).
  Definition request_raw (q : sreq) : M (option xml) :=
    fun w => let '(r, h) := call (ev_srv E (w_disabled w)) q (w_hist w) in (r, set_w_hist h w).
  Definition send (stream : list N) (data : bytes) (command_id : option (list N)) : M unit :=
    on_shell (fun srv => shell_send srv stream data command_id None) ;;; ret tt.

  (* ---- outgoing messages ---- *)
  (* the type of each message class, and PipelineInput wrapping its object *)
  Definition omsg_data (o : msg) : mdata Obj :=
    match o with
    | OInput x => DInput x
    | OCapability _ _ _ => DObj SESSION_CAPABILITY (ev_build E o)
    | OInit _ _ _ _ _ => DObj INIT_RUNSPACEPOOL (ev_build E o)
    | OConnect => DObj CONNECT_RUNSPACEPOOL (ev_build E o)
    | OSetMin _ _ => DObj SET_MIN_RUNSPACES (ev_build E o)
    | OSetMax _ _ => DObj SET_MAX_RUNSPACES (ev_build E o)
    | OAvailable _ => DObj GET_AVAILABLE_RUNSPACES (ev_build E o)
    | OReset _ => DObj RESET_RUNSPACE_STATE (ev_build E o)
    | OPublicKey _ => DObj PUBLIC_KEY (ev_build E o)
    | OPoolResponse _ _ _ => DObj RUNSPACEPOOL_HOST_RESPONSE (ev_build E o)
    | OPipelineResponse _ _ _ => DObj PIPELINE_HOST_RESPONSE (ev_build E o)
    | OCreate _ _ _ _ _ _ _ _ => DObj CREATE_PIPELINE (ev_build E o)
    | OMetadata _ => DObj GET_COMMAND_METADATA (ev_build E o)
    | OEnd => DObj END_OF_PIPELINE_INPUT (ev_build E o)
    end.
  (* Message(SERVER, data, pool id, pipeline id).pack() *)
  Definition packed (cipher : option bytes) (rpid : list N) (pid : option (list N)) (o : msg) : res bytes :=
    do m <- message_new dest_server (Some rpid) pid (omsg_data o);
    message_pack (ev_codec E cipher) m.
  (* powershell.py:1646-1677 Fragmenter.fragment *)
  Definition fragment_one (o : msg) (pid : option (list N)) : M (list bytes) :=
    cipher <-- getp rp_cipher ;; id <-- getp rp_id ;; s <-- getp rp_sender ;;
    b <-- lift (packed cipher id pid o) ;;
    r <-- lift (fragment_msg s b None) ;;
    updp (set_rp_sender (fst r)) ;;; observe (EOut pid o) ;;; ret (snd r).
  (* powershell.py:1679-1703 Fragmenter.fragment_multiple.  Simplified: the
     messages are all packed first, so a message that cannot be packed leaves
     the object counter untouched. *)
  Definition fragment_many (os : list msg) (pid : option (list N)) : M (list bytes) :=
    cipher <-- getp rp_cipher ;; id <-- getp rp_id ;; s <-- getp rp_sender ;;
    bs <-- lift (mapM (packed cipher id pid) os) ;;
    r <-- lift (fragment_multiple s bs) ;;
    updp (set_rp_sender (fst r)) ;;; each (fun o => observe (EOut pid o)) os ;;; ret (snd r).
  (* fragments[0] *)
  Definition first_fragment (l : list bytes) : M bytes := match l with [] => throw IndexError | b :: _ => ret b end.

  (* ---- incoming messages ---- *)
  (* powershell.py:797-824.  Without a host only a warning is logged; it names
     the method, which raises KeyError for an identifier that has no name
     (complex_objects.py:141-148, 1067-1124). *)
  Definition process_host_call (o : Obj) (pl : option nat) : M unit :=
    match ev_host E with
    | None => if let '(_, mi, _) := ev_host_call E o in (Z.leb 1 mi && Z.leb mi 56)%bool then ret tt else throw KeyError
    | Some run =>
        let '(ci, mi, mp) := ev_host_call E o in
        pid <-- match pl with Some r => (i <-- getps r ps_id ;; ret (Some i)) | None => ret None end ;;
        st <-- get w_host ;;
        let '(r, st') := run st mi mp pid in
        upd (set_w_host st') ;;; observe (EHost mi mp pl r) ;;;
        match r with
        | Raise x => fail x
        | Ret None => ret tt
        | Ret (Some mr) =>
            fs <-- fragment_one (match pl with Some _ => OPipelineResponse ci mi mr | None => OPoolResponse ci mi mr end) pid ;;
            each (fun f => send (lit "pr") f None) fs
        end
    end.

  (* powershell.py:826-846; the payload size by wsman.py:423-442 *)
  Definition process_session_capability (o : Obj) : M unit :=
    let '(p, v, s) := ev_capability E o in
    updp (fun x => set_rp_server s (set_rp_psver v (set_rp_protocol p x))) ;;;
    newer <-- lift (version_equal_or_newer (match p with Some t => t | None => [] end) (lit "2.2")) ;;
    envelope <-- getp rp_envelope ;;
    if (newer && Z.eqb envelope 153600)%bool then
      let payload := max_payload_size (ev_skeleton E) 512000 in
      updp (fun x => set_rp_sender (session_capability_resize (rp_sender x) payload)
                       (set_rp_payload payload (set_rp_envelope 512000 x)))
    else ret tt.

  (* powershell.py:848-859 *)
  Definition process_init_data (o : Obj) : M unit :=
    let '(mn, mx) := ev_init E o in updp (fun x => set_rp_max (VInt mx) (set_rp_min (VInt mn) x)).

  (* powershell.py:861-872; calling a response that is not a handler raises
     TypeError *)
  Definition process_availability (o : Obj) : M unit :=
    let '(ci, response) := ev_availability E o in
    table <-- getp rp_table ;;
    match dict_get Z.eqb ci table with
    | None => throw KeyError
    | Some (SValue _) => throw TypeError
    | Some (SHandler k) =>
        match k with
        | HAvailable => updp (set_rp_max response)
        | _ => if rfalsy response then throw InvalidPSRPOperation else ret tt
        end ;;;
        updp (fun x => set_rp_table (dict_set Z.eqb ci (SValue response) (rp_table x)) x)
    end.

  (* powershell.py:880-890 *)
  Definition process_pool_state (o : Obj) : M unit :=
    let st := ev_pool_state E o in
    updp (set_rp_state st) ;;; if Z.eqb st rs_broken then throw InvalidPSRPOperation else ret tt.

  (* powershell.py:904-925; [::-1] reverses; algorithms.AES wants 16, 24 or 32
     bytes *)
  Definition process_session_key (o : Obj) : M unit :=
    blob <-- lift (b64decode (ev_session_key E o)) ;;
    key <-- getp rp_exchange ;;
    match key with
    | None => throw AttributeError
    | Some k =>
        d <-- lift (ev_decrypt E k (rev (slice_from blob 12))) ;;
        if (Nat.eqb (length d) 16 || Nat.eqb (length d) 24 || Nat.eqb (length d) 32)%bool then
          updp (fun x => set_rp_exchange None (set_rp_exchanged true (set_rp_cipher (Some d) x)))
        else throw ValueError
    end.

  (* powershell.py:1574-1586 *)
  Definition process_pipeline_state (r : nat) (o : Obj) : M unit :=
    let '(st, err) := ev_pipe_state E o in
    updps r (set_ps_state st) ;;;
    match err with Some e => updps r (fun p => set_ps_error (ps_error p ++ [e]) p) | None => ret tt end ;;;
    if Z.eqb st pl_failed then updps r (set_ps_had_errors true) else ret tt.

  (* the object of a message whose handler wants one *)
  Definition data_obj (d : mdata Obj) (f : Obj -> M unit) : M unit :=
    match d with DObj _ o | DInput o | DOutput o => f o | DPublicKeyRequest => ret tt end.

  (* powershell.py:747-793: the handler of a message.  A server's request for
     the public key has a handler that returns the bound method exchange_keys
     without calling it.  A warning for the pool itself is only shown. *)
  Definition process_message (pl : option nat) (m : message Obj) : M unit :=
    let ty := m_type m in let d := m_data m in
    if Z.eqb ty SESSION_CAPABILITY then data_obj d process_session_capability
    else if Z.eqb ty ENCRYPTED_SESSION_KEY then data_obj d process_session_key
    else if Z.eqb ty PUBLIC_KEY_REQUEST then ret tt
    else if Z.eqb ty RUNSPACEPOOL_INIT_DATA then data_obj d process_init_data
    else if Z.eqb ty RUNSPACE_AVAILABILITY then data_obj d process_availability
    else if Z.eqb ty RUNSPACEPOOL_STATE then data_obj d process_pool_state
    else if Z.eqb ty USER_EVENT then data_obj d (fun o => updp (fun x => set_rp_events (rp_events x ++ [o]) x))
    else if Z.eqb ty APPLICATION_PRIVATE_DATA then data_obj d (fun o => updp (set_rp_private (Some o)))
    else if Z.eqb ty RUNSPACEPOOL_HOST_CALL then data_obj d (fun o => process_host_call o None)
    else match pl with
    | None => ret tt
    | Some r =>
        if Z.eqb ty ERROR_RECORD then data_obj d (fun o => updps r (fun p => set_ps_error (ps_error p ++ [o]) p))
        else if Z.eqb ty PIPELINE_STATE then data_obj d (process_pipeline_state r)
        else if Z.eqb ty DEBUG_RECORD then data_obj d (fun o => updps r (fun p => set_ps_debug (ps_debug p ++ [o]) p))
        else if Z.eqb ty VERBOSE_RECORD then data_obj d (fun o => updps r (fun p => set_ps_verbose (ps_verbose p ++ [o]) p))
        else if Z.eqb ty WARNING_RECORD then data_obj d (fun o => updps r (fun p => set_ps_warning (ps_warning p ++ [o]) p))
        else if Z.eqb ty PROGRESS_RECORD then data_obj d (fun o => updps r (fun p => set_ps_progress (ps_progress p ++ [o]) p))
        else if Z.eqb ty INFORMATION_RECORD then data_obj d (fun o => updps r (fun p => set_ps_information (ps_information p ++ [o]) p))
        else if Z.eqb ty PIPELINE_HOST_CALL then data_obj d (fun o => process_host_call o (Some r))
        else ret tt
    end.

  Definition handle (pl : option nat) (m : message Obj) : M unit := observe (EMsg pl m) ;;; process_message pl m.

  (* powershell.py:742-795.  Of the values returned only those of pipeline
     output matter to callers, so the messages themselves are returned. *)
  Definition parse_responses (data : bytes) (pl : option nat) : M (list (message Obj)) :=
    rc <-- getp rp_receiver ;; cipher <-- getp rp_cipher ;;
    let '(rc', r) := defragment rc data in
    updp (set_rp_receiver rc') ;;;
    bs <-- lift r ;;
    ms <-- lift (mapM (message_unpack (ev_codec E cipher)) bs) ;;
    each (handle pl) ms ;;; ret ms.

  (* powershell.py:712-740; "if id:" is false on an empty id *)
  Definition receive (id : option (list N)) (timeout : option Z) : M (list (message Obj)) :=
    reg <-- getp rp_pipelines ;;
    let pl := match id with Some (c :: s) => dict_get str_eqb (c :: s) reg | _ => None end in
    cid <-- match pl with Some r => getps r ps_command_id | None => ret None end ;;
    b <-- on_shell (fun srv => shell_receive srv (lit "stdout") cid timeout) ;;
    match dict_get str_eqb (lit "stdout") (snd b) with
    | None => throw KeyError
    | Some data => parse_responses data pl
    end.

  (* while not done: self._receive() -- [fuel] bounds the receives *)
  Fixpoint receive_until (fuel : nat) (done : world -> bool) : M unit :=
    fun w => if done w then (Ret tt, w)
      else match fuel with
           | O => (Raise (XExn OutOfFuel), w)
           | S fuel' => (receive None None ;;; receive_until fuel' done) w
           end.

  (* ---- the pool ---- *)
  Definition in_states (z : Z) (l : list Z) : bool := existsb (Z.eqb z) l.

  (* powershell.py:286-298 *)
  Definition pool_close : M unit :=
    st <-- getp rp_state ;;
    if in_states st [rs_closed; rs_closing; rs_broken] then ret tt
    else on_shell_state (fun srv => shell_close srv) ;;; updp (set_rp_state rs_closed).

  (* a request with the response handler [k]: powershell.py:213-228, 253-268,
     393-403, 634-646 *)
  Definition slot_of (ci : Z) (w : world) : option slot := dict_get Z.eqb ci (rp_table (w_pool w)).
  (* not isinstance(self.ci_table[ci], bool), and isinstance(.., int); a
     missing entry, which cannot happen, ends the loop *)
  Definition is_bool (s : option slot) : bool := match s with Some (SValue (VBool _)) => true | None => true | _ => false end.
  Definition is_int (s : option slot) : bool :=
    match s with Some (SValue (VBool _)) => true | Some (SValue (VInt _)) => true | None => true | _ => false end.
  Definition new_call (k : handler) : M Z :=
    ci <-- getp rp_ci ;;
    updp (fun x => set_rp_table (dict_set Z.eqb ci (SHandler k) (rp_table x)) (set_rp_ci (ci + 1) x)) ;;; ret ci.
  Definition ask (k : handler) (mk : Z -> msg) : M Z :=
    ci <-- new_call k ;;
    fs <-- fragment_one (mk ci) None ;;
    f <-- first_fragment fs ;;
    send (lit "stdin") f None ;;; ret ci.
  Definition forget (ci : Z) : M unit := updp (fun x => set_rp_table (dict_del Z.eqb ci (rp_table x)) x).

  (* powershell.py:193-228 *)
  Definition set_min_runspaces (fuel : nat) (v : Z) : M unit :=
    st <-- getp rp_state ;; cur <-- getp rp_min ;;
    if negb (Z.eqb st rs_opened) then updp (set_rp_min (VInt v))
    else if rval_is cur v then ret tt
    else
      ci <-- ask HSetMin (fun ci => OSetMin v ci) ;;
      receive_until fuel (fun w => is_bool (slot_of ci w)) ;;;
      updp (set_rp_min (VInt v)) ;;; forget ci.
  (* powershell.py:234-272 *)
  Definition set_max_runspaces (fuel : nat) (v : Z) : M unit :=
    st <-- getp rp_state ;; cur <-- getp rp_max ;;
    if negb (Z.eqb st rs_opened) then updp (set_rp_max (VInt v))
    else if rval_is cur v then ret tt
    else
      ci <-- ask HSetMax (fun ci => OSetMax v ci) ;;
      receive_until fuel (fun w => is_bool (slot_of ci w)) ;;;
      updp (set_rp_max (VInt v)) ;;; forget ci.
  (* powershell.py:385-412; the loop receives before it looks *)
  Definition get_available_runspaces (fuel : nat) : M (option slot) :=
    ci <-- ask HAvailable (fun ci => OAvailable ci) ;;
    receive None None ;;;
    receive_until fuel (fun w => is_int (slot_of ci w)) ;;;
    v <-- get (slot_of ci) ;; forget ci ;;; ret v.
  (* powershell.py:613-650 *)
  Definition reset_runspace_state (fuel : nat) : M unit :=
    st <-- getp rp_state ;;
    if Z.eqb st rs_before_open then ret tt
    else if negb (Z.eqb st rs_opened) then throw InvalidRunspacePoolStateError
    else
      p <-- getp rp_protocol ;;
      newer <-- lift (version_equal_or_newer (match p with Some t => t | None => [] end) (lit "2.3")) ;;
      if negb newer then throw InvalidPSRPOperation
      else
        ci <-- ask HReset (fun ci => OReset ci) ;;
        receive_until fuel (fun w => is_bool (slot_of ci w)) ;;; forget ci.

  Definition ns_powershell : list N := lit "http://schemas.microsoft.com/powershell".
  Definition content_xml (tag : list N) (data : bytes) : xml :=
    Elem tag [(lit "xmlns", ns_powershell)] (Some (b64encode data)) [].
  Definition capability : msg := OCapability (lit "2.3") (lit "2.0") (lit "1.1.0.1").
  Definition version_option : wset := add_option option_set (lit "protocolversion") (lit "2.3") [(lit "MustComply", lit "true")].

  (* powershell.py:530-570; the fragments after the first are not sent *)
  Definition pool_open (fuel : nat) (arguments : option Obj) : M unit :=
    st <-- getp rp_state ;;
    if Z.eqb st rs_opened then ret tt
    else if negb (Z.eqb st rs_before_open) then throw InvalidRunspacePoolStateError
    else
      p <-- getp (fun x => x) ;;
      fs <-- fragment_many [capability; OInit (rp_min p) (rp_max p) (rp_thread p) (rp_apartment p) arguments] None ;;
      f <-- first_fragment fs ;;
      on_shell_state (fun srv => shell_open srv (Some version_option) (Some (content_xml (lit "creationXml") f))) ;;;
      updp (set_rp_state rs_negotiation_sent) ;;;
      receive_until fuel (fun w => negb (Z.eqb (rp_state (w_pool w)) rs_negotiation_sent)).

  Definition shell_selector (id : list N) : wset := add_option selector_set (lit "ShellId") id [].
  Definition or_empty (t : option (list N)) : list N := match t with Some x => x | None => [] end.
  Definition conn_request (op : wop) (body : option xml) (options selectors : option wset) : M (option xml) :=
    uri <-- getp (fun x => sh_uri (rp_shell x)) ;;
    request_raw {| q_op := op; q_uri := uri; q_body := body; q_options := options; q_selectors := selectors; q_timeout := None |}.

  (* powershell.py:323-327 *)
  Definition connect_existing : M unit :=
    id <-- getp (fun x => sh_id (rp_shell x)) ;;
    conn_request OpReconnect None None (Some (shell_selector (or_empty id))) ;;;
    updp (set_rp_state rs_opened).
  (* powershell.py:329-353 *)
  Definition connect_new : M unit :=
    f1 <-- fragment_one capability None ;; d1 <-- first_fragment f1 ;;
    f2 <-- fragment_one OConnect None ;; d2 <-- first_fragment f2 ;;
    id <-- getp rp_id ;;
    b <-- conn_request OpConnect
            (Some (Elem (rsp (lit "Connect")) [] None [content_xml (lit "connectXml") (d1 ++ d2)]))
            (Some version_option) (Some (shell_selector id)) ;;
    match b with
    | None => throw AttributeError
    | Some e =>
        match find_first [rsp (lit "ConnectResponse"); qname ns_powershell (lit "connectResponseXml")] e with
        | None => throw AttributeError
        | Some x =>
            match x_text x with
            | None => throw TypeError
            | Some t =>
                data <-- lift (b64decode t) ;;
                parse_responses data None ;;;
                updp (fun x => set_rp_shell (set_selectors (Some (shell_selector id)) (set_id (Some id) (rp_shell x))) x) ;;;
                receive None None ;;; ret tt
            end
        end
    end.
  (* powershell.py:300-321 *)
  Definition pool_connect : M unit :=
    st <-- getp rp_state ;; new <-- getp rp_new_client ;;
    if Z.eqb st rs_opened then ret tt
    else if negb (Z.eqb st rs_disconnected) then throw InvalidRunspacePoolStateError
    else if new then connect_new ;;; updp (set_rp_new_client false)
    else connect_existing.

  (* powershell.py:366-383 *)
  Definition pool_disconnect : M unit :=
    st <-- getp rp_state ;;
    if Z.eqb st rs_disconnected then ret tt
    else if negb (Z.eqb st rs_opened) then throw InvalidRunspacePoolStateError
    else
      id <-- getp (fun x => sh_id (rp_shell x)) ;;
      conn_request OpDisconnect (Some (Elem (rsp (lit "Disconnect")) [] None [])) None (Some (shell_selector (or_empty id))) ;;;
      updp (set_rp_state rs_disconnected) ;;;
      reg <-- getp rp_pipelines ;;
      each (fun kv => updps (snd kv) (set_ps_state pl_disconnected)) reg.

  (* powershell.py:355-364 *)
  Definition create_disconnected : M (list nat) :=
    get (fun w => filter (fun r => Z.eqb (ps_state (the_ps r w)) pl_disconnected) (map snd (rp_pipelines (w_pool w)))).

  (* powershell.py:572-611 *)
  Fixpoint key_wait (fuel : nat) (start : Z) : M unit :=
    fun w => if rp_exchanged (w_pool w) then (Ret tt, w)
      else if Z.ltb (rp_key_timeout (w_pool w)) (ev_clock E (w_hist w) - start) then (Raise (XExn InvalidPSRPOperation), w)
      else match fuel with
           | O => (Raise (XExn OutOfFuel), w)
           | S fuel' => (receive None None ;;; key_wait fuel' start) w
           end.
  Definition exchange_keys (fuel : nat) : M unit :=
    done <-- getp rp_exchanged ;; key <-- getp rp_exchange ;;
    if done then ret tt
    else match key with
    | Some _ => ret tt
    | None =>
        h <-- get w_hist ;;
        let k := ev_keygen E h in
        updp (set_rp_exchange (Some k)) ;;;
        blob <-- lift (public_blob (ev_modulus E k) (ev_exponent E k)) ;;
        fs <-- fragment_one (OPublicKey (b64encode blob)) None ;;
        each (fun f => send (lit "stdin") f None) fs ;;;
        start <-- get (fun w => ev_clock E (w_hist w)) ;;
        key_wait fuel start
    end.

  (* powershell.py:671-710.  Of the exceptions of requests only ConnectionError
     is caught, of which ConnectTimeout is a subclass and ReadTimeout is not. *)
  Definition fault_closed (x : raised) : bool :=
    (is_code x 2150858793 || is_code x 2150858843)%bool.
  Definition net_closed (x : raised) : bool :=
    match x with
    | XExn NewConnectionDisabled | XExn BuiltinTimeoutError | XExn RequestsConnectionError | XExn ConnectTimeout => true
    | _ => false
    end.
  Definition is_alive (timeout : option Z) : M bool :=
    fun w =>
      let before := w_disabled w in
      let '(r, w1) := on_shell (fun srv => get_shell srv timeout) (set_w_disabled true w) in
      let w2 := set_w_disabled before w1 in
      let closed := (updp (set_rp_state rs_closed) ;;; ret false) w2 in
      match r with
      | Ret d =>
          match dict_get str_eqb (lit "State") d with
          | Some (Some t) => if str_eqb t (lit "Disconnected") then closed else (Ret true, w2)
          | _ => (Ret true, w2)
          end
      | Raise x => if (fault_closed x || net_closed x)%bool then closed else (Raise x, w2)
      end.

  (* ---- pipelines: [r] is the PowerShell object ---- *)
  (* powershell.py:1118-1136 *)
  Definition nonempty (t : option (list N)) (d : list N) : list N :=
    match t with Some (c :: s) => c :: s | _ => d end.
  Definition sig_terminate : list N := lit "http://schemas.microsoft.com/wbem/wsman/1/windows/shell/signal/Terminate".
  Definition sig_ctrl_c : list N := lit "powershell/signal/ctrl_c".
  Definition unregister (id : list N) : M unit :=
    updp (fun x => set_rp_pipelines (dict_del str_eqb id (rp_pipelines x)) x).
  Definition ps_close (r : nat) : M unit :=
    p <-- getps r (fun p => p) ;;
    if Z.eqb (ps_state p) pl_not_started then ret tt
    else if negb (in_states (ps_state p) [pl_completed; pl_stopped; pl_failed]) then throw InvalidPipelineStateError
    else
      on_shell (fun srv => shell_signal srv sig_terminate (nonempty (ps_command_id p) (ps_id p))) ;;;
      unregister (ps_id p).

  (* powershell.py:1148-1166 *)
  Definition ps_connect_async (r : nat) : M unit :=
    p <-- getps r (fun p => p) ;;
    if negb (Z.eqb (ps_state p) pl_disconnected) then throw InvalidPipelineStateError
    else
      sel <-- getp (fun x => sh_selectors (rp_shell x)) ;;
      conn_request OpConnect (Some (Elem (rsp (lit "Connect")) [(lit "CommandId", ps_id p)] None [])) None sel ;;;
      updps r (set_ps_state pl_running) ;;; updps r (set_ps_from_disconnect true).

  (* powershell.py:1168-1194; [id] is the new uuid *)
  Definition create_nested (r : nat) (id : list N) : M nat :=
    p <-- getps r (fun p => p) ;;
    if negb (Z.eqb (ps_state p) pl_running) then throw InvalidPipelineStateError
    else if ps_from_disconnect p then throw InvalidPSRPOperation
    else
      n <-- get (fun w => length (w_heap w)) ;;
      upd (fun w => set_w_heap (w_heap w ++ [set_ps_nested true (new_ps id)]) w) ;;; ret n.
  (* PowerShell(pool): powershell.py:935-965 *)
  Definition create_ps (id : list N) : M nat :=
    n <-- get (fun w => length (w_heap w)) ;;
    upd (fun w => set_w_heap (w_heap w ++ [new_ps id]) w) ;;; ret n.

  (* powershell.py:1518-1536 *)
  Definition ps_invoke (r : nat) (o : msg) : M unit :=
    id <-- getps r ps_id ;;
    fs <-- fragment_one o (Some id) ;;
    updp (fun x => set_rp_pipelines (dict_set str_eqb id r (rp_pipelines x)) x) ;;;
    f <-- first_fragment fs ;;
    b <-- on_shell (fun srv => shell_command srv [] (Some [b64encode f]) false (Some id)) ;;
    match b with
    | None => throw AttributeError
    | Some e =>
        match find_first [rsp (lit "CommandResponse"); rsp (lit "CommandId")] e with
        | Some x => updps r (set_ps_command_id (Some (or_empty (x_text x))))
        | None => ret tt
        end ;;;
        updps r (set_ps_state pl_running) ;;;
        each (fun f => cid <-- getps r ps_command_id ;; send (lit "stdin") f cid) (tl fs)
    end.

  (* The input of begin_invoke.  A generator is given by what it yields (None
     where it yields None); a generator that raises is not modelled. *)
  Inductive item := IOne (o : Obj) | IMany (l : list Obj).
  Inductive input := InValue (i : item) | InGen (l : list (option item)).
  Definition item_objs (i : item) : list Obj := match i with IOne o => [o] | IMany l => l end.
  Definition input_falsy (i : input) : bool :=
    match i with InGen _ => false | InValue (IMany l) => match l with [] => true | _ => false end | InValue (IOne o) => ev_falsy E o end.
  (* powershell.py:1263-1282: [cur] has been yielded, [rest] follows *)
  Fixpoint send_inputs (r : nat) (cur : option item) (rest : list (option item)) : M unit :=
    match cur with
    | None => ret tt
    | Some i =>
        let msgs := map OInput (item_objs i) in
        id <-- getps r ps_id ;;
        match rest with
        | [] =>
            fs <-- fragment_many (msgs ++ [OEnd]) (Some id) ;;
            each (fun f => cid <-- getps r ps_command_id ;; send (lit "stdin") f cid) fs
        | nxt :: rest' =>
            fs <-- fragment_many msgs (Some id) ;;
            each (fun f => cid <-- getps r ps_command_id ;; send (lit "stdin") f cid) fs ;;;
            send_inputs r nxt rest'
        end
    end.
  Record invoke_args := mkArgs {
    ia_input : option input; ia_history : bool; ia_apartment : option Z; ia_redirect : bool; ia_options : option Z }.
  (* powershell.py:1196-1282 *)
  Definition begin_invoke (r : nat) (a : invoke_args) : M unit :=
    p <-- getps r (fun p => p) ;;
    if negb (in_states (ps_state p) [pl_not_started; pl_stopped; pl_completed; pl_failed]) then throw InvalidPipelineStateError
    else match ps_commands p with
    | [] => throw InvalidPSRPOperation
    | _ =>
        pool_apartment <-- getp rp_apartment ;;
        let no_input := match ia_input a with None => true | Some i => input_falsy i end in
        let apartment := match ia_apartment a with Some z => if Z.eqb z 0 then pool_apartment else z | None => pool_apartment end in
        ps_invoke r (OCreate no_input apartment (ia_options a) (ia_history a) (ps_commands p) (ps_nested p) (ps_history p) (ia_redirect a)) ;;;
        match ia_input a with
        | None => ret tt
        | Some (InValue i) => send_inputs r (Some i) []
        | Some (InGen []) => throw StopIteration
        | Some (InGen (c :: l)) => send_inputs r c l
        end
    end.

  (* powershell.py:1479-1501 *)
  Definition outputs_of (ms : list (message Obj)) : list Obj :=
    flat_map (fun m => if Z.eqb (m_type m) PIPELINE_OUTPUT then match m_data m with DOutput o => [o] | _ => [] end else []) ms.
  Definition poll_invoke (r : nat) (timeout : option Z) : M unit :=
    fun w =>
      let '(o, w') := receive (Some (ps_id (the_ps r w))) timeout w in
      match o with
      | Ret ms => updps r (fun p => set_ps_output (ps_output p ++ outputs_of ms) p) w'
      | Raise x => if is_code x operation_timeout then (Ret tt, w') else (Raise x, w')
      end.
  (* powershell.py:1284-1294; [fuel] bounds the polls *)
  Fixpoint end_invoke (fuel : nat) (r : nat) : M (list Obj) :=
    fun w => if negb (Z.eqb (ps_state (the_ps r w)) pl_running) then (Ret (ps_output (the_ps r w)), w)
      else match fuel with
           | O => (Raise (XExn OutOfFuel), w)
           | S fuel' => (poll_invoke r None ;;; end_invoke fuel' r) w
           end.

  (* powershell.py:1503-1516 *)
  Definition ps_stop (r : nat) : M unit :=
    p <-- getps r (fun p => p) ;;
    if in_states (ps_state p) [pl_stopping; pl_stopped] then ret tt
    else if negb (Z.eqb (ps_state p) pl_running) then throw InvalidPipelineStateError
    else
      updps r (set_ps_state pl_stopping) ;;;
      on_shell (fun srv => shell_signal srv sig_ctrl_c (upper (ps_id p))) ;;;
      updps r (set_ps_state pl_stopped) ;;; unregister (ps_id p).

  (* powershell.py:414-460, up to the decoding of the metadata objects; the
     output list is shortened in place by pop(0) *)
  Definition get_command_metadata (fuel : nat) (id : list N) (arguments : Obj) : M (list Obj) :=
    st <-- getp rp_state ;;
    if negb (Z.eqb st rs_opened) then throw InvalidRunspacePoolStateError
    else
      r <-- create_ps id ;;
      ps_invoke r (OMetadata arguments) ;;;
      out <-- end_invoke fuel r ;;
      match out with
      | [] => throw IndexError
      | _ :: l => updps r (set_ps_output l) ;;; ret l
      end.

  (* ---- histories of calls on one pool and its pipelines ---- *)
  Inductive op :=
  | PoolOpen (arguments : option Obj) | PoolClose | PoolConnect | PoolDisconnect
  | SetMin (v : Z) | SetMax (v : Z) | Available | Reset | ExchangeKeys | IsAlive (timeout : option Z)
  | Metadata (id : list N) (arguments : Obj)
  | Create (id : list N) | AddCommand (r : nat) (c : Cmd) | Nested (r : nat) (id : list N)
  | Begin (r : nat) (a : invoke_args) | Poll (r : nat) (timeout : option Z) | End (r : nat)
  | Stop (r : nat) | Close (r : nat) | ConnectAsync (r : nat).
  Definition void {A} (a : M A) : M unit := a ;;; ret tt.
  Definition run_op (fuel : nat) (o : op) : M unit :=
    match o with
    | PoolOpen a => pool_open fuel a
    | PoolClose => pool_close
    | PoolConnect => pool_connect
    | PoolDisconnect => pool_disconnect
    | SetMin v => set_min_runspaces fuel v
    | SetMax v => set_max_runspaces fuel v
    | Available => void (get_available_runspaces fuel)
    | Reset => reset_runspace_state fuel
    | ExchangeKeys => exchange_keys fuel
    | IsAlive t => void (is_alive t)
    | Metadata i a => void (get_command_metadata fuel i a)
    | Create i => void (create_ps i)
    | AddCommand r c => updps r (fun p => set_ps_commands (ps_commands p ++ [c]) p)
    | Nested r i => void (create_nested r i)
    | Begin r a => begin_invoke r a
    | Poll r t => poll_invoke r t
    | End r => void (end_invoke fuel r)
    | Stop r => ps_stop r
    | Close r => ps_close r
    | ConnectAsync r => ps_connect_async r
    end.
  (* the exceptions of the calls do not end the history; [fuel] per call *)
  Fixpoint run_ops (l : list (nat * op)) (w : world) : world :=
    match l with
    | [] => w
    | (fuel, o) :: l' => run_ops l' (snd (run_op fuel o w))
    end.
End Pool.

(* ---- disconnected pools: powershell.py:462-528 ---- *)
Section Enumerate.
  Context {Obj Cmd RK : Type} (srv : history -> sreq -> wresult).
  Definition ns_wsen : list N := lit "http://schemas.xmlsoap.org/ws/2004/09/enumeration".
  Definition enumerate_body (filter : list xml) : xml :=
    Elem (qname ns_wsen (lit "Enumerate")) [] None
      ([Elem (qname ns_wsman (lit "OptimizeEnumeration")) [] None [];
        text_elem (qname ns_wsman (lit "MaxElements")) (lit "32000")] ++ filter).
  Definition enumerate (uri : list N) (body : xml) (h : history) : out (option xml) * history :=
    call srv {| q_op := OpEnumerate; q_uri := Some uri; q_body := Some body; q_options := None;
                q_selectors := None; q_timeout := None |} h.
  Definition items (name : list N) (b : xml) : list xml :=
    find_all [qname ns_wsen (lit "EnumerateResponse"); qname ns_wsman (lit "Items"); rsp name] b.
  (* x.find(name).text; an element without text has None as its id, here the
     empty text *)
  Definition sub_text (name : list N) (e : xml) : res (list N) :=
    match find_first [rsp name] e with None => Err AttributeError | Some x => Ok (or_empty (x_text x)) end.
  (* powershell.py:508-524 *)
  Fixpoint add_commands (cs : list xml) (objs : list (ps Obj Cmd)) (reg : list (list N * nat))
    : res (list (ps Obj Cmd) * list (list N * nat)) :=
    match cs with
    | [] => Ok (objs, reg)
    | c :: cs' =>
        do id <- sub_text (lit "CommandId") c;
        add_commands cs' (objs ++ [set_ps_state pl_disconnected (set_ps_command_id (Some id) (new_ps id))])
          (dict_set str_eqb id (length objs) reg)
    end.
  (* powershell.py:489-526: the pool of one shell with its pipelines; [envelope] and [payload] are the connection's *)
  Definition pool_of_shell (envelope payload : Z) (e : xml) (h : history)
    : out (pool Obj RK * list (ps Obj Cmd)) * history :=
    match sub_text (lit "ShellId") e with
    | Err x => (Raise (XExn x), h)
    | Ok id =>
        let p0 := new_pool id 2 0 (lit "Microsoft.PowerShell") 1 1 60000 false None envelope payload in
        let p1 := set_rp_state rs_disconnected (set_rp_new_client true (set_rp_shell (set_opened true (rp_shell p0)) p0)) in
        let filter := Elem (qname ns_wsman (lit "Filter"))
                        [(lit "Dialect", lit "http://schemas.dmtf.org/wbem/wsman/1/wsman/SelectorFilter")] None
                        [pack_set (shell_selector id)] in
        let '(r, h') := enumerate (lit "http://schemas.microsoft.com/wbem/wsman/1/windows/shell/Command") (enumerate_body [filter]) h in
        match r with
        | Raise x => (Raise x, h')
        | Ret None => (Raise (XExn AttributeError), h')
        | Ret (Some b) =>
            match add_commands (items (lit "Command") b) [] [] with
            | Err x => (Raise (XExn x), h')
            | Ok (objs, reg) => (Ret (set_rp_pipelines reg p1, objs), h')
            end
        end
    end.
  Fixpoint pools_of_shells (envelope payload : Z) (es : list xml) (h : history)
    : out (list (pool Obj RK * list (ps Obj Cmd))) * history :=
    match es with
    | [] => (Ret [], h)
    | e :: es' =>
        let '(r, h1) := pool_of_shell envelope payload e h in
        match r with
        | Raise x => (Raise x, h1)
        | Ret p =>
            let '(r', h2) := pools_of_shells envelope payload es' h1 in
            match r' with Raise x => (Raise x, h2) | Ret ps => (Ret (p :: ps), h2) end
        end
    end.
  Definition get_runspace_pools (envelope payload : Z) (h : history) : out (list (pool Obj RK * list (ps Obj Cmd))) * history :=
    let '(r, h') := enumerate (lit "http://schemas.microsoft.com/wbem/wsman/1/windows/shell") (enumerate_body []) h in
    match r with
    | Raise x => (Raise x, h')
    | Ret None => (Raise (XExn AttributeError), h')
    | Ret (Some b) => pools_of_shells envelope payload (items (lit "Shell") b) h'
    end.
End Enumerate.
