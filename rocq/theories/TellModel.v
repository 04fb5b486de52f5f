(* The messages that a pool and its pipelines send, as graphs of instances: the
   constructors of src/pypsrp/messages.py called at src/pypsrp/powershell.py:218,
   258, 331-332, 401, 447, 548-556, 602, 643, 812-815, 1240-1254 and 1268-1272.
   PoolModel.v leaves open what the serializer handles; here it is a value with
   the instances it refers to (WireModel.v), and a command is that of ObjModel.v.

   [heap]: the instances that the parameters of commands refer to; [host]: the
   host of the pool.  An object given to the pool comes with its own instances. *)
From Verif Require Import Base Lit NumModel MsgModel XmlModel SerModel SerClasses WireModel SendClasses ObjModel StartModel.
From Verif Require PoolModel.
Import PoolModel (omsg, OCapability, OInit, OConnect, OSetMin, OSetMax, OAvailable, OReset, OPublicKey, OPoolResponse, OPipelineResponse, OCreate, OMetadata, OInput, OEnd).
Local Open Scope list_scope.

(* min_runspaces and max_runspaces as the pool has them *)
Definition count_value (v : PoolModel.rval) : value :=
  match v with PoolModel.VBool b => VBool b | PoolModel.VInt z => VInt z | PoolModel.VNone => VNone end.
Definition given (a : option graph) : graph := match a with Some g => g | None => ([], VNone) end.
(* remote_stream_options, powershell.py:1202: None is the argument not given, and
   the default is ADD_INVOCATION_INFO.  Simplified: it cannot be given as None. *)
Definition stream_options (o : option Z) : Z := match o with Some z => z | None => 15%Z end.
(* messages.py:640-663, 877-882 with the attributes set at powershell.py:812-815.
   The identifier is the enumeration the call came with. *)
Definition put_response (c : String.string) (ci mi : Z) (mr : graph) : graph :=
  let '(h1, m) := put_enum "HostMethodIdentifier" (fst mr) mi in
  put h1 (instance c [("ci", VInt ci); ("mi", m); ("mr", snd mr); ("me", VNone); ("_to_string", VNone)]%string).
Section Sent.
  Context (heap : list hobj) (hs : option host).
  (* begin_invoke refuses to start without commands, the only case in which the
     constructor of Pipeline fails; the graph is not sent then *)
  Definition sent (o : omsg graph (command value)) : graph :=
    match o with
    | OCapability p v s =>
        put [] (instance "SessionCapability" [("protocol_version", VStr p); ("ps_version", VStr v); ("serialization_version", VStr s); ("time_zone", VNone); ("_to_string", VNone)]%string)
    | OInit mn mx t a args =>
        let '(h1, tv) := put_enum "PSThreadOptions" (fst (given args)) t in
        let '(h2, av) := put_enum "ApartmentState" h1 a in
        let '(h3, hv) := put_host h2 hs in
        put h3 (instance "InitRunspacePool"
          [("min_runspaces", count_value mn); ("max_runspaces", count_value mx); ("thread_options", tv); ("apartment_state", av);
           ("host_info", hv); ("application_arguments", snd (given args)); ("_to_string", VNone)]%string)
    | OConnect => put [] (instance "ConnectRunspacePool" [("min_runspaces", VNone); ("max_runspaces", VNone); ("_to_string", VNone)]%string)
    | OSetMin v ci => put [] (instance "SetMinRunspaces" [("min_runspaces", VInt v); ("ci", VInt ci); ("_to_string", VNone)]%string)
    | OSetMax v ci => put [] (instance "SetMaxRunspaces" [("max_runspaces", VInt v); ("ci", VInt ci); ("_to_string", VNone)]%string)
    | OAvailable ci => put [] (instance "GetAvailableRunspaces" [("ci", VInt ci); ("_to_string", VNone)]%string)
    | OReset ci => put [] (instance "ResetRunspaceState" [("ci", VInt ci); ("_to_string", VNone)]%string)
    | OPublicKey k => put [] (instance "PublicKey" [("public_key", VStr k); ("_to_string", VNone)]%string)
    | OPoolResponse ci mi mr => put_response "RunspacePoolHostResponse" ci mi mr
    | OPipelineResponse ci mi mr => put_response "PipelineHostResponse" ci mi mr
    | OCreate ni ap op hi cs ne ht rd =>
        match put_start heap (mkPool ap 0 1 1 hs) (mkStart (Some (negb ni)) hi None rd (stream_options op) ne ht cs) with
        | Ok g => g
        | Err _ => (heap, VNone)
        end
    | OMetadata g => g   (* the instance GetCommandMetadata(names, types, namespace, arguments) *)
    | OInput g => g
    | OEnd => put [] (instance "EndOfPipelineInput" [("_to_string", VNone)]%string)
    end.
End Sent.
