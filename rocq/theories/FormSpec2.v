(* Which message is in which form: [MS-PSRP] 2.2.1 and 2.2.2. *)
From Verif Require Import Base Lit NumModel TextModel MsgModel XmlModel SerModel WireModel ObjModel FormSpec.
From Verif Require PoolModel.
Import PoolModel (omsg, OCapability, OInit, OConnect, OSetMin, OSetMax, OAvailable, OReset, OPublicKey, OPoolResponse, OPipelineResponse, OCreate, OMetadata, OInput, OEnd).
Local Open Scope list_scope.
Local Open Scope N_scope.

(* destination (the server) and type of message, least byte first *)
Definition opening (o : omsg graph (command value)) : list N :=
  [2; 0; 0; 0] ++
  match o with
  | OCapability _ _ _ => [2; 0; 1; 0]
  | OInit _ _ _ _ _ => [4; 0; 1; 0]
  | OPublicKey _ => [5; 0; 1; 0]
  | OConnect => [8; 0; 1; 0]
  | OSetMax _ _ => [2; 16; 2; 0]
  | OSetMin _ _ => [3; 16; 2; 0]
  | OCreate _ _ _ _ _ _ _ _ => [6; 16; 2; 0]
  | OAvailable _ => [7; 16; 2; 0]
  | OMetadata _ => [10; 16; 2; 0]
  | OReset _ => [12; 16; 2; 0]
  | OPoolResponse _ _ _ => [1; 17; 2; 0]
  | OInput _ => [2; 16; 4; 0]
  | OEnd => [3; 16; 4; 0]
  | OPipelineResponse _ _ _ => [1; 17; 4; 0]
  end.
Definition form_of (o : omsg graph (command value)) : form :=
  match o with
  | OCapability _ _ _ => FClass "SessionCapability"
  | OInit _ _ _ _ _ => FClass "InitRunspacePool"
  | OPublicKey _ => FClass "PublicKey"
  | OConnect => FClass "ConnectRunspacePool"
  | OSetMax _ _ => FClass "SetMaxRunspaces"
  | OSetMin _ _ => FClass "SetMinRunspaces"
  | OCreate _ _ _ _ _ _ _ _ => FClass "CreatePipeline"
  | OAvailable _ => FClass "GetAvailableRunspaces"
  | OMetadata _ => FClass "GetCommandMetadata"
  | OReset _ => FClass "ResetRunspaceState"
  | OPoolResponse _ _ _ => FClass "RunspacePoolHostResponse"
  | OInput _ => FAny
  | OEnd => FClass "EndOfPipelineInput"
  | OPipelineResponse _ _ _ => FClass "PipelineHostResponse"
  end.

(* What is left to who calls the library: the objects given have attributes of
   their forms, and the numbers of runspaces are numbers.  [heap]: the instances
   that the parameters of commands refer to. *)
Definition given_right (ci : option cipher) (heap : list hobj) (o : omsg graph (command value)) : Prop :=
  match o with
  | OInit mn mx _ _ args =>
      (exists z, mn = PoolModel.VInt z) /\ (exists z, mx = PoolModel.VInt z) /\
      match args with Some g => in_form ci (fst g) /\ (snd g = VNone \/ exists d, snd g = VDict d \/ snd g = VTuple d) | None => True end
  | OCreate _ _ _ _ _ _ _ _ => in_form ci heap
  | OPoolResponse _ _ mr | OPipelineResponse _ _ mr => in_form ci (fst mr)
  | OMetadata g => in_form ci (fst g) /\ suits ci (fst g) (FClass "GetCommandMetadata") (snd g)
  | _ => True
  end.
