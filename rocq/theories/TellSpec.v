(* What a server that knows the metadata of the messages makes of the bytes of
   each message a client sends.  Apart from how the messages are made. *)
From Verif Require Import Base Lit NumModel TextModel TextSpec MsgModel MsgSpec XmlModel SerModel SerClasses SerSpec SerSpec2 ClsSpec XtModel XtSpec WfModel WfSpec WireModel SendClasses ObjModel ObjSpec StartModel StartSpec.
From Verif Require PoolModel.
Import PoolModel (omsg, OCapability, OInit, OConnect, OSetMin, OSetMax, OAvailable, OReset, OPublicKey, OPoolResponse, OPipelineResponse, OCreate, OMetadata, OInput, OEnd).
Local Open Scope list_scope.

Definition host_method (mi : Z) (name : list N) : Prop := exists s, In (mi, s) method_map /\ name = lit s.

Section Spec.
  (* [rd]: the reader, by the instances that exist before; [b]: what was sent;
     [r], [p]: the ids of the pool and the pipeline *)
  Context (rd : list hobj -> codec graph) (r p : bytes) (b : bytes).

  (* an object of this type of message, with new instances, of which P holds *)
  Definition reads_object (ty : Z) (P : list hobj -> nat -> value -> Prop) : Prop :=
    forall heap0, exists n e, message_unpack (rd heap0) b = Ok (mkMsg dest_server ty r p (DObj ty (heap0 ++ e, VObj n))) /\ P (heap0 ++ e) (length heap0) (VObj n).
  (* a message with this text *)
  Definition reads_text (ty : Z) (t : list N) : Prop := unpack_header b = Ok (mkHeader dest_server ty (guid_str r) (guid_str p) t).

  Definition responds (cls : String.string) (ty ci mi : Z) (mr : graph) : Prop :=
    reads_object ty (fun h k => has h cls
      [("ci"%string, eq (VInt ci)); ("mi"%string, fun v => exists t, host_method mi t /\ constant h "HostMethodIdentifier" mi t v);
       ("mr"%string, copy sending (fst mr) k h (snd mr)); ("me"%string, eq VNone)]).

  (* what each kind of message says *)
  Definition understood (heap : list hobj) (hs : option host) (o : omsg graph (command value)) : Prop :=
    match o with
    | OCapability pv ps ser =>
        reads_object SESSION_CAPABILITY (fun h _ => has h "SessionCapability"
          [("protocol_version"%string, eq (VStr pv)); ("ps_version"%string, eq (VStr ps)); ("serialization_version"%string, eq (VStr ser)); ("time_zone"%string, eq VNone)])
    | OInit mn mx t a args =>
        exists x y, mn = PoolModel.VInt x /\ mx = PoolModel.VInt y /\
        reads_object INIT_RUNSPACEPOOL (fun h k =>
          open_read h (match args with Some g => copy sending (fst g) k h | None => eq end) (mkPool a t x y hs) (match args with Some g => snd g | None => VNone end))
    | OConnect => reads_text CONNECT_RUNSPACEPOOL (lit "<S />")
    | OSetMin v ci => reads_object SET_MIN_RUNSPACES (fun h _ => has h "SetMinRunspaces" [("min_runspaces"%string, eq (VInt v)); ("ci"%string, eq (VInt ci))])
    | OSetMax v ci => reads_object SET_MAX_RUNSPACES (fun h _ => has h "SetMaxRunspaces" [("max_runspaces"%string, eq (VInt v)); ("ci"%string, eq (VInt ci))])
    | OAvailable ci => reads_object GET_AVAILABLE_RUNSPACES (fun h _ => has h "GetAvailableRunspaces" [("ci"%string, eq (VInt ci))])
    | OReset ci => reads_object RESET_RUNSPACE_STATE (fun h _ => has h "ResetRunspaceState" [("ci"%string, eq (VInt ci))])
    | OPublicKey k => reads_object PUBLIC_KEY (fun h _ => has h "PublicKey" [("public_key"%string, eq (VStr k))])
    | OPoolResponse ci mi mr => responds "RunspacePoolHostResponse" RUNSPACEPOOL_HOST_RESPONSE ci mi mr
    | OPipelineResponse ci mi mr => responds "PipelineHostResponse" PIPELINE_HOST_RESPONSE ci mi mr
    | OCreate ni ap op hi cs ne ht rt =>
        exists ss, cut_at_marks cs ss /\
        reads_object CREATE_PIPELINE (fun h k =>
          start_read h (copy sending heap k h) (mkPool ap 0 1 1 hs)
            (mkStart (Some (negb ni)) hi None rt (match op with Some z => z | None => 15%Z end) ne ht cs) ap ss)
    | OMetadata g => reads_object GET_COMMAND_METADATA (fun h k => copy sending (fst g) k h (snd g))
    | OInput g =>
        forall heap0, exists v e, message_unpack (rd heap0) b = Ok (mkMsg dest_server PIPELINE_INPUT r p (DInput (heap0 ++ e, v))) /\
          copy sending (fst g) (length heap0) (heap0 ++ e) (snd g) v
    | OEnd => reads_text END_OF_PIPELINE_INPUT []
    end.
End Spec.

(* ---- messages that can be written ---- *)
Section Fit.
  Context (ci : option cipher) (float_of : list N -> res (list N)) (heap : list hobj) (hs : option host).
  Notation C h := (conforms ci float_of sending sending_canon h said raw).
  Definition version_text (s : list N) : Prop := s <> [] /\ raw s.
  Definition fit_host : Prop := forall r, hs <> Some (Some (Some r)).
  Definition fit_response (mi : Z) (mr : graph) : Prop := In mi (map fst method_map) /\ C (fst mr) (Meta KPlain star (Some (lit "mr")) false None) (snd mr).
  Definition fit_message (o : omsg graph (command value)) : Prop :=
    match o with
    | OCapability pv ps ser => version_text pv /\ version_text ps /\ version_text ser
    | OInit mn mx t a args =>
        (exists x, mn = PoolModel.VInt x) /\ (exists y, mx = PoolModel.VInt y) /\ fit_host /\
        In a (map fst apartment_names) /\ In t (map fst thread_names) /\
        match args with Some g => fit_arguments ci float_of (fst g) (snd g) | None => True end
    | OPublicKey k => sayable k
    | OPoolResponse _ mi mr | OPipelineResponse _ mi mr => fit_response mi mr
    | OCreate _ ap _ _ cs _ ht _ =>
        fit_host /\ In ap (map fst apartment_names) /\ maybe_sayable ht /\ cs <> [] /\ Forall (fit_command ci float_of heap) cs
    | OMetadata g => (exists n, snd g = VObj n) /\ C (fst g) (class_meta (lit "GetCommandMetadata")) (snd g)
    | OInput g => C (fst g) any_meta (snd g)
    | OConnect | OSetMin _ _ | OSetMax _ _ | OAvailable _ | OReset _ | OEnd => True
    end.
End Fit.
