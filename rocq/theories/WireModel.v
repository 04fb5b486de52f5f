(* Messages with the serializer of SerModel.v and the XML of XtModel.v in them:
   src/pypsrp/messages.py:84-228.  An object is a value with the instances it
   refers to. *)
From Verif Require Import Base Lit NumModel TextModel Utf8Model MsgModel XmlModel SerModel SerClasses XtModel WfModel.
Local Open Scope list_scope.

Definition graph : Type := (list hobj * value)%type.

(* messages.py:167-200: the class by the number of the message *)
Definition message_classes : list (Z * list N) :=
  map (fun e => (fst e, lit (snd e)))
  [(SESSION_CAPABILITY, "SessionCapability"%string); (INIT_RUNSPACEPOOL, "InitRunspacePool"%string);
   (PUBLIC_KEY, "PublicKey"%string); (ENCRYPTED_SESSION_KEY, "EncryptedSessionKey"%string);
   (PUBLIC_KEY_REQUEST, "PublicKeyRequest"%string); (SET_MAX_RUNSPACES, "SetMaxRunspaces"%string);
   (SET_MIN_RUNSPACES, "SetMinRunspaces"%string); (RUNSPACE_AVAILABILITY, "RunspaceAvailability"%string);
   (RUNSPACEPOOL_STATE, "RunspacePoolStateMessage"%string); (CREATE_PIPELINE, "CreatePipeline"%string);
   (GET_AVAILABLE_RUNSPACES, "GetAvailableRunspaces"%string); (USER_EVENT, "UserEvent"%string);
   (APPLICATION_PRIVATE_DATA, "ApplicationPrivateData"%string); (GET_COMMAND_METADATA, "GetCommandMetadata"%string);
   (RUNSPACEPOOL_HOST_CALL, "RunspacePoolHostCall"%string); (RUNSPACEPOOL_HOST_RESPONSE, "RunspacePoolHostResponse"%string);
   (PIPELINE_INPUT, "PipelineInput"%string); (END_OF_PIPELINE_INPUT, "EndOfPipelineInput"%string);
   (PIPELINE_OUTPUT, "PipelineOutput"%string); (ERROR_RECORD, "ErrorRecordMessage"%string);
   (PIPELINE_STATE, "PipelineState"%string); (DEBUG_RECORD, "DebugRecord"%string);
   (VERBOSE_RECORD, "VerboseRecord"%string); (WARNING_RECORD, "WarningRecord"%string);
   (PROGRESS_RECORD, "ProgressRecord"%string); (INFORMATION_RECORD, "InformationRecord"%string);
   (PIPELINE_HOST_CALL, "PipelineHostCall"%string); (PIPELINE_HOST_RESPONSE, "PipelineHostResponse"%string);
   (CONNECT_RUNSPACEPOOL, "ConnectRunspacePool"%string); (RUNSPACEPOOL_INIT_DATA, "RunspacePoolInitData"%string);
   (RESET_RUNSPACE_STATE, "ResetRunspaceState"%string)].
Definition class_of_type (ty : Z) : option (list N) := dict_get Z.eqb ty message_classes.
(* The class attribute MESSAGE_TYPE, messages.py:231-947: that of a class is the
   number under which the table above has it; other classes have none. *)
Fixpoint type_of_class (c : list N) (l : list (Z * list N)) : option Z :=
  match l with
  | [] => None
  | (ty, c') :: l' => if str_eqb c c' then Some ty else type_of_class c l'
  end.
Definition instance_of (g : graph) : option (list N * list (list N * value)) :=
  match snd g with
  | VObj n => match nth_error (fst g) n with Some (HCls c attrs) => Some (c, attrs) | _ => None end
  | _ => None
  end.
(* data.min_runspaces is None, data.max_runspaces is None: messages.py:121-127 *)
Definition limit (a : list N) (g : graph) : option Z :=
  match instance_of g with
  | Some (_, attrs) =>
      match dict_get str_eqb a attrs with
      | Some (VInt z) => Some z
      | Some VNone | None => None
      | Some _ => Some 0%Z
      end
  | None => None
  end.

(* The serializer as Message uses it: serialize(data) without metadata,
   messages.py:128-138; deserialize with the class of the message as metadata and
   without for input and output, messages.py:206-225.  [heap]: the instances that
   exist before. *)
Definition wire (ci : option cipher) (show : value -> list N) (xml_text : xml -> list N) (float_of : list N -> res (list N))
  (classes : list N -> option cdesc) (reg : list (list N * list N)) (fuel : nat) (heap : list hobj) : codec graph :=
  let read m t := do '(v, h) <- deserialize_text ci xml_text float_of classes heap t m; Ok (h, v) in
  mkCodec graph
    (fun g => serialize_text ci show classes reg (fst g) fuel (snd g) any_meta)
    (read any_meta)
    (read generic_meta)
    (fun ty t => match class_of_type ty with Some c => read (class_meta c) t | None => Err KeyError end)
    (fun g => match instance_of g with Some (c, _) => type_of_class c message_classes | None => None end)
    (fun g => (limit (lit "min_runspaces") g, limit (lit "max_runspaces") g)).
