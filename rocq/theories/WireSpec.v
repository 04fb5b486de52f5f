(* The messages of [MS-PSRP] 2.2.1: the number of each and the class that stands
   for it, written from the protocol and not from the library's tables. *)
From Verif Require Import Base Lit.
Local Open Scope list_scope.
Definition protocol : list (Z * list N) :=
  map (fun e => (fst e, lit (snd e)))
  [(* to and from a runspace pool: 2.2.2.1 ... *)
   (0x00010002%Z, "SessionCapability"%string); (0x00010004%Z, "InitRunspacePool"%string); (0x00010005%Z, "PublicKey"%string); (0x00010006%Z, "EncryptedSessionKey"%string);
   (0x00010007%Z, "PublicKeyRequest"%string); (0x00010008%Z, "ConnectRunspacePool"%string); (0x0002100B%Z, "RunspacePoolInitData"%string); (0x0002100C%Z, "ResetRunspaceState"%string);
   (0x00021002%Z, "SetMaxRunspaces"%string); (0x00021003%Z, "SetMinRunspaces"%string); (0x00021004%Z, "RunspaceAvailability"%string); (0x00021005%Z, "RunspacePoolStateMessage"%string);
   (0x00021006%Z, "CreatePipeline"%string); (0x00021007%Z, "GetAvailableRunspaces"%string); (0x00021008%Z, "UserEvent"%string); (0x00021009%Z, "ApplicationPrivateData"%string);
   (0x0002100A%Z, "GetCommandMetadata"%string); (0x00021100%Z, "RunspacePoolHostCall"%string); (0x00021101%Z, "RunspacePoolHostResponse"%string);
   (* ... and to and from a pipeline *)
   (0x00041002%Z, "PipelineInput"%string); (0x00041003%Z, "EndOfPipelineInput"%string); (0x00041004%Z, "PipelineOutput"%string); (0x00041005%Z, "ErrorRecordMessage"%string);
   (0x00041006%Z, "PipelineState"%string); (0x00041007%Z, "DebugRecord"%string); (0x00041008%Z, "VerboseRecord"%string); (0x00041009%Z, "WarningRecord"%string);
   (0x00041010%Z, "ProgressRecord"%string); (0x00041011%Z, "InformationRecord"%string); (0x00041100%Z, "PipelineHostCall"%string); (0x00041101%Z, "PipelineHostResponse"%string)].
