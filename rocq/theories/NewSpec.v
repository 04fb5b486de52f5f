(* What a user expects of making an object: each keyword ends up in the attribute
   of the same name.  Apart from the constructors. *)
From Verif Require Import Base Lit NumModel MsgModel XmlModel SerModel SerClasses ClsSpec.
Local Open Scope list_scope.

(* what was given for a name; what is left out is None *)
Definition given (kw : list (list N * value)) (a : list N) : value := match dict_get str_eqb a kw with Some v => v | None => VNone end.

(* the classes that this is about *)
Definition made_classes : list (list N) := map lit
  ["Coordinates"; "Size"; "Color"; "PSThreadOptions"; "ApartmentState"; "RemoteStreamOptions"; "CommandParameter"; "ErrorRecord";
   "InformationalRecord"; "DebugRecord"; "VerboseRecord"; "WarningRecord"; "HostMethodIdentifier"; "CommandType"; "CommandMetadataCount";
   "CommandMetadata"; "ParameterMetadata"; "PSCredential"; "KeyInfo"; "KeyInfoDotNet"; "BufferCell"; "CommandOrigin";
   "PipelineResultTypes"; "CultureInfo"; "ProgressRecordType"; "SessionStateEntryVisibility"]%string.

(* the attributes that do not have what was given for them, with their classes *)
Definition lost : list (list N * list N) := map (fun e => (lit (fst e), lit (snd e)))
  [("CultureInfo", "ietf_language_tag");
   ("ErrorRecord", "target_object"); ("ErrorRecord", "invocation_info"); ("ErrorRecord", "script_stacktrace"); ("ErrorRecord", "extended_info_present");
   ("InformationalRecord", "invocation"); ("DebugRecord", "invocation"); ("VerboseRecord", "invocation"); ("WarningRecord", "invocation")]%string.

(* the values that an enumeration has by its documentation; for sets of flags
   every number will do.  complex_objects.py:198-213, 317-320, 339-341, 1527-1528,
   1551-1559, 1624-1625, 1645-1646; for host methods [MS-PSRP] 2.2.3.17. *)
Definition up_to (n : Z) (z : Z) : Prop := (0 <= z <= n)%Z.
Definition choices : list (list N * (Z -> Prop)) := map (fun e => (lit (fst e), snd e))
  [("Color", up_to 15); ("PSThreadOptions", up_to 3); ("ApartmentState", up_to 2); ("HostMethodIdentifier", fun z => (1 <= z <= 56)%Z);
   ("CommandOrigin", up_to 1); ("PipelineResultTypes", up_to 8); ("ProgressRecordType", up_to 1); ("SessionStateEntryVisibility", up_to 1);
   ("RemoteStreamOptions", fun _ => True); ("CommandType", fun _ => True)]%string.
(* the value of an enumeration is one of its choices; version 2 of the protocol
   knows less of them *)
Definition choice_made (c : list N) (kw : list (list N * value)) : Prop :=
  forall P, In (c, P) choices -> exists z, given kw (lit "value") = VInt z /\ P z /\
    (c = lit "PipelineResultTypes" -> given kw (lit "protocol_version_2") = VBool true -> up_to 3 z).

(* the name of zero, by the documentation of the enumerations; sets of flags have no
   name for it, host methods begin at one *)
Definition zero_names : list (list N * list N * list N) := map (fun e => (lit (fst (fst e)), lit (snd (fst e)), lit (snd e)))
  [("Color", "System.ConsoleColor", "Black"); ("PSThreadOptions", "System.Management.Automation.Runspaces.PSThreadOptions", "Default");
   ("ApartmentState", "System.Management.Automation.Runspaces.ApartmentState", "STA");
   ("RemoteStreamOptions", "System.Management.Automation.Runspaces.RemoteStreamOptions", "");
   ("CommandType", "System.Management.Automation.CommandTypes", ""); ("CommandOrigin", "System.Management.Automation.CommandOrigin", "Runspace");
   ("PipelineResultTypes", "System.Management.Automation.Runspaces.PipelineResultTypes", "None");
   ("ProgressRecordType", "System.Management.Automation.ProgressRecordType", "Processing");
   ("SessionStateEntryVisibility", "System.Management.Automation.SessionStateEntryVisibility", "Public")]%string.
Definition bare (tag : String.string) (text : list N) : xml := Elem (lit tag) [] (Some text) [].
(* an enumeration on the wire: its types, its name and what stands for its number *)
Definition sent_enum (type name : list N) (number : xml) : xml :=
  Elem (lit "Obj") [(lit "RefId", lit "0")] None
    [Elem (lit "TN") [(lit "RefId", lit "0")] None (map (bare "T") [type; lit "System.Enum"; lit "System.ValueType"; lit "System.Object"]);
     bare "ToString" name; number].

