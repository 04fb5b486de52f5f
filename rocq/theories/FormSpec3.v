(* The messages that a server sends and the objects in them, [MS-PSRP] 2.2.2 and
   2.2.3: which property is which attribute for who uses the library.  Apart from
   the tables of the library, but the rows are in the order in which it reads. *)
From Verif Require Import Base Lit NumModel TextModel MsgModel XmlModel SerModel SendClasses RdSpec.
Local Open Scope list_scope.

Inductive shape :=
| HText (tag : String.string)       (* a primitive value *)
| HClass (c : String.string)        (* an object of a class *)
| HObject                           (* an object of whatever type *)
| HGeneric                          (* a generic object *)
| HAny
| HList                             (* a list of anything *)
| HTable.
(* [must]: the server may not leave it out *)
Inductive prow := Prop_ (must : bool) (attribute : String.string) (s : shape) (name : String.string).
Notation Must := (Prop_ true).
Notation May := (Prop_ false).

Local Open Scope string_scope.
Definition invocation_rows (iteration : String.string) : list prow :=
  [May "invocation_name" (HText "S") "InvocationInfo_InvocationName"; May "invocation_bound_parameters" HTable "InvocationInfo_BoundParameters";
   May "invocation_unbound_arguments" HList "InvocationInfo_UnboundArguments"; May "invocation_command_origin" (HClass "CommandOrigin") "InvocationInfo_CommandOrigin";
   May "invocation_expecting_input" (HText "B") "InvocationInfo_ExpectingInput"; May "invocation_line" (HText "S") "InvocationInfo_Line";
   May "invocation_offset_in_line" (HText "I32") "InvocationInfo_OffsetInLine"; May "invocation_position_message" (HText "S") "InvocationInfo_PositionMessage";
   May "invocation_script_name" (HText "S") "InvocationInfo_ScriptName"; May "invocation_script_line_number" (HText "I32") "InvocationInfo_ScriptLineNumber";
   May "invocation_history_id" (HText "I64") "InvocationInfo_HistoryId"; May "invocation_pipeline_length" (HText "I32") "InvocationInfo_PipelineLength";
   May "invocation_pipeline_position" (HText "I32") "InvocationInfo_PipelinePosition"; May "invocation_pipeline_iteration_info" HList "InvocationInfo_PipelineIterationInfo";
   May "command_type" (HClass "CommandType") "CommandInfo_CommandType"; May "command_definition" (HText "S") "CommandInfo_Definition";
   May "command_name" (HText "S") "CommandInfo_Name"; May "command_visibility" (HClass "SessionStateEntryVisibility") "CommandInfo_Visibility";
   May "pipeline_iteration_info" HList iteration].
Definition error_rows : list prow :=
  ([May "exception" HAny "Exception"; May "target_object" HAny "TargetObject"; Must "invocation" (HText "B") "SerializeExtendedInfo"; May "invocation_info" HGeneric "InvocationInfo";
    Must "fq_error" (HText "S") "FullyQualifiedErrorId"; Must "category" (HText "I32") "ErrorCategory_Category"; May "activity" (HText "S") "ErrorCategory_Activity";
    May "reason" (HText "S") "ErrorCategory_Reason"; May "target_name" (HText "S") "ErrorCategory_TargetName"; May "target_type" (HText "S") "ErrorCategory_TargetType";
    May "message" (HText "S") "ErrorCategory_Message"; May "details_message" (HText "S") "ErrorDetails_Message"; May "action" (HText "S") "ErrorDetails_RecommendedAction";
    May "script_stacktrace" (HText "S") "ErrorDetails_ScriptStackTrace"; Must "extended_info_present" (HText "B") "SerializeExtendedInfo"] ++ invocation_rows "PipelineIterationInfo")%list.
Definition informational_rows : list prow :=
  ([Must "message" (HText "S") "InformationalRecord_Message"; Must "invocation" (HText "B") "InformationalRecord_SerializeInvocationInfo"]
   ++ invocation_rows "InformationalRecord_PipelineIterationInfo")%list.
Definition call_rows : list prow := [Must "ci" (HText "I64") "ci"; Must "mi" (HClass "HostMethodIdentifier") "mi"; Must "mp" HList "mp"].
(* class, adapted and extended properties *)
Definition heard : list (String.string * (list prow * list prow)) :=
  [("SessionCapability", ([], [Must "protocol_version" (HText "Version") "protocolversion"; Must "ps_version" (HText "Version") "PSVersion";
      Must "serialization_version" (HText "Version") "SerializationVersion"; May "time_zone" (HText "BA") "TimeZone"]));
   ("EncryptedSessionKey", ([], [Must "session_key" (HText "S") "EncryptedSessionKey"]));
   ("RunspaceAvailability", ([], [Must "response" HAny "SetMinMaxRunspacesResponse"; Must "ci" (HText "I64") "ci"]));
   ("RunspacePoolStateMessage", ([], [Must "state" (HText "I32") "RunspaceState"]));
   ("UserEvent", ([], [Must "event_id" (HText "I32") "PSEventArgs.EventIdentifier"; Must "source_id" (HText "S") "PSEventArgs.SourceIdentifier"; Must "time" (HText "DT") "PSEventArgs.TimeGenerated";
      Must "sender" HAny "PSEventArgs.Sender"; Must "args" HAny "PSEventArgs.SourceArgs"; Must "data" HAny "PSEventArgs.MessageData"; Must "computer" (HText "S") "PSEventArgs.ComputerName";
      Must "runspace_id" (HText "G") "PSEventArgs.RunspaceId"]));
   ("ApplicationPrivateData", ([], [Must "data" HTable "ApplicationPrivateData"]));
   ("RunspacePoolInitData", ([], [Must "min_runspaces" (HText "I32") "MinRunspaces"; Must "max_runspaces" (HText "I32") "MaxRunspaces"]));
   ("RunspacePoolHostCall", ([], call_rows)); ("PipelineHostCall", ([], call_rows));
   ("PipelineState", ([], [Must "state" (HText "I32") "PipelineState"; May "error_record" HObject "ExceptionAsErrorRecord"]));
   ("ErrorRecordMessage", ([], error_rows)); ("ErrorRecord", ([], error_rows));
   ("DebugRecord", ([], informational_rows)); ("VerboseRecord", ([], informational_rows)); ("WarningRecord", ([], informational_rows)); ("InformationalRecord", ([], informational_rows));
   ("ProgressRecord", ([], [Must "activity" (HText "S") "Activity"; Must "activity_id" (HText "I32") "ActivityId"; Must "description" (HText "S") "StatusDescription";
      Must "current_operation" (HText "S") "CurrentOperation"; Must "parent_activity_id" (HText "I32") "ParentActivityId"; Must "percent_complete" (HText "I32") "PercentComplete";
      Must "progress_type" (HClass "ProgressRecordType") "Type"; Must "seconds_remaining" (HText "I32") "SecondsRemaining"]));
   ("InformationRecord", ([], [Must "message_data" HAny "MessageData"; Must "source" (HText "S") "Source"; Must "time_generated" (HText "DT") "TimeGenerated"; Must "tags" HList "Tags";
      Must "user" (HText "S") "User"; Must "computer" (HText "S") "Computer"; Must "pid" (HText "U32") "ProcessId"; Must "native_thread_id" (HText "U32") "NativeThreadId";
      Must "managed_thread_id" (HText "U32") "ManagedThreadId"; May "write_information_stream" (HText "B") "WriteInformationStream"]));
   ("CommandMetadataCount", ([], [Must "count" (HText "I32") "Count"]));
   ("CommandMetadata", ([], [Must "name" (HText "S") "Name"; Must "namespace" (HText "S") "Namespace"; Must "help_uri" (HText "S") "HelpUri"; Must "command_type" (HClass "CommandType") "CommandType";
      Must "output_type" HList "OutputType"; Must "parameters" HTable "Parameters"]));
   ("ParameterMetadata", ([Must "name" (HText "S") "Name"; Must "parameter_type" (HText "S") "ParameterType"; Must "aliases" HList "Aliases"; Must "switch_parameter" (HText "B") "SwitchParameter";
      Must "dynamic" (HText "B") "IsDynamic"], []));
   ("Coordinates", ([Must "x" (HText "I32") "X"; Must "y" (HText "I32") "Y"], [])); ("Size", ([Must "width" (HText "I32") "Width"; Must "height" (HText "I32") "Height"], []));
   ("KeyInfo", ([], [Must "code" (HText "I32") "virtualKeyCode"; Must "character" (HText "C") "character"; Must "state" (HText "I32") "controlKeyState"; Must "key_down" (HText "B") "keyDown"]));
   ("BufferCell", ([Must "character" (HText "C") "character"; Must "foreground_color" (HClass "Color") "foregroundColor"; Must "background_color" (HClass "Color") "backgroundColor";
      Must "cell_type" (HText "I32") "bufferCellType"], []));
   ("PSCredential", ([Must "username" (HText "S") "UserName"; Must "password" (HText "SS") "Password"], []));
   ("CultureInfo", ([Must "lcid" (HText "I32") "LCID"; Must "name" (HText "S") "Name"; Must "display_name" (HText "S") "DisplayName"; Must "ietf_language_tag" (HText "S") "IetfLanguageTag";
      Must "three_letter_iso_name" (HText "S") "ThreeLetterISOLanguageName"; Must "three_letter_windows_name" (HText "S") "ThreeLetterWindowsLanguageName";
      Must "two_letter_iso_language_name" (HText "S") "TwoLetterISOLanguageName"], []))].
Local Close Scope string_scope.

(* ---- what is held of a property that the server wrote ---- *)
Section Held.
  Context (ci : option cipher) (float_of : list N -> res (list N)) (base : nat) (heap : list hobj) (env : list (list N * value)).
  Notation holds := (holds ci float_of sending base heap env).
  (* an item of the shape; a list, a table or a generic object may be given again *)
  Definition shaped (s : shape) (t : item) : Prop :=
    match s with
    | HText tag => tag_of t = lit tag
    | HClass _ | HObject => tag_of t = lit "Obj"
    | HGeneric | HList | HTable => tag_of t = lit "Obj" \/ tag_of t = lit "Ref"
    | HAny => True
    end.
  Definition kept (s : shape) (t : item) (v : value) : Prop :=
    match s with
    | HText tag => forall text, t = Scalar (lit tag) text -> spelled ci float_of (lit tag) text v
    | HClass c => holds (Instance (lit c)) t v
    | HGeneric => holds Generic t v
    | HAny | HObject => holds Open t v
    | HList => holds (ListOf Free) t v
    | HTable => holds Dict t v
    end.
  Definition row_held (props : list (list N * item)) (attrs : list (list N * value)) (r : prow) : Prop :=
    match r with Prop_ _ a s name =>
      (forall t, In (lit name, t) props -> shaped s t -> exists v, dict_get str_eqb (lit a) attrs = Some v /\ kept s t v) /\
      ((forall t, In (lit name, t) props -> t = Scalar (lit "Nil") None) -> dict_get str_eqb (lit a) attrs = Some VNone)
    end.
End Held.

(* ---- what can be read: the properties of a class are there, in the order of the
   table as far as references go (C67_order_refuted) ---- *)
Definition reading_of (s : shape) : reading :=
  match s with HText _ => Free | HClass c => Instance (lit c) | HObject | HAny => Open | HGeneric => Generic | HList => ListOf Free | HTable => Dict end.
Section Given.
  Context (R : reading -> seen -> item -> seen -> Prop) (props : list (list N * item)).
  Inductive given : seen -> prow -> seen -> Prop :=
  | gv_some : forall st must a s name t st', In (lit name, t) props -> shaped s t -> R (reading_of s) st t st' -> given st (Prop_ must a s name) st'
  | gv_nil : forall st must a s name, s <> HAny -> In (lit name, Scalar (lit "Nil") None) props -> given st (Prop_ must a s name) st
  | gv_none : forall st a s name, (forall t, ~ In (lit name, t) props) -> given st (Prop_ false a s name) st.
End Given.
(* the error record of a pool's state is read from a property of any name *)
Definition no_failure (c : String.string) (props : list (list N * item)) : Prop :=
  c = "RunspacePoolStateMessage"%string -> forall e, In e props -> tag_of (snd e) <> lit "Obj".
(* a property that is a primitive value *)
Definition flat_row (ci : option cipher) (float_of : list N -> res (list N)) (props : list (list N * item)) (r : prow) : Prop :=
  match r with Prop_ must a s name =>
    (exists tag text v, In (lit name, Scalar (lit tag) text) props /\ spelled ci float_of (lit tag) text v /\ match s with HText t => tag = t \/ tag = "Nil"%string | HAny => True | _ => tag = "Nil"%string end) \/
    (must = false /\ forall t, ~ In (lit name, t) props)
  end.
