(* The classes of src/pypsrp/complex_objects.py and src/pypsrp/messages.py that the
   serializer reads and writes, as class descriptions.

   Not here: Array, and Pipeline and HostInfo, whose properties are computed, and
   InitRunspacePool and CreatePipeline, which contain them (SendClasses.v).  Simplified: the
   attributes that a constructor sets to an instance of another class (the merge
   attributes of Command) are None until they are read. *)
From Verif Require Import Base Lit NumModel MsgModel XmlModel SerModel.

(* ObjectMeta("tag", name="...", optional=...) and with object=... *)
Definition pm (tag name : String.string) (optional : bool) : meta :=
  Meta KPlain (lit tag) (Some (lit name)) optional None.
Definition cm (cls name : String.string) (optional : bool) : meta :=
  Meta KPlain (lit "Obj") (Some (lit name)) optional (Some (lit cls)).
(* ListMeta(name=..., list_value_meta=..., list_types=...) *)
Definition lm (name : String.string) (optional : bool) (entry : meta) (types : list String.string) : meta :=
  Meta (KList entry (map lit types)) (lit "LST") (Some (lit name)) optional None.
Definition plain (tag : String.string) : meta := object_meta (lit tag) None.
Definition fields (l : list (String.string * meta)) : list (list N * meta) := map (fun e => (lit (fst e), snd e)) l.
Definition unset (l : list (list N * meta)) : list (list N * value) := map (fun e => (fst e, VNone)) l.

(* the attribute _to_string of a class that is no enumeration *)
Definition own_text (attrs : list (list N * value)) : res value :=
  Ok (match dict_get str_eqb (lit "_to_string") attrs with Some v => v | None => VNone end).
Definition simple (types : list String.string) (adapted extended : list (String.string * meta)) : cdesc :=
  mkCD (map lit types) own_text [] (fields adapted) (fields extended)
       (unset (fields adapted) ++ unset (fields extended) ++ [(lit "_to_string", VNone)]).

(* Enum: complex_objects.py:124-153 *)
Definition enum_number (attrs : list (list N * value)) : res Z :=
  match dict_get str_eqb (lit "value") attrs with
  | Some (VInt z) => Ok z
  | Some (VBool b) => Ok (if b then 1 else 0)%Z
  | Some VNone => Ok 0%Z
  | _ => Err KeyError
  end.
Fixpoint zget (z : Z) (l : list (Z * String.string)) : option String.string :=
  match l with [] => None | (k, s) :: l' => if Z.eqb z k then Some s else zget z l' end.
Definition enum_text (map : list (Z * String.string)) (attrs : list (list N * value)) : res value :=
  do z <- enum_number attrs;
  match zget z map with Some s => Ok (VStr (lit s)) | None => Err KeyError end.
Definition enum_desc (type : String.string) (text : list (list N * value) -> res value) : cdesc :=
  mkCD (map lit [type; "System.Enum"; "System.ValueType"; "System.Object"]%string) text
       [(lit "value", plain "I32")] [] [] [(lit "value", VNone)].
(* complex_objects.py:381-396, 1153-1172 *)
Fixpoint joined (l : list String.string) : list N :=
  match l with [] => [] | [s] => lit s | s :: l' => lit s ++ lit ", " ++ joined l' end.
Definition flags_text (all : Z) (all_name : String.string) (map : list (String.string * Z)) (attrs : list (list N * value)) : res value :=
  do z <- enum_number attrs;
  Ok (VStr (if Z.eqb z all then lit all_name
            else joined (List.map fst (filter (fun e => Z.eqb (Z.land z (snd e)) (snd e)) map)))).

Open Scope Z_scope.
Open Scope string_scope.
Definition color_map := [(0, "Black"); (1, "DarkBlue"); (2, "DarkGreen"); (3, "DarkCyan"); (4, "DarkRed"); (5, "DarkMagenta");
  (6, "DarkYellow"); (7, "Gray"); (8, "DarkGray"); (9, "Blue"); (10, "Green"); (11, "Cyan"); (12, "Red"); (13, "Magenta");
  (14, "Yellow"); (15, "White")].
Definition result_map := [(0, "None"); (1, "Output"); (2, "Error"); (3, "Warning"); (4, "Verbose"); (5, "Debug");
  (6, "Information"); (7, "All"); (8, "Null")].
(* complex_objects.py:1568-1598: the map that the constructor is told to use *)
Definition result_text (attrs : list (list N * value)) : res value :=
  match dict_get str_eqb (lit "protocol_version_2") attrs with
  | Some (VBool true) => enum_text [(0, "None"); (1, "Output"); (2, "Error"); (3, "Output, Error")] attrs
  | _ => enum_text result_map attrs
  end.
(* complex_objects.py:1067-1124 *)
Definition method_map := [(1, "GetName"); (2, "GetVersion"); (3, "GetInstanceId"); (4, "GetCurrentCulture");
  (5, "GetCurrentUICulture"); (6, "SetShouldExit"); (7, "EnterNestedPrompt"); (8, "ExitNestedPrompt");
  (9, "NotifyBeginApplication"); (10, "NotifyEndApplication"); (11, "ReadLine"); (12, "ReadLineAsSecureString");
  (13, "Write1"); (14, "Write2"); (15, "WriteLine1"); (16, "WriteLine2"); (17, "WriteLine3"); (18, "WriteErrorLine");
  (19, "WriteDebugLine"); (20, "WriteProgress"); (21, "WriteVerboseLine"); (22, "WriteWarningLine"); (23, "Prompt");
  (24, "PromptForCredential1"); (25, "PromptForCredential2"); (26, "PromptForChoice"); (27, "GetForegroundColor");
  (28, "SetForegroundColor"); (29, "GetBackgroundColor"); (30, "SetBackgroundColor"); (31, "GetCursorPosition");
  (32, "SetCursorPosition"); (33, "GetWindowPosition"); (34, "SetWindowPosition"); (35, "GetCursorSize");
  (36, "SetCursorSize"); (37, "GetBufferSize"); (38, "SetBufferSize"); (39, "GetWindowSize"); (40, "SetWindowSize");
  (41, "GetWindowTitle"); (42, "SetWindowTitle"); (43, "GetMaxWindowSize"); (44, "GetMaxPhysicalWindowSize");
  (45, "GetKeyAvailable"); (46, "ReadKey"); (47, "FlushInputBuffer"); (48, "SetBufferContents1");
  (49, "SetBufferContents2"); (50, "GetBufferContents"); (51, "ScrollBufferContents"); (52, "PushRunspace");
  (53, "PopRunspace"); (54, "GetIsRunspacePushed"); (55, "GetRunspce"); (56, "PromptForChoiceMultipleSelection")].
Close Scope Z_scope.

(* complex_objects.py:809-896, 944-1031: what both kinds of records have; [iteration]
   is the name of the last one *)
Definition invocation_meta (iteration : String.string) : list (String.string * meta) :=
  [("invocation_name", pm "S" "InvocationInfo_InvocationName" true);
   ("invocation_bound_parameters",
     Meta (KDict (plain "S") (object_meta star (Some (lit "Value")))
            (map lit ["System.Management.Automation.PSBoundParametersDictionary";
                      "System.Collections.Generic.Dictionary`2[[System.String, mscorlib, Version=4.0.0.0, Culture=neutral, PublicKeyToken=b77a5c561934e089],[System.Object, mscorlib, Version=4.0.0.0, Culture=neutral, PublicKeyToken=b77a5c561934e089]]";
                      "System.Object"]))
          (lit "DCT") (Some (lit "InvocationInfo_BoundParameters")) true None);
   ("invocation_unbound_arguments", lm "InvocationInfo_UnboundArguments" true any_meta
      ["System.Collections.Generic.List`1[[System.Object, mscorlib, Version=4.0.0.0, Culture=neutral, PublicKeyToken=b77a5c561934e089]]"; "System.Object"]);
   ("invocation_command_origin", cm "CommandOrigin" "InvocationInfo_CommandOrigin" true);
   ("invocation_expecting_input", pm "B" "InvocationInfo_ExpectingInput" true);
   ("invocation_line", pm "S" "InvocationInfo_Line" true);
   ("invocation_offset_in_line", pm "I32" "InvocationInfo_OffsetInLine" true);
   ("invocation_position_message", pm "S" "InvocationInfo_PositionMessage" true);
   ("invocation_script_name", pm "S" "InvocationInfo_ScriptName" true);
   ("invocation_script_line_number", pm "I32" "InvocationInfo_ScriptLineNumber" true);
   ("invocation_history_id", pm "I64" "InvocationInfo_HistoryId" true);
   ("invocation_pipeline_length", pm "I32" "InvocationInfo_PipelineLength" true);
   ("invocation_pipeline_position", pm "I32" "InvocationInfo_PipelinePosition" true);
   ("invocation_pipeline_iteration_info", lm "InvocationInfo_PipelineIterationInfo" true (plain "I32") ["System.In32[]"; "System.Array"; "System.Object"]);
   ("command_type", cm "CommandType" "CommandInfo_CommandType" true);
   ("command_definition", pm "S" "CommandInfo_Definition" true);
   ("command_name", pm "S" "CommandInfo_Name" true);
   ("command_visibility", cm "SessionStateEntryVisibility" "CommandInfo_Visibility" true);
   ("pipeline_iteration_info", lm iteration true (plain "I32")
      ["System.Collections.ObjectModel.ReadOnlyCollection`1[[System.Int32, mscorlib, Version=4.0.0.0, Culture=neutral, PublicKeyToken=b77a5c561934e089]]"; "System.Object"])].

(* complex_objects.py:782-930 *)
Definition error_record : cdesc :=
  let l := ([("exception", pm "*" "Exception" true); ("target_object", pm "*" "TargetObject" true);
            ("invocation", pm "B" "SerializeExtendedInfo" false);
            ("invocation_info", Meta KPlain (lit "ObjDynamic") (Some (lit "InvocationInfo")) true (Some generic_name));
            ("fq_error", pm "S" "FullyQualifiedErrorId" false); ("category", pm "I32" "ErrorCategory_Category" false);
            ("activity", pm "S" "ErrorCategory_Activity" true); ("reason", pm "S" "ErrorCategory_Reason" true);
            ("target_name", pm "S" "ErrorCategory_TargetName" true); ("target_type", pm "S" "ErrorCategory_TargetType" true);
            ("message", pm "S" "ErrorCategory_Message" true); ("details_message", pm "S" "ErrorDetails_Message" true);
            ("action", pm "S" "ErrorDetails_RecommendedAction" true);
            ("script_stacktrace", pm "S" "ErrorDetails_ScriptStackTrace" true);
            ("extended_info_present", pm "B" "SerializeExtendedInfo" false)] ++ invocation_meta "PipelineIterationInfo")%list in
  let d := simple ["System.Management.Automation.ErrorRecord"; "System.Object"] [] l in
  (* target_object, invocation_info and script_stacktrace are not set by the constructor *)
  mkCD (cd_types d) (cd_text d) [] [] (cd_extended d)
       (dict_set str_eqb (lit "extended_info_present") (VBool false)
         (dict_del str_eqb (lit "target_object") (dict_del str_eqb (lit "invocation_info") (dict_del str_eqb (lit "script_stacktrace") (cd_init d))))).
(* complex_objects.py:933-1054 *)
Definition informational (types : list String.string) : cdesc :=
  let d := simple (types ++ ["System.Management.Automation.InformationRecord"; "System.Object"])%list []
             ([("message", pm "S" "InformationalRecord_Message" false);
               ("invocation", pm "B" "InformationalRecord_SerializeInvocationInfo" false)]
              ++ invocation_meta "InformationalRecord_PipelineIterationInfo")%list in
  mkCD (cd_types d) (cd_text d) [] [] (cd_extended d) (dict_set str_eqb (lit "invocation") (VBool false) (cd_init d)).

(* messages.py:617-663 *)
Definition host_call : cdesc := simple [] []
  [("ci", pm "I64" "ci" false); ("mi", cm "HostMethodIdentifier" "mi" false);
   ("mp", lm "mp" false any_meta ["System.Object[]"; "System.Array"; "System.Object"])].
Definition host_response : cdesc := simple [] []
  [("ci", pm "I64" "ci" false); ("mi", cm "HostMethodIdentifier" "mi" false); ("mr", pm "*" "mr" false);
   ("me", cm "ErrorRecord" "me" true)].

Definition library_classes : list (list N * cdesc) :=
  map (fun e => (lit (fst e), snd e))
  [ (* complex_objects.py:156-194 *)
    ("Coordinates", simple ["System.Management.Automation.Host.Coordinates"; "System.ValueType"; "System.Object"]
        [("x", pm "I32" "X" false); ("y", pm "I32" "Y" false)] []);
    ("Size", simple ["System.Management.Automation.Host.Size"; "System.ValueType"; "System.Object"]
        [("width", pm "I32" "Width" false); ("height", pm "I32" "Height" false)] []);
    (* complex_objects.py:197-243, 316-400 *)
    ("Color", enum_desc "System.ConsoleColor" (enum_text color_map));
    ("PSThreadOptions", enum_desc "System.Management.Automation.Runspaces.PSThreadOptions"
        (enum_text [(0%Z, "Default"); (1%Z, "UseNewThread"); (2%Z, "ReuseThread"); (3%Z, "UseCurrentThread")]));
    ("ApartmentState", enum_desc "System.Management.Automation.Runspaces.ApartmentState"
        (enum_text [(0%Z, "STA"); (1%Z, "MTA"); (2%Z, "UNKNOWN")]));
    ("RemoteStreamOptions", enum_desc "System.Management.Automation.Runspaces.RemoteStreamOptions"
        (flags_text 15 "AddInvocationInfo" [("AddInvocationInfoToErrorRecord", 1%Z); ("AddInvocationInfoToWarningRecord", 2%Z);
           ("AddInvocationInfoToDebugRecord", 4%Z); ("AddInvocationInfoToVerboseRecord", 8%Z)]));
    (* complex_objects.py:526-656, protocol 2.3 *)
    ("Command", simple [] []
        [("cmd", pm "S" "Cmd" false); ("is_script", pm "B" "IsScript" false); ("use_local_scope", pm "B" "UseLocalScope" false);
         ("merge_my_result", cm "PipelineResultTypes" "MergeMyResult" false);
         ("merge_to_result", cm "PipelineResultTypes" "MergeToResult" false);
         ("merge_previous", cm "PipelineResultTypes" "MergePreviousResults" false);
         ("args", lm "Args" false (Meta KPlain star None false (Some (lit "CommandParameter")))
            ["System.Collections.Generic.List`1[[System.Management.Automation.PSObject, System.Management.Automation, Version=1.0.0.0, Culture=neutral, PublicKeyToken=31bf3856ad364e35]]"; "System.Object"]);
         ("merge_error", cm "PipelineResultTypes" "MergeError" true); ("merge_warning", cm "PipelineResultTypes" "MergeWarning" true);
         ("merge_verbose", cm "PipelineResultTypes" "MergeVerbose" true); ("merge_debug", cm "PipelineResultTypes" "MergeDebug" true);
         ("merge_information", cm "PipelineResultTypes" "MergeInformation" true)]);
    ("CommandParameter", simple [] [] [("name", pm "S" "N" false); ("value", pm "*" "V" false)]);
    ("ErrorRecordMessage", error_record);
    ("InformationalRecord", informational []);
    (* messages.py:742-775 *)
    ("DebugRecord", informational ["System.Management.Automation.DebugRecord"]);
    ("VerboseRecord", informational ["System.Management.Automation.VerboseRecord"]);
    ("WarningRecord", informational ["System.Management.Automation.WarningRecord"]);
    (* messages.py:778-866 *)
    ("ProgressRecord", simple [] []
        [("activity", pm "S" "Activity" false); ("activity_id", pm "I32" "ActivityId" false);
         ("description", pm "S" "StatusDescription" false); ("current_operation", pm "S" "CurrentOperation" false);
         ("parent_activity_id", pm "I32" "ParentActivityId" false); ("percent_complete", pm "I32" "PercentComplete" false);
         ("progress_type", cm "ProgressRecordType" "Type" false); ("seconds_remaining", pm "I32" "SecondsRemaining" false)]);
    ("InformationRecord", simple ["System.Management.Automation.InformationRecord"; "System.Object"] []
        [("message_data", pm "*" "MessageData" false); ("source", pm "S" "Source" false);
         ("time_generated", pm "DT" "TimeGenerated" false);
         ("tags", lm "Tags" false (plain "S") ["System.Object[]"; "System.Array"; "System.Object"]);
         ("user", pm "S" "User" false); ("computer", pm "S" "Computer" false); ("pid", pm "U32" "ProcessId" false);
         ("native_thread_id", pm "U32" "NativeThreadId" false); ("managed_thread_id", pm "U32" "ManagedThreadId" false);
         ("write_information_stream", pm "B" "WriteInformationStream" true)]);
    ("HostMethodIdentifier", enum_desc "System.Management.Automation.Remoting.RemoteHostMethodId" (enum_text method_map));
    (* complex_objects.py:1130-1176 *)
    ("CommandType", enum_desc "System.Management.Automation.CommandTypes"
        (flags_text 511 "All" [("Alias", 1%Z); ("Function", 2%Z); ("Filter", 4%Z); ("Cmdlet", 8%Z); ("ExternalScript", 16%Z);
           ("Application", 32%Z); ("Script", 64%Z); ("Workflow", 128%Z); ("Configuration", 256%Z)]));
    (* complex_objects.py:1178-1287: these set types, not _types *)
    ("CommandMetadataCount", simple [] [] [("count", pm "I32" "Count" false)]);
    ("CommandMetadata", simple [] []
        [("name", pm "S" "Name" false); ("namespace", pm "S" "Namespace" false); ("help_uri", pm "S" "HelpUri" false);
         ("command_type", cm "CommandType" "CommandType" false);
         ("output_type", lm "OutputType" false (plain "S")
            ["System.Collections.ObjectModel.ReadOnlyCollection`1[[System.Management.Automation.PSTypeName, System.Management.Automation, Version=3.0.0.0, Culture=neutral, PublicKeyToken=31bf3856ad364e35]]"]);
         ("parameters", Meta (KDict (plain "S") (class_meta (lit "ParameterMetadata")) (map lit ["System.Collections.Hashtable"; "System.Object"]))
            (lit "DCT") (Some (lit "Parameters")) false None)]);
    ("ParameterMetadata", simple []
        [("name", pm "S" "Name" false); ("parameter_type", pm "S" "ParameterType" false);
         ("aliases", lm "Aliases" false (plain "S")
            ["System.Collections.ObjectModel.Collection`1[[System.String, mscorlib, Version=4.0.0.0, Culture=neutral, PublicKeyToken=b77a5c561934e089]]"; "System.Object"]);
         ("switch_parameter", pm "B" "SwitchParameter" false); ("dynamic", pm "B" "IsDynamic" false)] []);
    (* complex_objects.py:1290-1369 *)
    ("PSCredential",
       (let d := simple ["System.Management.Automation.PSCredential"; "System.Object"]
                   [("username", pm "S" "UserName" false); ("password", pm "SS" "Password" false)] [] in
        mkCD (cd_types d) (cd_text d) [] (cd_adapted d) []
             (dict_set str_eqb (lit "_to_string") (VStr (lit "System.Management.Automation.PSCredential")) (cd_init d))));
    ("KeyInfo", simple [] []
        [("code", pm "I32" "virtualKeyCode" true); ("character", pm "C" "character" false); ("state", pm "I32" "controlKeyState" false);
         ("key_down", pm "B" "keyDown" false)]);
    ("KeyInfoDotNet", simple ["System.Management.Automation.Host.KeyInfo"; "System.ValueType"; "System.Object"]
        [("code", pm "I32" "VirtualKeyCode" false); ("character", pm "C" "Character" false); ("state", pm "S" "ControlKeyState" false);
         ("key_down", pm "B" "KeyDown" false)] []);
    (* complex_objects.py:1392-1415 *)
    ("BufferCell", simple []
        [("character", pm "C" "character" false); ("foreground_color", cm "Color" "foregroundColor" false);
         ("background_color", cm "Color" "backgroundColor" false); ("cell_type", pm "I32" "bufferCellType" false)] []);
    (* complex_objects.py:1526-1659 *)
    ("CommandOrigin", enum_desc "System.Management.Automation.CommandOrigin" (enum_text [(0%Z, "Runspace"); (1%Z, "Internal")]));
    ("PipelineResultTypes", enum_desc "System.Management.Automation.Runspaces.PipelineResultTypes" result_text);
    ("CultureInfo",
       (let d := simple []
          [("lcid", pm "I32" "LCID" false); ("name", pm "S" "Name" false); ("display_name", pm "S" "DisplayName" false);
           ("ietf_language_tag", pm "S" "IetfLanguageTag" false); ("three_letter_iso_name", pm "S" "ThreeLetterISOLanguageName" false);
           ("three_letter_windows_name", pm "S" "ThreeLetterWindowsLanguageName" false);
           ("two_letter_iso_language_name", pm "S" "TwoLetterISOLanguageName" false)] [] in
        (* the constructor sets ieft_language_tag *)
        mkCD (cd_types d) (cd_text d) [] (cd_adapted d) []
             ((lit "ieft_language_tag", VNone) :: dict_del str_eqb (lit "ietf_language_tag") (cd_init d))));
    ("ProgressRecordType", enum_desc "System.Management.Automation.ProgressRecordType" (enum_text [(0%Z, "Processing"); (1%Z, "Completed")]));
    ("SessionStateEntryVisibility", enum_desc "System.Management.Automation.SessionStateEntryVisibility"
        (enum_text [(0%Z, "Public"); (1%Z, "Private")]));
    ("ErrorRecord", error_record);
    (* messages.py:231-261 *)
    ("SessionCapability", simple [] []
        [("protocol_version", pm "Version" "protocolversion" false); ("ps_version", pm "Version" "PSVersion" false);
         ("serialization_version", pm "Version" "SerializationVersion" false); ("time_zone", pm "BA" "TimeZone" true)]);
    (* messages.py:315-348 *)
    ("PublicKey", simple [] [] [("public_key", pm "S" "PublicKey" false)]);
    ("EncryptedSessionKey", simple [] [] [("session_key", pm "S" "EncryptedSessionKey" false)]);
    (* messages.py:362-447; the metadata of an error record has no name *)
    ("SetMaxRunspaces", simple [] [] [("max_runspaces", pm "I32" "MaxRunspaces" false); ("ci", pm "I64" "CI" false)]);
    ("SetMinRunspaces", simple [] [] [("min_runspaces", pm "I32" "MinRunspaces" false); ("ci", pm "I64" "CI" false)]);
    ("RunspaceAvailability", simple [] [] [("response", pm "*" "SetMinMaxRunspacesResponse" false); ("ci", pm "I64" "ci" false)]);
    ("RunspacePoolStateMessage", simple [] []
        [("state", pm "I32" "RunspaceState" false); ("error_record", Meta KPlain (lit "Obj") None true (Some (lit "ErrorRecord")))]);
    (* messages.py:497-575 *)
    ("GetAvailableRunspaces", simple [] [] [("ci", pm "I64" "ci" false)]);
    ("UserEvent", simple [] []
        [("event_id", pm "I32" "PSEventArgs.EventIdentifier" false); ("source_id", pm "S" "PSEventArgs.SourceIdentifier" false);
         ("time", pm "DT" "PSEventArgs.TimeGenerated" false); ("sender", pm "*" "PSEventArgs.Sender" false);
         ("args", pm "*" "PSEventArgs.SourceArgs" false); ("data", pm "*" "PSEventArgs.MessageData" false);
         ("computer", pm "S" "PSEventArgs.ComputerName" false); ("runspace_id", pm "G" "PSEventArgs.RunspaceId" false)]);
    ("ApplicationPrivateData", simple [] [] [("data", dict_meta (Some (lit "ApplicationPrivateData")) false)]);
    (* messages.py:578-663 *)
    ("GetCommandMetadata", simple [] []
        [("names", lm "Name" false (plain "S") ["System.String[]"; "System.Array"; "System.Object"]);
         ("command_type", Meta KPlain star (Some (lit "CommandType")) false (Some (lit "CommandType")));
         ("namespace", pm "*" "Namespace" false);
         ("argument_list", lm "ArgumentList" false any_meta ["System.Object[]"; "System.Array"; "System.Object"])]);
    ("RunspacePoolHostCall", host_call); ("RunspacePoolHostResponse", host_response);
    (* messages.py:666-691 *)
    ("PipelineInput", simple [] [] []); ("EndOfPipelineInput", simple [] [] []);
    (* messages.py:722-739: the error record has no class *)
    ("PipelineState", simple [] [] [("state", pm "I32" "PipelineState" false); ("error_record", pm "Obj" "ExceptionAsErrorRecord" true)]);
    (* messages.py:869-947 *)
    ("PipelineHostCall", host_call); ("PipelineHostResponse", host_response);
    ("ConnectRunspacePool", simple [] [] [("min_runspaces", pm "I32" "MinRunspaces" true); ("max_runspaces", pm "I32" "MaxRunspaces" true)]);
    ("RunspacePoolInitData", simple [] [] [("min_runspaces", pm "I32" "MinRunspaces" false); ("max_runspaces", pm "I32" "MaxRunspaces" false)]);
    ("ResetRunspaceState", simple [] [] [("ci", pm "I64" "ci" false)])].
Definition library (c : list N) : option cdesc := dict_get str_eqb c library_classes.
