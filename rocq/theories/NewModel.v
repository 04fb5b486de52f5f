(* The constructors of the classes of src/pypsrp/complex_objects.py: which attributes
   an instance has and where their values are from.

   Not here: Command, Array, Pipeline and HostInfo, which compute their attributes, and the
   messages other than records.  Simplified: an attribute that the constructor sets
   and that no metadata names (the constants of the class) is left out; the attribute
   _to_string of an enumeration is computed (SerClasses.v) and not one of them. *)
From Verif Require Import Base Lit NumModel MsgModel XmlModel SerModel SerClasses.
Local Open Scope list_scope.
Local Open Scope string_scope.

(* kwargs.get(kw); a parameter with a default; a constant; kwargs.get(kw) is not None *)
Inductive source := Given (kw : String.string) | GivenOr (kw : String.string) (v : value) | Fixed (v : value) | WhetherGiven (kw : String.string).

(* complex_objects.py:1034-1054 *)
Definition informational_made : list (String.string * source) :=
  [("message", Given "message"); ("pipeline_iteration_info", Given "pipeline_iteration_info"); ("invocation_name", Given "invocation_name");
       ("invocation_bound_parameters", Given "invocation_bound_parameters");
       ("invocation_unbound_arguments", Given "invocation_unbound_arguments"); ("invocation_command_origin", Given "invocation_command_origin");
       ("invocation_expecting_input", Given "invocation_expecting_input"); ("invocation_line", Given "invocation_line");
       ("invocation_offset_in_line", Given "invocation_offset_in_line"); ("invocation_position_message", Given "invocation_position_message");
       ("invocation_script_name", Given "invocation_script_name"); ("invocation_script_line_number", Given "invocation_script_line_number");
       ("invocation_history_id", Given "invocation_history_id"); ("invocation_pipeline_length", Given "invocation_pipeline_length");
       ("invocation_pipeline_position", Given "invocation_pipeline_position");
       ("invocation_pipeline_iteration_info", Given "invocation_pipeline_iteration_info"); ("command_type", Given "command_type");
       ("command_definition", Given "command_definition"); ("command_name", Given "command_name");
       ("command_visibility", Given "command_visibility"); ("invocation", Fixed (VBool false)); ("_to_string", Fixed VNone)].
(* complex_objects.py, by the lines of each __init__; an enumeration sets its value
   in 124-139 *)
Definition constructors : list (String.string * list (String.string * source)) :=
  [
(* 157-175 *)
   ("Coordinates", [("x", Given "x"); ("y", Given "y"); ("_to_string", Fixed VNone)]);
   (* 179-194 *)
   ("Size", [("width", Given "width"); ("height", Given "height"); ("_to_string", Fixed VNone)]);
   (* 215-243 *)
   ("Color", [("value", Given "value")]);
   (* 322-335 *)
   ("PSThreadOptions", [("value", Given "value")]);
   (* 343-356 *)
   ("ApartmentState", [("value", Given "value")]);
   (* 366-378 *)
   ("RemoteStreamOptions", [("value", Given "value")]);
   (* 636-655 *)
   ("CommandParameter", [("name", Given "name"); ("value", Given "value"); ("_to_string", Fixed VNone)]);
   (* 783-930 *)
   ("ErrorRecord", [("exception", Given "exception"); ("target_info", Given "target_info"); ("invocation", Given "invocation");
       ("fq_error", Given "fq_error"); ("category", Given "category"); ("activity", Given "activity"); ("reason", Given "reason");
       ("target_name", Given "target_name"); ("target_type", Given "target_type"); ("message", Given "message");
       ("details_message", Given "details_message"); ("action", Given "action"); ("pipeline_iteration_info", Given "pipeline_iteration_info");
       ("invocation_name", Given "invocation_name"); ("invocation_bound_parameters", Given "invocation_bound_parameters");
       ("invocation_unbound_arguments", Given "invocation_unbound_arguments"); ("invocation_command_origin", Given "invocation_command_origin");
       ("invocation_expecting_input", Given "invocation_expecting_input"); ("invocation_line", Given "invocation_line");
       ("invocation_offset_in_line", Given "invocation_offset_in_line"); ("invocation_position_message", Given "invocation_position_message");
       ("invocation_script_name", Given "invocation_script_name"); ("invocation_script_line_number", Given "invocation_script_line_number");
       ("invocation_history_id", Given "invocation_history_id"); ("invocation_pipeline_length", Given "invocation_pipeline_length");
       ("invocation_pipeline_position", Given "invocation_pipeline_position");
       ("invocation_pipeline_iteration_info", Given "invocation_pipeline_iteration_info"); ("command_type", Given "command_type");
       ("command_definition", Given "command_definition"); ("command_name", Given "command_name");
       ("command_visibility", Given "command_visibility"); ("extended_info_present", WhetherGiven "invocation"); ("_to_string", Fixed VNone)]);
   (* 934-1054; messages.py:742-775 hand their arguments on *)
   ("InformationalRecord", informational_made);
   ("DebugRecord", informational_made);
   ("VerboseRecord", informational_made);
   ("WarningRecord", informational_made);
   (* 1058-1127 *)
   ("HostMethodIdentifier", [("value", Given "value")]);
   (* 1142-1149 *)
   ("CommandType", [("value", Given "value")]);
   (* 1179-1194 *)
   ("CommandMetadataCount", [("count", Given "count"); ("_to_string", Fixed VNone)]);
   (* 1198-1246 *)
   ("CommandMetadata", [("name", Given "name"); ("namespace", Given "namespace"); ("help_uri", Given "help_uri");
       ("command_type", Given "command_type"); ("output_type", Given "output_type"); ("parameters", Given "parameters");
       ("_to_string", Fixed VNone)]);
   (* 1250-1287 *)
   ("ParameterMetadata", [("name", Given "name"); ("parameter_type", Given "parameter_type"); ("aliases", Given "aliases");
       ("switch_parameter", Given "switch_parameter"); ("dynamic", Given "dynamic"); ("_to_string", Fixed VNone)]);
   (* 1291-1313 *)
   ("PSCredential", [("username", Given "username"); ("password", Given "password");
       ("_to_string", Fixed (VStr (lit "System.Management.Automation.PSCredential")))]);
   (* 1317-1341 *)
   ("KeyInfo", [("code", Given "code"); ("character", Given "character"); ("state", Given "state"); ("key_down", Given "key_down");
       ("_to_string", Fixed VNone)]);
   (* 1345-1369 *)
   ("KeyInfoDotNet", [("code", Given "code"); ("character", Given "character"); ("state", Given "state"); ("key_down", Given "key_down");
       ("_to_string", Fixed VNone)]);
   (* 1393-1415 *)
   ("BufferCell", [("character", Given "character"); ("foreground_color", Given "foreground_color");
       ("background_color", Given "background_color"); ("cell_type", Given "cell_type"); ("_to_string", Fixed VNone)]);
   (* 1530-1541 *)
   ("CommandOrigin", [("value", Given "value")]);
   (* 1561-1598 *)
   ("PipelineResultTypes", [("value", Given "value"); ("protocol_version_2", GivenOr "protocol_version_2" (VBool false))]);
   (* 1602-1620 *)
   ("CultureInfo", [("lcid", Given "lcid"); ("name", Given "name"); ("display_name", Given "display_name");
       ("ieft_language_tag", Given "ietf_language_tag"); ("three_letter_iso_name", Given "three_letter_iso_name");
       ("three_letter_windows_name", Given "three_letter_windows_name"); ("two_letter_iso_language_name", Given "two_letter_iso_language_name");
       ("_to_string", Fixed VNone)]);
   (* 1627-1641 *)
   ("ProgressRecordType", [("value", Given "value")]);
   (* 1648-1659 *)
   ("SessionStateEntryVisibility", [("value", Given "value")])].

(* the keyword arguments of a call *)
Definition get_kw (kw : list (list N * value)) (k : String.string) : option value := dict_get str_eqb (lit k) kw.
Definition set_from (kw : list (list N * value)) (s : source) : value :=
  match s with
  | Given k => match get_kw kw k with Some v => v | None => VNone end
  | GivenOr k v => match get_kw kw k with Some w => w | None => v end
  | Fixed v => v
  | WhetherGiven k => VBool (match get_kw kw k with Some VNone | None => false | Some _ => true end)
  end.
(* calling the class with keyword arguments: the attributes of the new instance *)
Definition make (c : list N) (kw : list (list N * value)) : option (list (list N * value)) :=
  match find (fun e => str_eqb (lit (fst e)) c) constructors with
  | Some (_, l) => Some (map (fun e => (lit (fst e), set_from kw (snd e))) l)
  | None => None
  end.
