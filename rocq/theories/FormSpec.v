(* The form of the messages that a client sends: [MS-PSRP] 2.2.2 and 2.2.3.  Which
   properties an object has, under which names, of which types, and how the
   elements are nested; apart from the tables of the library and the serializer. *)
From Verif Require Import Base Lit NumModel TextModel MsgModel XmlModel SerModel.
Local Open Scope list_scope.

(* ---- what a property may be ---- *)
Inductive form :=
| FText (tag : String.string)
| FClass (c : String.string)
| FList (types : list String.string) (entry : form)
| FDict (types : list String.string) (key entry : form)
| FAny.
(* the attribute of the library's object, the property's form and name, and
   whether it may be left out *)
Inductive row := Row (attribute : String.string) (f : form) (name : String.string) (optional : bool).
(* an enumeration with its names, if they are listed (two of them also as the
   library spells them: "UNKNOWN" and "GetRunspce"), or an object with its
   adapted and its extended properties *)
Inductive layout :=
| LEnum (type : String.string) (names : option (list (Z * String.string)))
| LObject (types : list String.string) (adapted extended : list row).

Local Open Scope string_scope.
(* 2.2.3.11 ...: lists of PSObject *)
Definition psobjects : list String.string :=
  ["System.Collections.Generic.List`1[[System.Management.Automation.PSObject, System.Management.Automation, Version=1.0.0.0, Culture=neutral, PublicKeyToken=31bf3856ad364e35]]"; "System.Object"].
Definition objects : list String.string := ["System.Object[]"; "System.Array"; "System.Object"].
Definition strings : list String.string := ["System.String[]"; "System.Array"; "System.Object"].
(* 2.2.3.31: the streams a command merges into; the last for protocol 2.1 *)
Definition result_names : list (Z * String.string) :=
  [(0%Z, "None"); (1%Z, "Output"); (2%Z, "Error"); (3%Z, "Warning"); (4%Z, "Verbose"); (5%Z, "Debug"); (6%Z, "Information"); (7%Z, "All"); (8%Z, "Null"); (3%Z, "Output, Error")].
Definition merge (attribute name : String.string) (optional : bool) : row := Row attribute (FClass "PipelineResultTypes") name optional.
Definition host_answer : layout :=
  LObject [] [] [Row "ci" (FText "I64") "ci" false; Row "mi" (FClass "HostMethodIdentifier") "mi" false; Row "mr" FAny "mr" false; Row "me" (FClass "ErrorRecord") "me" true].

Definition forms : list (String.string * layout) :=
  [(* 2.2.2.1 *)
   ("SessionCapability", LObject [] [] [Row "protocol_version" (FText "Version") "protocolversion" false; Row "ps_version" (FText "Version") "PSVersion" false;
      Row "serialization_version" (FText "Version") "SerializationVersion" false; Row "time_zone" (FText "BA") "TimeZone" true]);
   (* 2.2.2.2 *)
   ("InitRunspacePool", LObject [] [] [Row "min_runspaces" (FText "I32") "MinRunspaces" false; Row "max_runspaces" (FText "I32") "MaxRunspaces" false;
      Row "thread_options" (FClass "PSThreadOptions") "PSThreadOptions" false; Row "apartment_state" (FClass "ApartmentState") "ApartmentState" false;
      Row "host_info" (FClass "HostInfo") "HostInfo" false;
      Row "application_arguments" (FDict ["System.Management.Automation.PSPrimitiveDictionary"; "System.Collections.Hashtable"; "System.Object"] FAny FAny) "ApplicationArguments" false]);
   (* 2.2.2.3 *)
   ("PublicKey", LObject [] [] [Row "public_key" (FText "S") "PublicKey" false]);
   (* 2.2.2.6, 2.2.2.7 *)
   ("SetMaxRunspaces", LObject [] [] [Row "max_runspaces" (FText "I32") "MaxRunspaces" false; Row "ci" (FText "I64") "CI" false]);
   ("SetMinRunspaces", LObject [] [] [Row "min_runspaces" (FText "I32") "MinRunspaces" false; Row "ci" (FText "I64") "CI" false]);
   (* 2.2.2.10 *)
   ("CreatePipeline", LObject [] [] [Row "no_input" (FText "B") "NoInput" false; Row "apartment_state" (FClass "ApartmentState") "ApartmentState" false;
      Row "remote_stream_options" (FClass "RemoteStreamOptions") "RemoteStreamOptions" false; Row "add_to_history" (FText "B") "AddToHistory" false;
      Row "host_info" (FClass "HostInfo") "HostInfo" false; Row "pipeline" (FClass "Pipeline") "PowerShell" false; Row "is_nested" (FText "B") "IsNested" false]);
   (* 2.2.2.11 *)
   ("GetAvailableRunspaces", LObject [] [] [Row "ci" (FText "I64") "ci" false]);
   (* 2.2.2.14 *)
   ("GetCommandMetadata", LObject [] [] [Row "names" (FList strings (FText "S")) "Name" false; Row "command_type" (FClass "CommandType") "CommandType" false;
      Row "namespace" FAny "Namespace" false; Row "argument_list" (FList objects FAny) "ArgumentList" false]);
   (* 2.2.2.16, 2.2.2.28 *)
   ("RunspacePoolHostResponse", host_answer); ("PipelineHostResponse", host_answer);
   (* 2.2.2.18 *)
   ("EndOfPipelineInput", LObject [] [] []);
   (* 2.2.2.29, 2.2.2.31 *)
   ("ConnectRunspacePool", LObject [] [] [Row "min_runspaces" (FText "I32") "MinRunspaces" true; Row "max_runspaces" (FText "I32") "MaxRunspaces" true]);
   ("ResetRunspaceState", LObject [] [] [Row "ci" (FText "I64") "ci" false]);
   (* 2.2.3.1, 2.2.3.2 *)
   ("Coordinates", LObject ["System.Management.Automation.Host.Coordinates"; "System.ValueType"; "System.Object"] [Row "x" (FText "I32") "X" false; Row "y" (FText "I32") "Y" false] []);
   ("Size", LObject ["System.Management.Automation.Host.Size"; "System.ValueType"; "System.Object"] [Row "width" (FText "I32") "Width" false; Row "height" (FText "I32") "Height" false] []);
   (* 2.2.3.3 *)
   ("Color", LEnum "System.ConsoleColor" (Some [(0%Z, "Black"); (1%Z, "DarkBlue"); (2%Z, "DarkGreen"); (3%Z, "DarkCyan"); (4%Z, "DarkRed"); (5%Z, "DarkMagenta"); (6%Z, "DarkYellow");
      (7%Z, "Gray"); (8%Z, "DarkGray"); (9%Z, "Blue"); (10%Z, "Green"); (11%Z, "Cyan"); (12%Z, "Red"); (13%Z, "Magenta"); (14%Z, "Yellow"); (15%Z, "White")]));
   (* 2.2.3.6, 2.2.3.7, 2.2.3.8 *)
   ("PSThreadOptions", LEnum "System.Management.Automation.Runspaces.PSThreadOptions" (Some [(0%Z, "Default"); (1%Z, "UseNewThread"); (2%Z, "ReuseThread"); (3%Z, "UseCurrentThread")]));
   ("ApartmentState", LEnum "System.Management.Automation.Runspaces.ApartmentState" (Some [(0%Z, "STA"); (1%Z, "MTA"); (2%Z, "Unknown"); (2%Z, "UNKNOWN")]));
   ("RemoteStreamOptions", LEnum "System.Management.Automation.Runspaces.RemoteStreamOptions" None);
   (* 2.2.3.11, 2.2.3.12, 2.2.3.13 *)
   ("Pipeline", LObject [] [] [Row "is_nested" (FText "B") "IsNested" false; Row "_extra_cmds" (FList psobjects (FClass "Pipeline._ExtraCmds")) "ExtraCmds" false;
      Row "_cmds" (FList psobjects (FClass "Command")) "Cmds" false; Row "history" (FText "S") "History" false; Row "redirect_err_to_out" (FText "B") "RedirectShellErrorOutputPipe" false]);
   ("Pipeline._ExtraCmds", LObject [] [] [Row "cmds" (FList psobjects (FClass "Command")) "Cmds" false]);
   ("Command", LObject [] [] [Row "cmd" (FText "S") "Cmd" false; Row "is_script" (FText "B") "IsScript" false; Row "use_local_scope" (FText "B") "UseLocalScope" false;
      merge "merge_my_result" "MergeMyResult" false; merge "merge_to_result" "MergeToResult" false; merge "merge_previous" "MergePreviousResults" false;
      Row "args" (FList psobjects (FClass "CommandParameter")) "Args" false;
      merge "merge_error" "MergeError" true; merge "merge_warning" "MergeWarning" true; merge "merge_verbose" "MergeVerbose" true; merge "merge_debug" "MergeDebug" true;
      merge "merge_information" "MergeInformation" true]);
   ("CommandParameter", LObject [] [] [Row "name" (FText "S") "N" false; Row "value" FAny "V" false]);
   ("PipelineResultTypes", LEnum "System.Management.Automation.Runspaces.PipelineResultTypes" (Some result_names));
   (* 2.2.3.14 *)
   ("HostInfo", LObject [] [] [Row "_host_data" (FClass "_HostDefaultData") "_hostDefaultData" true; Row "_is_host_null" (FText "B") "_isHostNull" false;
      Row "_is_host_ui_null" (FText "B") "_isHostUINull" false; Row "_is_host_raw_ui_null" (FText "B") "_isHostRawUINull" false; Row "_use_runspace_host" (FText "B") "_useRunspaceHost" false]);
   ("_HostDefaultData", LObject [] [] [Row "_host_dict" (FDict ["System.Collections.Hashtable"; "System.Object"] (FText "I32") FAny) "data" false]);
   ("_HostDefaultData._DictValue", LObject [] [] [Row "value_type" (FText "S") "T" false; Row "value" FAny "V" false]);
   ("_HostDefaultData._Color", LObject [] [] [Row "type" (FText "S") "T" false; Row "color" (FText "I32") "V" false]);
   ("_HostDefaultData._Coordinates", LObject [] [] [Row "type" (FText "S") "T" false; Row "value" FAny "V" false]);
   ("_HostDefaultData._Size", LObject [] [] [Row "type" (FText "S") "T" false; Row "value" FAny "V" false]);
   (* 2.2.3.17 *)
   ("HostMethodIdentifier", LEnum "System.Management.Automation.Remoting.RemoteHostMethodId"
      (Some [(1%Z, "GetName"); (2%Z, "GetVersion"); (3%Z, "GetInstanceId"); (4%Z, "GetCurrentCulture"); (5%Z, "GetCurrentUICulture"); (6%Z, "SetShouldExit");
        (7%Z, "EnterNestedPrompt"); (8%Z, "ExitNestedPrompt"); (9%Z, "NotifyBeginApplication"); (10%Z, "NotifyEndApplication"); (11%Z, "ReadLine"); (12%Z, "ReadLineAsSecureString");
        (13%Z, "Write1"); (14%Z, "Write2"); (15%Z, "WriteLine1"); (16%Z, "WriteLine2"); (17%Z, "WriteLine3"); (18%Z, "WriteErrorLine"); (19%Z, "WriteDebugLine");
        (20%Z, "WriteProgress"); (21%Z, "WriteVerboseLine"); (22%Z, "WriteWarningLine"); (23%Z, "Prompt"); (24%Z, "PromptForCredential1"); (25%Z, "PromptForCredential2");
        (26%Z, "PromptForChoice"); (27%Z, "GetForegroundColor"); (28%Z, "SetForegroundColor"); (29%Z, "GetBackgroundColor"); (30%Z, "SetBackgroundColor");
        (31%Z, "GetCursorPosition"); (32%Z, "SetCursorPosition"); (33%Z, "GetWindowPosition"); (34%Z, "SetWindowPosition"); (35%Z, "GetCursorSize"); (36%Z, "SetCursorSize");
        (37%Z, "GetBufferSize"); (38%Z, "SetBufferSize"); (39%Z, "GetWindowSize"); (40%Z, "SetWindowSize"); (41%Z, "GetWindowTitle"); (42%Z, "SetWindowTitle");
        (43%Z, "GetMaxWindowSize"); (44%Z, "GetMaxPhysicalWindowSize"); (45%Z, "GetKeyAvailable"); (46%Z, "ReadKey"); (47%Z, "FlushInputBuffer"); (48%Z, "SetBufferContents1");
        (49%Z, "SetBufferContents2"); (50%Z, "GetBufferContents"); (51%Z, "ScrollBufferContents"); (52%Z, "PushRunspace"); (53%Z, "PopRunspace"); (54%Z, "GetIsRunspacePushed");
        (55%Z, "GetRunspace"); (55%Z, "GetRunspce"); (56%Z, "PromptForChoiceMultipleSelection")]));
   (* 2.2.3.19 *)
   ("CommandType", LEnum "System.Management.Automation.CommandTypes" None);
   (* 2.2.3.25, 2.2.3.26, 2.2.3.28 *)
   ("PSCredential", LObject ["System.Management.Automation.PSCredential"; "System.Object"] [Row "username" (FText "S") "UserName" false; Row "password" (FText "SS") "Password" false] []);
   ("KeyInfo", LObject [] [] [Row "code" (FText "I32") "virtualKeyCode" true; Row "character" (FText "C") "character" false; Row "state" (FText "I32") "controlKeyState" false;
      Row "key_down" (FText "B") "keyDown" false]);
   ("BufferCell", LObject [] [Row "character" (FText "C") "character" false; Row "foreground_color" (FClass "Color") "foregroundColor" false;
      Row "background_color" (FClass "Color") "backgroundColor" false; Row "cell_type" (FText "I32") "bufferCellType" false] [])].
Local Close Scope string_scope.

(* ---- what tells a value in a form ---- *)
Definition naming (nm : option (list N)) : list (list N * list N) := match nm with Some n => [(lit "N", n)] | None => [] end.
Section Form.
  Context (ci : option cipher) (heap : list hobj).

  (* the texts of primitive types, 2.2.5.1 *)
  Inductive shows : String.string -> value -> list N -> Prop :=
  | sh_text : forall s, shows "S" (VStr s) (serialize_string s)
  | sh_int : forall tag z, In tag ["I32"; "I64"; "U32"]%string -> shows tag (VInt z) (py_str z)
  | sh_true : shows "B" (VBool true) (lit "true")
  | sh_false : shows "B" (VBool false) (lit "false")
  | sh_version : forall s, shows "Version" (VStr s) s
  | sh_char : forall c, shows "C" (VStr [c]) (dec c)
  | sh_bytes : forall b, shows "BA" (VBytes b) (b64encode b)
  | sh_secret : forall s t, serialize_secure_string ci s = Ok t -> shows "SS" (VStr s) t.
  (* type names: in full, or by the number they were given with *)
  Inductive typed : list String.string -> list xml -> Prop :=
  | ty_none : typed [] []
  | ty_full : forall ts id, ts <> [] -> typed ts [Elem (lit "TN") [(lit "RefId", dec id)] None (map (fun t => Elem (lit "T") [] (Some (lit t)) []) ts)]
  | ty_same : forall ts id, ts <> [] -> typed ts [Elem (lit "TNRef") [(lit "RefId", dec id)] None []].
  Definition called (names : option (list (Z * String.string))) (z : Z) (t : list N) : Prop :=
    match names with Some l => exists s, In (z, s) l /\ t = lit s | None => True end.
  Definition texts (xs : list xml) : Prop := xs = [] \/ exists t, xs = [Elem (lit "ToString") [] (Some t) []].
  Definition group (tag : String.string) (rows : list row) (es : list xml) : list xml := match rows with [] => [] | _ => [Elem (lit tag) [] None es] end.

  Inductive tells : form -> value -> option (list N) -> xml -> Prop :=
  | te_null : forall f nm, tells f VNone nm (Elem (lit "Nil") (naming nm) None [])
  | te_text : forall tag v t nm, shows tag v t -> tells (FText tag) v nm (Elem (lit tag) (naming nm) (Some t) [])
  | te_enum : forall c type names n attrs z nm id ty t,
      In (c, LEnum type names) forms -> nth_error heap n = Some (HCls (lit c) attrs) -> dict_get str_eqb (lit "value") attrs = Some (VInt z) ->
      typed [type; "System.Enum"; "System.ValueType"; "System.Object"]%string ty -> called names z t ->
      tells (FClass c) (VObj n) nm (Elem (lit "Obj") ((lit "RefId", dec id) :: naming nm) None
        (ty ++ [Elem (lit "ToString") [] (Some t) []; Elem (lit "I32") [] (Some (py_str z)) []]))
  | te_object : forall c types ad ex n attrs nm id ty said es ps,
      In (c, LObject types ad ex) forms -> nth_error heap n = Some (HCls (lit c) attrs) -> typed types ty -> texts said -> tell_rows attrs ex es -> tell_rows attrs ad ps ->
      tells (FClass c) (VObj n) nm (Elem (lit "Obj") ((lit "RefId", dec id) :: naming nm) None (ty ++ said ++ group "MS" ex es ++ group "Props" ad ps))
  | te_list : forall types f vs es nm id ty, typed types ty -> tell_all f vs es ->
      tells (FList types f) (VList vs) nm (Elem (lit "Obj") ((lit "RefId", dec id) :: naming nm) None (ty ++ [Elem (lit "LST") [] None es]))
  | te_dict : forall types k f v l es nm id ty, v = VDict l \/ v = VTuple l -> typed types ty -> tell_pairs k f l es ->
      tells (FDict types k f) v nm (Elem (lit "Obj") ((lit "RefId", dec id) :: naming nm) None (ty ++ [Elem (lit "DCT") [] None es]))
  | te_any : forall v nm x, attr_get (lit "N") x = nm \/ nm = None -> tells FAny v nm x
  (* the properties in order, without those that are left out *)
  with tell_rows : list (list N * value) -> list row -> list xml -> Prop :=
  | tr_nil : forall attrs, tell_rows attrs [] []
  | tr_out : forall attrs a f name rows es, dict_get str_eqb (lit a) attrs = Some VNone -> tell_rows attrs rows es -> tell_rows attrs (Row a f name true :: rows) es
  | tr_in : forall attrs a f name o v rows e es, dict_get str_eqb (lit a) attrs = Some v -> tells f v (Some (lit name)) e -> tell_rows attrs rows es ->
      tell_rows attrs (Row a f name o :: rows) (e :: es)
  (* an object that was written before, without its name *)
  | tr_again : forall attrs a name o n g id rows es, dict_get str_eqb (lit a) attrs = Some (VObj n) -> nth_error heap n = Some (HGen g) -> tell_rows attrs rows es ->
      tell_rows attrs (Row a FAny name o :: rows) (Elem (lit "Ref") [(lit "RefId", dec id)] None [] :: es)
  with tell_all : form -> list value -> list xml -> Prop :=
  | ta_nil : forall f, tell_all f [] []
  | ta_cons : forall f v vs e es, tells f v None e -> tell_all f vs es -> tell_all f (v :: vs) (e :: es)
  with tell_pairs : form -> form -> list (value * value) -> list xml -> Prop :=
  | tp_nil : forall k f, tell_pairs k f [] []
  | tp_cons : forall k f a v l x y es, tells k a (Some (lit "Key")) x -> tells f v (Some (lit "Value")) y -> tell_pairs k f l es ->
      tell_pairs k f ((a, v) :: l) (Elem (lit "En") [] None [x; y] :: es).

  (* ---- values that are of a form, as far as they can be seen ---- *)
  Inductive suits : form -> value -> Prop :=
  | su_none : forall f, suits f VNone
  | su_text : forall tag v t, shows tag v t -> suits (FText tag) v
  | su_class : forall c n attrs, In c (map fst forms) -> nth_error heap n = Some (HCls (lit c) attrs) -> suits (FClass c) (VObj n)
  | su_list : forall ts f vs, suit_all f vs -> suits (FList ts f) (VList vs)
  | su_dict : forall ts k f v l, v = VDict l \/ v = VTuple l -> suit_pairs k f l -> suits (FDict ts k f) v
  | su_any : forall v, suits FAny v
  with suit_all : form -> list value -> Prop :=
  | sa_nil : forall f, suit_all f []
  | sa_cons : forall f v vs, suits f v -> suit_all f vs -> suit_all f (v :: vs)
  with suit_pairs : form -> form -> list (value * value) -> Prop :=
  | sp_nil : forall k f, suit_pairs k f []
  | sp_cons : forall k f a v l, suits k a -> suits f v -> suit_pairs k f l -> suit_pairs k f ((a, v) :: l).
  (* instances with attributes of their forms *)
  Definition suited (attrs : list (list N * value)) (r : row) : Prop :=
    match r with Row a f _ _ => forall v, dict_get str_eqb (lit a) attrs = Some v -> suits f v end.
  Definition in_form : Prop := forall n c attrs, nth_error heap n = Some (HCls (lit c) attrs) ->
    (forall types ad ex, In (c, LObject types ad ex) forms -> Forall (suited attrs) ad /\ Forall (suited attrs) ex) /\
    (forall type names, In (c, LEnum type names) forms -> forall v, dict_get str_eqb (lit "value") attrs = Some v -> exists z, v = VInt z).
End Form.
