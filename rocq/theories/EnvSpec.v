(* What a server reads in the bytes of a WSMan request, apart from how they are
   made. *)
From Verif Require Import Base Lit NumModel TextSpec TextModel Utf8Model XmlModel XtModel XtSpec WsmanModel WsmanSpec ShellModel ShellSpec.

(* ---- reading elements ---- *)
(* the text of an element; an element without any says the empty one *)
Definition words (x : xml) : list N := match text_of (Some x) with Some t => t | None => [] end.
(* the only child with this tag *)
Definition sole (tag : list N) (x c : xml) : Prop :=
  exists before after, x_children x = before ++ c :: after /\ x_tag c = tag /\ Forall (fun d => x_tag d <> tag) (before ++ after).
Definition lacks (tag : list N) (x : xml) : Prop := Forall (fun d => x_tag d <> tag) (x_children x).
(* the only child with this tag says [text]: line ends are those of XML *)
Definition field (x : xml) (tag text : list N) : Prop := exists c, sole tag x c /\ line_fed text (words c).
Definition field_if (x : xml) (tag : list N) (text : option (list N)) : Prop :=
  match text with Some t => field x tag t | None => lacks tag x end.
(* an element that is nothing but its name, its attributes and this text *)
Definition leaf (tag : list N) (attributes : list (list N * list N)) (text : list N) (c : xml) : Prop :=
  x_tag c = tag /\ x_children c = [] /\ line_fed text (words c) /\ forall k, attr k (Some c) = dict_get str_eqb k attributes.

(* an entry of a set of options or of selectors *)
Notation entry := (list N * list N * list (list N * list N))%type.
Definition entry_read (tag : list N) (e : entry) (c : xml) : Prop :=
  x_tag c = tag /\ x_children c = [] /\ line_fed (snd (fst e)) (words c) /\ attr (lit "Name") (Some c) = Some (fst (fst e)) /\
  forall k, k <> lit "Name" -> attr k (Some c) = dict_get str_eqb k (snd e).
Definition set_read (tag child : list N) (es : option (list entry)) (header : xml) : Prop :=
  match es with
  | None => lacks tag header
  | Some es => exists c, sole tag header c /\ Forall2 (entry_read child) es (x_children c)
  end.

(* ---- what a request asks ---- *)
Record asked := { a_op : wop; a_uri : list N; a_options : option (list entry); a_selectors : option (list entry); a_timeout : option Z }.
Definition seconds (z : Z) : list N := lit "PT" ++ py_str z ++ lit "S".
(* the envelope [y] asks for [a] on behalf of [w]; [body] is its body *)
Definition asks (w : wsman) (uuid : list N) (a : asked) (y body : xml) : Prop :=
  x_tag y = soap (lit "Envelope") /\ sole (soap (lit "Body")) y body /\
  exists header, sole (soap (lit "Header")) y header /\
    field header (addressing (lit "Action")) (standard_action (a_op a)) /\
    field header (dmtf (lit "ResourceURI")) (a_uri a) /\
    field header (addressing (lit "To")) (w_endpoint w) /\
    field header (addressing (lit "MessageID")) (lit "uuid:" ++ upper_text uuid) /\
    field header (microsoft (lit "SessionId")) (lit "uuid:" ++ upper_text (w_session_id w)) /\
    field header (dmtf (lit "MaxEnvelopeSize")) (py_str (w_max_envelope w)) /\
    field header (dmtf (lit "OperationTimeout")) (seconds (or_default (a_timeout a) (w_operation_timeout w))) /\
    (exists c, sole (dmtf (lit "Locale")) header c /\ attr (lit "{http://www.w3.org/XML/1998/namespace}lang") (Some c) = Some (w_locale w)) /\
    (exists c, sole (microsoft (lit "DataLocale")) header c /\ attr (lit "{http://www.w3.org/XML/1998/namespace}lang") (Some c) = Some (w_data_locale w)) /\
    set_read (dmtf (lit "OptionSet")) (dmtf (lit "Option")) (a_options a) header /\
    set_read (dmtf (lit "SelectorSet")) (dmtf (lit "Selector")) (a_selectors a) header.
(* the bytes can be read as XML, and what is read satisfies [P] *)
Definition received (b : bytes) (P : xml -> Prop) : Prop :=
  bytes_ok b /\ exists s y, utf8_decode b = Ok s /\ xml_parse s = Some y /\ P y.

(* ---- texts that can be written ---- *)
Definition fit (s : list N) : Prop := Forall xml_char s.
Definition fit_entry (e : entry) : Prop :=
  fit (fst (fst e)) /\ fit (snd (fst e)) /\ NoDup (map fst (snd e)) /\
  Forall (fun kv => xml_name (fst kv) /\ fst kv <> lit "xmlns" /\ fit (snd kv)) (snd e).
Definition fit_set (es : option (list entry)) : Prop := match es with Some l => Forall fit_entry l | None => True end.
Definition fit_wsman (w : wsman) : Prop := fit (w_session_id w) /\ fit (w_locale w) /\ fit (w_data_locale w) /\ fit (w_endpoint w).
Definition fit_opt (s : option (list N)) : Prop := match s with Some t => fit t | None => True end.

(* ---- what the bodies of the shell's requests say ---- *)
(* a command to run: the executable, then the arguments in their order *)
Definition runs (executable : list N) (arguments : list (list N)) (id : option (list N)) (body : xml) : Prop :=
  exists c command args, x_children body = [c] /\ x_tag c = rshell (lit "CommandLine") /\ attr (lit "CommandId") (Some c) = id /\
    x_children c = command :: args /\ leaf (rshell (lit "Command")) [] executable command /\
    Forall2 (leaf (rshell (lit "Arguments")) []) arguments args.
(* input for a stream of a command *)
Definition feeds (stream : list N) (data : bytes) (id : option (list N)) (end_ : option bool) (body : xml) : Prop :=
  exists c d, x_children body = [c] /\ x_tag c = rshell (lit "Send") /\ x_children c = [d] /\ x_tag d = rshell (lit "Stream") /\
    x_children d = [] /\ attr (lit "Name") (Some d) = Some stream /\ attr (lit "CommandId") (Some d) = id /\
    attr (lit "End") (Some d) = option_map (fun b : bool => if b then lit "True" else lit "False") end_ /\
    b64decode (words d) = Ok data.
Definition polls (stream : list N) (id : option (list N)) (body : xml) : Prop :=
  exists c d, x_children body = [c] /\ x_tag c = rshell (lit "Receive") /\ x_children c = [d] /\
    leaf (rshell (lit "DesiredStream")) (match id with Some i => [(lit "CommandId", i)] | None => [] end) stream d.
Definition signals (code id : list N) (body : xml) : Prop :=
  exists c d, x_children body = [c] /\ x_tag c = rshell (lit "Signal") /\ attr (lit "CommandId") (Some c) = Some id /\
    x_children c = [d] /\ leaf (rshell (lit "Code")) [] code d.
(* a shell to create, with further content *)
Definition settles (s : shell) (content : option xml) (body : xml) : Prop :=
  exists c, x_children body = [c] /\ x_tag c = rshell (lit "Shell") /\ attr (lit "ShellId") (Some c) = sh_id s /\
    field c (rshell (lit "InputStreams")) (sh_input s) /\
    field c (rshell (lit "OutputStreams")) (match sh_output s with Some t => t | None => [] end) /\
    match sh_env s with
    | None => lacks (rshell (lit "Environment")) c
    | Some env => exists e, sole (rshell (lit "Environment")) c e /\
        Forall2 (fun kv v => leaf (rshell (lit "Variable")) [(lit "Name", fst kv)] (snd kv) v) env (x_children e)
    end /\
    field_if c (rshell (lit "IdleTimeOut")) (option_map (fun t => lit "PT" ++ t ++ lit "S") (sh_idle s)) /\
    field_if c (rshell (lit "Lifetime")) (option_map seconds (sh_lifetime s)) /\
    field_if c (rshell (lit "Name")) (sh_name s) /\
    field_if c (rshell (lit "WorkingDirectory")) (sh_dir s) /\
    (forall x, content = Some x -> exists d, sole (x_tag x) c d /\ arrives x d).
Definition fit_content (content : option xml) : Prop :=
  forall x, content = Some x -> writable x /\
    Forall (fun name => x_tag x <> rshell name)
      [lit "InputStreams"; lit "OutputStreams"; lit "Environment"; lit "IdleTimeOut"; lit "Lifetime"; lit "Name"; lit "WorkingDirectory"].
Definition fit_shell (s : shell) : Prop :=
  fit_opt (sh_id s) /\ fit_opt (sh_uri s) /\ fit (sh_input s) /\ fit_opt (sh_output s) /\ fit_opt (sh_idle s) /\ fit_opt (sh_name s) /\
  fit_opt (sh_dir s) /\ match sh_env s with Some env => Forall (fun kv => fit (fst kv) /\ fit (snd kv)) env | None => True end.
(* the options a shell is created with *)
Definition settings (s : shell) (base : option (list entry)) : list entry :=
  match base with Some l => l | None => [] end ++
  (if sh_no_profile s then [(lit "WINRS_NOPROFILE", lit "TRUE", [(lit "MustComply", lit "true")])] else []) ++
  match sh_codepage s with Some z => [(lit "WINRS_CODEPAGE", py_str z, [])] | None => [] end.

(* ---- the uses of a shell ---- *)
(* an answer whose texts and attributes are made of XML characters, as those of
   any XML document are *)
Fixpoint spoken (x : xml) : Prop :=
  match x with
  | Elem _ a txt kids =>
      Forall (fun kv => fit (snd kv)) a /\ fit_opt txt /\
      (fix all (l : list xml) : Prop := match l with [] => True | y :: l' => spoken y /\ all l' end) kids
  end.
Definition speaks (srv : history -> sreq -> wresult) : Prop := forall h q b, srv h q = WBody (Some b) -> spoken b.
(* the selectors of a shell: none, or a set built from these entries *)
Definition selected (s : shell) (ses : option (list entry)) : Prop := sh_selectors s = option_map (built selector_set) ses.
(* a shell whose settings can be written *)
Definition ready (s : shell) : Prop := fit_shell s /\ exists ses, selected s ses /\ fit_set ses.
(* a use whose texts can be written *)
Definition fit_use (o : shop) : Prop :=
  match o with
  | SOpen base content => fit_content content /\ exists es, base = option_map (built option_set) es /\ fit_set es
  | SClose => True
  | SCommand x a _ id => fit x /\ Forall fit (match a with Some l => l | None => [] end) /\ fit_opt id
  | SReceive stream id _ => fit stream /\ fit_opt id
  | SSend stream d id _ => fit stream /\ bytes_ok d /\ fit_opt id
  | SSignal code id => fit code /\ fit id
  | SGet _ => True
  end.
Definition plain_request (o : wop) (s : shell) (ses : option (list entry)) : asked :=
  {| a_op := o; a_uri := match sh_uri s with Some u => u | None => [] end; a_options := None; a_selectors := ses; a_timeout := None |}.
(* what the server reads of a use of the shell [s], whose selectors are [ses] *)
Definition read_as (w : wsman) (uuid : list N) (o : shop) (s : shell) (ses : option (list entry)) (y : xml) : Prop :=
  exists body,
  match o with
  | SOpen base content => exists es, base = option_map (built option_set) es /\
      asks w uuid {| a_op := OpCreate; a_uri := match sh_uri s with Some u => u | None => [] end;
                     a_options := match settings s es with [] => None | l => Some l end; a_selectors := None; a_timeout := None |} y body /\
      settles s content body
  | SClose => asks w uuid (plain_request OpDelete s ses) y body /\ x_children body = []
  | SCommand x a no_shell id =>
      asks w uuid {| a_op := OpCommand; a_uri := match sh_uri s with Some u => u | None => [] end;
                     a_options := Some [(lit "WINRS_SKIP_CMD_SHELL", if no_shell then lit "True" else lit "False", [])];
                     a_selectors := ses; a_timeout := None |} y body /\
      runs x (match a with Some l => l | None => [] end) id body
  | SReceive stream id timeout =>
      asks w uuid {| a_op := OpReceive; a_uri := match sh_uri s with Some u => u | None => [] end;
                     a_options := Some [(lit "WSMAN_CMDSHELL_OPTION_KEEPALIVE", lit "True", [])]; a_selectors := ses; a_timeout := timeout |} y body /\
      polls stream id body
  | SSend stream d id end_ => asks w uuid (plain_request OpSend s ses) y body /\ feeds stream d id end_ body
  | SSignal code id => asks w uuid (plain_request OpSignal s ses) y body /\ signals code id body
  | SGet timeout =>
      asks w uuid {| a_op := OpGet; a_uri := lit "http://schemas.microsoft.com/wbem/wsman/1/windows/shell"; a_options := None;
                     a_selectors := ses; a_timeout := timeout |} y body /\ x_children body = []
  end.
(* a use that is no request: opening an open shell, closing one that is not *)
Definition idle (o : shop) (s : shell) : Prop :=
  (sh_opened s = true /\ exists b c, o = SOpen b c) \/ (sh_opened s = false /\ o = SClose).
