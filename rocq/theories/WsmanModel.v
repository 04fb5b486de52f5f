(* Model of the WSMan class, src/pypsrp/wsman.py:124-729, and of the texts of
   the errors of src/pypsrp/exceptions.py. *)
From Verif Require Import Base Lit NumModel XmlModel TransModel.

(* wsman.py:51-76, the entries used *)
Definition ns_s : list N := lit "http://www.w3.org/2003/05/soap-envelope".
Definition ns_wsa : list N := lit "http://schemas.xmlsoap.org/ws/2004/08/addressing".
Definition ns_wsman : list N := lit "http://schemas.dmtf.org/wbem/wsman/1/wsman.xsd".
Definition ns_wsmv : list N := lit "http://schemas.microsoft.com/wbem/wsman/1/wsman.xsd".
Definition ns_wsmanfault : list N := lit "http://schemas.microsoft.com/wbem/wsman/1/wsmanfault".
Definition ns_xml : list N := lit "http://www.w3.org/XML/1998/namespace".
Definition ns_cfg : list N := lit "http://schemas.microsoft.com/wbem/wsman/1/config".
Definition ns_rsp : list N := lit "http://schemas.microsoft.com/wbem/wsman/1/windows/shell".

(* ---- option and selector sets: wsman.py:677-729 ---- *)
Record wset := { ws_element : list N; ws_child : list N; ws_must : bool;
                 ws_values : list (list N * list N * list (list N * list N)) }.
Definition option_set : wset := {| ws_element := lit "OptionSet"; ws_child := lit "Option"; ws_must := true; ws_values := [] |}.
Definition selector_set : wset := {| ws_element := lit "SelectorSet"; ws_child := lit "Selector"; ws_must := false; ws_values := [] |}.

(* wsman.py:702-709; values are texts here (pack applies str to them) *)
Definition add_option (s : wset) (name value : list N) (attributes : list (list N * list N)) : wset :=
  {| ws_element := ws_element s; ws_child := ws_child s; ws_must := ws_must s;
     ws_values := ws_values s ++ [(name, value, attributes)] |}.

(* wsman.py:711-723.  SubElement(element, tag, attrib, Name=key) merges the two
   with the keyword last: it replaces an entry of the same name. *)
Definition must_understand : list N * list N := (qname ns_s (lit "mustUnderstand"), lit "true").
Definition must_not_understand : list N * list N := (qname ns_s (lit "mustUnderstand"), lit "false").
Definition pack_entry (s : wset) (v : list N * list N * list (list N * list N)) : xml :=
  let '(key, value, attributes) := v in
  Elem (qname ns_wsman (ws_child s)) (dict_set str_eqb (lit "Name") key attributes) (Some value) [].
Definition pack_set (s : wset) : xml :=
  Elem (qname ns_wsman (ws_element s)) (if ws_must s then [must_understand] else []) None
    (map (pack_entry s) (ws_values s)).

(* ---- requests: wsman.py:444-490, 559-619 ---- *)
Record wsman := {
  w_session_id : list N; w_locale : list N; w_data_locale : list N;
  w_endpoint : list N; w_max_envelope : Z; w_operation_timeout : Z }.

(* str.upper on the characters of a UUID text *)
Definition upper_ascii (c : N) : N := if (N.leb 97 c && N.leb c 122)%bool then (c - 32)%N else c.
Definition upper_text (s : list N) : list N := map upper_ascii s.

(* timeout or self.operation_timeout *)
Definition or_default (timeout : option Z) (d : Z) : Z :=
  match timeout with Some z => if Z.eqb z 0 then d else z | None => d end.

(* wsman.py:559-619 _create_header; [uuid] is the text of the fresh uuid4 *)
Definition message_id (uuid : list N) : list N := lit "uuid:" ++ upper_text uuid.
Definition create_header (w : wsman) (uuid action resource_uri : list N)
    (options selectors : option wset) (timeout : option Z) : xml :=
  Elem (qname ns_s (lit "Header")) [] None
    ([ Elem (qname ns_wsa (lit "Action")) [must_understand] (Some action) [];
       Elem (qname ns_wsmv (lit "DataLocale")) [must_not_understand; (qname ns_xml (lit "lang"), w_data_locale w)] None [];
       Elem (qname ns_wsman (lit "Locale")) [must_not_understand; (qname ns_xml (lit "lang"), w_locale w)] None [];
       Elem (qname ns_wsman (lit "MaxEnvelopeSize")) [must_understand] (Some (py_str (w_max_envelope w))) [];
       Elem (qname ns_wsa (lit "MessageID")) [] (Some (message_id uuid)) [];
       Elem (qname ns_wsman (lit "OperationTimeout")) []
         (Some (lit "PT" ++ py_str (or_default timeout (w_operation_timeout w)) ++ lit "S")) [];
       Elem (qname ns_wsa (lit "ReplyTo")) [] None
         [Elem (qname ns_wsa (lit "Address")) [must_understand]
            (Some (lit "http://schemas.xmlsoap.org/ws/2004/08/addressing/role/anonymous")) []];
       Elem (qname ns_wsman (lit "ResourceURI")) [must_understand] (Some resource_uri) [];
       Elem (qname ns_wsmv (lit "SessionId")) [must_not_understand]
         (Some (lit "uuid:" ++ upper_text (w_session_id w))) [];
       Elem (qname ns_wsa (lit "To")) [] (Some (w_endpoint w)) [] ]
     ++ match options with Some s => [pack_set s] | None => [] end
     ++ match selectors with Some s => [pack_set s] | None => [] end).

(* wsman.py:470-490 *)
Definition envelope (w : wsman) (uuid action resource_uri : list N) (resource : option xml)
    (options selectors : option wset) (timeout : option Z) : xml :=
  Elem (qname ns_s (lit "Envelope")) [] None
    [ create_header w uuid action resource_uri options selectors timeout;
      Elem (qname ns_s (lit "Body")) [] None (match resource with Some r => [r] | None => [] end) ].

(* wsman.py:474-480 *)
Definition http_timeout (timeout : option Z) : option Z :=
  match timeout with Some z => if Z.eqb z 0 then None else Some (z + 2)%Z | None => None end.

(* wsman.py:908: how long the HTTP client waits for data, from the timeout given
   to send or the transport's read_timeout *)
Definition read_wait (timeout : option Z) (read_timeout : Z) : Z :=
  match timeout with Some z => z | None => read_timeout end.

(* ---- faults: wsman.py:624-674 ---- *)
Inductive fcode : Type := CNone | CText (s : list N) | CInt (z : Z).
Record fault := {
  f_code : fcode; f_machine : option (list N); f_reason : option (list N);
  f_provider : option (list N); f_path : option (list N); f_pfault : option (list N) }.

Definition nonempty_text (t : option (list N)) : option (list N) :=
  match t with Some [] => None | _ => t end.
Definition strip_text (t : option (list N)) : option (list N) :=
  match nonempty_text t with Some s => Some (py_strip s) | None => None end.
Definition p_fault : list (list N) := [qname ns_s (lit "Body"); qname ns_s (lit "Fault")].
Definition p_subcode : list (list N) := [qname ns_s (lit "Code"); qname ns_s (lit "Subcode"); qname ns_s (lit "Value")].
Definition p_code : list (list N) := [qname ns_s (lit "Code"); qname ns_s (lit "Value")].
Definition p_reason : list (list N) := [qname ns_s (lit "Reason"); qname ns_s (lit "Text")].
Definition p_detail : list (list N) := [qname ns_s (lit "Detail"); qname ns_wsmanfault (lit "WSManFault")].
Definition p_message : list (list N) := [qname ns_wsmanfault (lit "Message")].
Definition p_provider : list (list N) := [qname ns_wsmanfault (lit "Message"); qname ns_wsmanfault (lit "ProviderFault")].

Definition text_at (path : list (list N)) (x : xml) : option (list N) :=
  match find_first path x with Some y => x_text y | None => None end.

Definition parse_fault (x : xml) : fault :=
  let fault := find_first p_fault x in
  let code := match fault with
    | Some f => match find_first p_subcode f with Some y => x_text y | None => text_at p_code f end
    | None => None end in
  let reason := match fault with Some f => text_at p_reason f | None => None end in
  let detail := match fault with Some f => find_first p_detail f | None => None end in
  let '(code, machine, reason, provider, path, pfault) :=
    match detail with
    | None => (code, None, reason, None, None, None)
    | Some d =>
        let code := match attr_get (lit "Code") d with Some c => Some c | None => code end in
        let machine := attr_get (lit "Machine") d in
        let reason := match find_first p_message d with
          | Some m => match nonempty_text (x_text m) with Some t => Some t | None => reason end
          | None => reason end in
        match find_first p_provider d with
        | Some p => (code, machine, reason, attr_get (lit "provider") p, attr_get (lit "path") p, x_text p)
        | None => (code, machine, reason, None, None, None)
        end
    end in
  let code := match py_int (match code with Some c => c | None => [] end) with
    | Ok z => CInt z
    | Err _ => match code with Some c => CText c | None => CNone end
    end in
  {| f_code := code; f_machine := machine; f_reason := strip_text reason;
     f_provider := provider; f_path := path; f_pfault := strip_text pfault |}.

(* exceptions.py:74-102 WSManFaultError.message *)
Definition code_text (c : fcode) : option (list N) :=
  match c with
  | CNone => None
  | CText s => nonempty_text (Some s)
  | CInt z => if Z.eqb z 0 then None else Some (py_str z)
  end.
Definition detail (label : list N) (t : option (list N)) : list (list N) :=
  match nonempty_text t with Some s => [label ++ s] | None => [] end.
Definition fault_details (f : fault) : list (list N) :=
  detail (lit "Code: ") (code_text (f_code f)) ++ detail (lit "Machine: ") (f_machine f) ++
  detail (lit "Reason: ") (f_reason f) ++ detail (lit "Provider: ") (f_provider f) ++
  detail (lit "Provider Path: ") (f_path f) ++ detail (lit "Provider Fault: ") (f_pfault f).
Definition fault_message (f : fault) : list N :=
  let ds := match fault_details f with [] => [lit "No details returned by the server"] | ds => ds end in
  lit "Received a WSManFault message. (" ++ join (lit ", ") ds ++ lit ")".

(* exceptions.py:31-36 WinRMTransportError.message for the protocol http *)
Definition transport_message (code : Z) (text : list N) : list N :=
  lit "Bad HTTP response returned from the server. Code: " ++ py_str code ++ lit ", Content: '" ++ text ++ lit "'".

(* ---- invoke: wsman.py:484-520 ---- *)
(* What invoke gives: the response, one of the two rich errors, or another
   exception; an answer that is no XML raises ParseError, [OtherError] here. *)
Inductive iresult : Type :=
| IOk (x : xml)
| IFault (f : fault)
| IHttp (code : Z) (text : list N)
| IExn (e : exn).

Definition p_relates : list (list N) := [qname ns_s (lit "Header"); qname ns_wsa (lit "RelatesTo")].

Section Invoke.
  (* the transport: a state, and send with the retry limit and the timeout;
     ET.fromstring on a response body and on the text of an error *)
  Context {S : Type} (send : S -> xml -> nat -> option Z -> reply * S).
  Context (parse_body : list N -> option xml) (parse_text : list N -> option xml).

  Definition invoke (w : wsman) (uuid action resource_uri : list N) (resource : option xml)
      (options selectors : option wset) (timeout : option Z) (retries : nat) (st : S) : iresult * S :=
    let request := envelope w uuid action resource_uri resource options selectors timeout in
    let '(r, st') := send st request retries (http_timeout timeout) in
    (match r with
     | RHttp code text =>
         match parse_text text with
         | Some x => IFault (parse_fault x)
         | None => IHttp code text
         end
     | RExn e => IExn e
     | RBody b =>
         match parse_body b with
         | None => IExn OtherError
         | Some x =>
             let relates_to := match find_first p_relates x with Some y => x_text y | None => Some [] end in
             match relates_to with
             | Some t => if str_eqb (message_id uuid) t then IOk x else IExn WinRMError
             | None => IExn WinRMError
             end
         end
     end, st').

  (* wsman.py:260-418: the methods, by their action and retry limit *)
  Inductive wop : Type :=
  | OpCommand | OpConnect | OpCreate | OpDisconnect | OpDelete | OpEnumerate | OpGet | OpPull | OpPut
  | OpReceive | OpReconnect | OpSend | OpSignal.
  Definition shell_action (s : list N) : list N := ns_rsp ++ lit "/" ++ s.
  Definition transfer_action (s : list N) : list N := lit "http://schemas.xmlsoap.org/ws/2004/09/transfer/" ++ s.
  Definition enum_action (s : list N) : list N := lit "http://schemas.xmlsoap.org/ws/2004/09/enumeration/" ++ s.
  Definition op_action (o : wop) : list N :=
    match o with
    | OpCommand => shell_action (lit "Command") | OpConnect => shell_action (lit "Connect")
    | OpCreate => transfer_action (lit "Create") | OpDisconnect => shell_action (lit "Disconnect")
    | OpDelete => transfer_action (lit "Delete") | OpEnumerate => enum_action (lit "Enumerate")
    | OpGet => transfer_action (lit "Get") | OpPull => enum_action (lit "Pull")
    | OpPut => transfer_action (lit "Put") | OpReceive => shell_action (lit "Receive")
    | OpReconnect => shell_action (lit "Reconnect") | OpSend => shell_action (lit "Send")
    | OpSignal => shell_action (lit "Signal")
    end.
  Definition op_retries (o : wop) : nat := match o with OpReceive => 5 | _ => 0 end.

  (* the result of a method: the Body element of the response, None when it has none *)
  Inductive wresult : Type :=
  | WBody (b : option xml)
  | WFault (f : fault)
  | WHttp (code : Z) (text : list N)
  | WExn (e : exn).
  Definition run_op (w : wsman) (o : wop) (uuid resource_uri : list N) (resource : option xml)
      (options selectors : option wset) (timeout : option Z) (st : S) : wresult * S :=
    let '(r, st') := invoke w uuid (op_action o) resource_uri resource options selectors timeout (op_retries o) st in
    (match r with
     | IOk x => WBody (find_first [qname ns_s (lit "Body")] x)
     | IFault f => WFault f
     | IHttp c t => WHttp c t
     | IExn e => WExn e
     end, st').
End Invoke.

(* wsman.py:423-442 update_max_payload_size(None), on the Body of the
   configuration; the second component is the new max_envelope_size *)
Definition config_size (body : xml) : res Z :=
  let t := match find_first [qname ns_cfg (lit "Config"); qname ns_cfg (lit "MaxEnvelopeSizekb")] body with
           | Some y => x_text y | None => Some [] end in
  do n <- py_int (match nonempty_text t with Some s => s | None => lit "0" end);
  Ok (n * 1024)%Z.
