(* C19, C45, C48, and further parts of C18 and C36. *)
From Verif Require Import Base Lit NumModel XmlModel TransModel TransSpec WsmanModel WsmanSpec WsmanProofs WsmanProofs2.

(* ---- a toy server: answers are given by the state ---- *)
Definition toy_w : wsman := {| w_session_id := lit "5e55-10ff"; w_locale := lit "en-US"; w_data_locale := lit "en-US";
  w_endpoint := lit "http://h:5985/wsman"; w_max_envelope := 153600; w_operation_timeout := 20 |}.
Definition toy_send (st : reply) (request : xml) (retries : nat) (timeout : option Z) : reply * reply := (st, st).
Definition toy_answer (relates : xml) : xml :=
  Elem (soap (lit "Envelope")) [] None [Elem (soap (lit "Header")) [] None [relates]; Elem (soap (lit "Body")) [] None []].
(* texts stand for the documents they name *)
Definition toy_fault : xml :=
  Elem (soap (lit "Envelope")) [] None [Elem (soap (lit "Body")) [] None [Elem (soap (lit "Fault")) [] None [
    Elem (soap (lit "Code")) [] None [
      Elem (soap (lit "Value")) [] (Some (lit "s:Receiver")) [];
      Elem (soap (lit "Subcode")) [] None [Elem (soap (lit "Value")) [] (Some (lit "w:TimedOut")) []]];
    Elem (soap (lit "Reason")) [] None [Elem (soap (lit "Text")) [] (Some (lit "too late")) []];
    Elem (soap (lit "Detail")) [] None [
      Elem (faulted (lit "WSManFault")) [(lit "Code", lit "2150858793"); (lit "Machine", lit "h")] None [
        Elem (faulted (lit "Message")) [] (Some (lit " The wait ended. ")) []]]]]].
Definition toy_parse (s : list N) : option xml :=
  if str_eqb s (lit "right") then Some (toy_answer (Elem (addressing (lit "RelatesTo")) [] (Some (lit "uuid:AB-12")) []))
  else if str_eqb s (lit "other") then Some (toy_answer (Elem (addressing (lit "RelatesTo")) [] (Some (lit "uuid:AB-13")) []))
  else if str_eqb s (lit "silent") then Some (toy_answer (Elem (addressing (lit "To")) [] (Some (lit "uuid:AB-12")) []))
  else if str_eqb s (lit "fault") then Some toy_fault else None.
Definition toy_invoke (st : reply) : iresult :=
  fst (invoke toy_send toy_parse toy_parse toy_w (lit "ab-12") (lit "act") (lit "uri") None None None None 0 st).

(* C19: the headers of a request: one message id, action, resource, timeout,
   envelope size, session and endpoint each. *)
Theorem C19_request_headers : forall w uuid action uri resource options selectors timeout,
  set_tags options -> set_tags selectors ->
  let request := envelope w uuid action uri resource options selectors timeout in
  header_field request (addressing (lit "Action")) action /\
  header_field request (dmtf (lit "MaxEnvelopeSize")) (py_str (w_max_envelope w)) /\
  header_field request (addressing (lit "MessageID")) (lit "uuid:" ++ upper_text uuid) /\
  header_field request (dmtf (lit "OperationTimeout"))
    (lit "PT" ++ py_str (or_default timeout (w_operation_timeout w)) ++ lit "S") /\
  header_field request (dmtf (lit "ResourceURI")) uri /\
  header_field request (microsoft (lit "SessionId")) (lit "uuid:" ++ upper_text (w_session_id w)) /\
  header_field request (addressing (lit "To")) (w_endpoint w).
Proof. exact header_fields. Qed.
Print Assumptions C19_request_headers.

(* C19: a response is returned exactly when it arrived, is XML, and relates to
   the message id found in the request that was sent. *)
Theorem C19_accepted_iff_related : forall (S : Type) (send : S -> xml -> nat -> option Z -> reply * S)
    (parse_body parse_text : list N -> option xml) w uuid action uri resource options selectors timeout retries st id,
  let request := envelope w uuid action uri resource options selectors timeout in
  set_tags options -> set_tags selectors -> header_field request (addressing (lit "MessageID")) id ->
  forall x, fst (invoke send parse_body parse_text w uuid action uri resource options selectors timeout retries st) = IOk x <->
  exists b, fst (send st request retries (http_timeout timeout)) = RBody b /\ parse_body b = Some x /\ relates_to x id.
Proof. exact @accepts_iff. Qed.
Print Assumptions C19_accepted_iff_related.

(* C19: any other XML answer raises WinRMError *)
Theorem C19_unrelated_rejected : forall (S : Type) (send : S -> xml -> nat -> option Z -> reply * S)
    (parse_body parse_text : list N -> option xml) w uuid action uri resource options selectors timeout retries st id,
  let request := envelope w uuid action uri resource options selectors timeout in
  set_tags options -> set_tags selectors -> header_field request (addressing (lit "MessageID")) id ->
  forall b x, fst (send st request retries (http_timeout timeout)) = RBody b -> parse_body b = Some x -> ~ relates_to x id ->
  fst (invoke send parse_body parse_text w uuid action uri resource options selectors timeout retries st) = IExn WinRMError.
Proof. exact @rejects. Qed.
Print Assumptions C19_unrelated_rejected.

(* C19: requests with different identifiers carry different message ids, so the
   answer to one is never taken for the answer to the other. *)
Theorem C19_ids_distinct : forall u v x, is_lower u -> is_lower v -> u <> v ->
  relates_to x (message_id u) -> ~ relates_to x (message_id v).
Proof.
  exact (fun u v x Hu Hv Hn Ru Rv => Hn (message_id_inj u v Hu Hv (relates_fun x _ _ Ru Rv))).
Qed.
Print Assumptions C19_ids_distinct.

Example C19_case :
  (exists x, toy_invoke (RBody (lit "right")) = IOk x) /\
  toy_invoke (RBody (lit "other")) = IExn WinRMError /\
  toy_invoke (RBody (lit "silent")) = IExn WinRMError /\
  toy_invoke (RHttp 500 (lit "fault")) = IFault {| f_code := CInt 2150858793; f_machine := Some (lit "h");
    f_reason := Some (lit "The wait ended."); f_provider := None; f_path := None; f_pfault := None |} /\
  toy_invoke (RHttp 503 (lit "busy")) = IHttp 503 (lit "busy") /\
  toy_invoke (RExn ReadTimeout) = IExn ReadTimeout.
Proof. split; [eexists; vm_compute; reflexivity|]. vm_compute. repeat split. Qed.

(* C19: an HTTP error is a fault with what its XML says, or else the original
   error; other exceptions pass through. *)
Theorem C19_http_errors : forall (S : Type) (send : S -> xml -> nat -> option Z -> reply * S)
    (parse_body parse_text : list N -> option xml) w uuid action uri resource options selectors timeout retries st,
  let answer := fst (send st (envelope w uuid action uri resource options selectors timeout) retries (http_timeout timeout)) in
  let result := fst (invoke send parse_body parse_text w uuid action uri resource options selectors timeout retries st) in
  (forall f, result = IFault f <-> exists code text x, answer = RHttp code text /\ parse_text text = Some x /\ fault_said x f) /\
  (forall code text, result = IHttp code text <-> answer = RHttp code text /\ parse_text text = None) /\
  (forall e, answer = RExn e -> result = IExn e).
Proof. exact @fault_iff. Qed.
Print Assumptions C19_http_errors.

(* C18: over the transport, every operation but receive hands its message to
   the network at most once; receive at most six times. *)
Theorem C18_operations : forall (W : Type) (wrap : W -> list N -> res (list N * list N * Z * W))
    (unwrap : W -> list N -> list N -> res (list N * W)) (net : nat -> @answer W) (t : transport)
    tostring parse_body parse_text w o uuid uri resource options selectors timeout st tr r st' tr',
  run_op (over_transport wrap unwrap net t tostring) parse_body parse_text w o uuid uri resource options selectors timeout (st, tr)
    = (r, (st', tr')) ->
  count post_event tr' <= count post_event tr + (match o with OpReceive => 6 | _ => 1 end).
Proof. exact @op_once. Qed.
Print Assumptions C18_operations.

(* C45: the fault read from a response is determined by what the response says *)
Theorem C45_fault_read : forall x f, parse_fault x = f <-> fault_said x f.
Proof.
  exact (fun x f => conj (fun E => eq_ind (parse_fault x) (fault_said x) (parse_fault_said x) f E)
                         (fun H => fault_said_fun x _ _ (parse_fault_said x) H)).
Qed.
Print Assumptions C45_fault_read.

(* C45: a decimal code is numeric *)
Theorem C45_decimal_code : forall z c, code_read (Some (py_str z)) c -> c = CInt z.
Proof.
  exact (fun z c H => code_read_fun _ _ _ H (or_introl (ex_intro _ z (conj (NumProofs.py_int_str z) eq_refl)))).
Qed.
Print Assumptions C45_decimal_code.

Example C45_case : fault_said toy_fault {| f_code := CInt 2150858793; f_machine := Some (lit "h");
    f_reason := Some (lit "The wait ended."); f_provider := None; f_path := None; f_pfault := None |}.
Proof. apply C45_fault_read. vm_compute. reflexivity. Qed.

(* C45: the text names every detail that is there, and no other, in order *)
Theorem C45_text_partial : forall f, f_code f <> CInt 0 ->
  exists c m r p q v, supplied (lit "Code: ") (shown_code (f_code f)) c /\ supplied (lit "Machine: ") (f_machine f) m /\
    supplied (lit "Reason: ") (f_reason f) r /\ supplied (lit "Provider: ") (f_provider f) p /\
    supplied (lit "Provider Path: ") (f_path f) q /\ supplied (lit "Provider Fault: ") (f_pfault f) v /\
    fault_message f = lit "Received a WSManFault message. (" ++
      match c ++ m ++ r ++ p ++ q ++ v with
      | [] => lit "No details returned by the server"
      | ds => join (lit ", ") ds
      end ++ lit ")".
Proof. exact message_details. Qed.
Print Assumptions C45_text_partial.

Example C45_text_case :
  fault_message (parse_fault toy_fault) = lit "Received a WSManFault message. (Code: 2150858793, Machine: h, Reason: The wait ended.)".
Proof. vm_compute. reflexivity. Qed.

(* C45 fails for the code 0: the server supplied it, the text does not name it *)
Theorem C45_zero_code_refuted : exists f, f_code f = CInt 0 /\ fault_message f =
  lit "Received a WSManFault message. (No details returned by the server)".
Proof.
  exists {| f_code := CInt 0; f_machine := None; f_reason := None; f_provider := None; f_path := None; f_pfault := None |}.
  split; vm_compute; reflexivity.
Qed.
Print Assumptions C45_zero_code_refuted.

(* C48: an option set of the user is one element of the header, must be
   understood, and has one child per entry, in order *)
Theorem C48_option_set : forall w uuid action uri resource entries selectors timeout,
  (selectors = None \/ exists es, selectors = Some (built selector_set es)) ->
  let request := envelope w uuid action uri resource (Some (built option_set entries)) selectors timeout in
  exists y, sole_in_header request (dmtf (lit "OptionSet")) y /\ attr (soap (lit "mustUnderstand")) (Some y) = Some (lit "true") /\
    Forall2 (carries (dmtf (lit "Option"))) entries (x_children y).
Proof. exact sole_option_set. Qed.
Print Assumptions C48_option_set.

(* C48: a selector set likewise, without the mark *)
Theorem C48_selector_set : forall w uuid action uri resource entries options timeout,
  (options = None \/ exists es, options = Some (built option_set es)) ->
  let request := envelope w uuid action uri resource options (Some (built selector_set entries)) timeout in
  exists y, sole_in_header request (dmtf (lit "SelectorSet")) y /\ attr (soap (lit "mustUnderstand")) (Some y) = None /\
    Forall2 (carries (dmtf (lit "Selector"))) entries (x_children y).
Proof. exact sole_selector_set. Qed.
Print Assumptions C48_selector_set.

Theorem C48_no_sets : forall w uuid action uri resource timeout name,
  name = lit "OptionSet" \/ name = lit "SelectorSet" -> forall z,
  ~ reaches [soap (lit "Header"); dmtf name] (envelope w uuid action uri resource None None timeout) z.
Proof. exact no_sets. Qed.
Print Assumptions C48_no_sets.

Example C48_case :
  let s := built option_set [(lit "PROTO", lit "2.3", [(lit "MustComply", lit "true"); (lit "Name", lit "x")]); (lit "PROTO", lit "", [])] in
  map x_attrib (x_children (pack_set s)) =
    [[(lit "MustComply", lit "true"); (lit "Name", lit "PROTO")]; [(lit "Name", lit "PROTO")]].
Proof. vm_compute. reflexivity. Qed.

(* C36: the limit configured on the server, in units of 1024 bytes, is the
   limit the client uses *)
Theorem C36_configured_limit : forall body y z,
  first_at [lit "{http://schemas.microsoft.com/wbem/wsman/1/config}Config";
            lit "{http://schemas.microsoft.com/wbem/wsman/1/config}MaxEnvelopeSizekb"] body y ->
  x_text y = Some (py_str z) -> config_size body = Ok (z * 1024)%Z.
Proof. exact config_says. Qed.
Print Assumptions C36_configured_limit.

(* C52: the HTTP client waits longer than the operation timeout that the request
   states, when the caller gave one; when not, the same holds if the configured
   read timeout is longer than the configured operation timeout, which nothing
   checks. *)
Theorem C52_waits_longer_partial : forall parse_body parse_text w uuid action uri resource options selectors timeout retries answer st read_timeout z,
  set_tags options -> set_tags selectors ->
  (match timeout with Some t => t = z /\ (0 < t)%Z | None => w_operation_timeout w = z /\ (z < read_timeout)%Z end) ->
  exists request t,
    snd (invoke (fun (_ : option (xml * option Z)) request (_ : nat) t => (answer, Some (request, t))) parse_body parse_text
           w uuid action uri resource options selectors timeout retries st) = Some (request, t) /\
    header_field request (dmtf (lit "OperationTimeout")) (lit "PT" ++ py_str z ++ lit "S") /\
    (z < read_wait t read_timeout)%Z.
Proof. exact invoke_waits. Qed.
Print Assumptions C52_waits_longer_partial.
Example C52_case :
  option_map snd (snd (invoke (fun (_ : option (xml * option Z)) request (_ : nat) t => (RBody [], Some (request, t))) (fun _ => None) (fun _ => None)
    toy_w (lit "ab-12") (lit "act") (lit "uri") None None None (Some 45%Z) 0 None)) = Some (Some 47%Z) /\ (w_operation_timeout toy_w < 30)%Z.
Proof. vm_compute. auto. Qed.
(* with operation_timeout=60 and the default read_timeout of 30 seconds *)
Theorem C52_waits_longer_refuted : exists w request t read_timeout,
  snd (invoke (fun (_ : option (xml * option Z)) request (_ : nat) t => (RBody [], Some (request, t))) (fun _ => None) (fun _ => None)
    w (lit "ab-12") (lit "act") (lit "uri") None None None None 0 None) = Some (request, t) /\
  header_field request (dmtf (lit "OperationTimeout")) (lit "PT60S") /\ (read_wait t read_timeout < 60)%Z.
Proof.
  set (w := {| w_session_id := lit "s"; w_locale := w_locale toy_w; w_data_locale := w_data_locale toy_w; w_endpoint := lit "http://h"; w_max_envelope := 153600; w_operation_timeout := 60 |}).
  exists w, (envelope w (lit "ab-12") (lit "act") (lit "uri") None None None None), None, 30%Z.
  split; [reflexivity|]. split; [|reflexivity].
  exact (proj1 (proj2 (proj2 (proj2 (header_fields w (lit "ab-12") (lit "act") (lit "uri") None None None None I I))))).
Qed.
Print Assumptions C52_waits_longer_refuted.

(* C53: a method hands the transport one request, with the standard action of
   that operation, and gives back the Body of an answer related to it *)
Theorem C53_method : forall (S : Type) (send : S -> xml -> nat -> option Z -> reply * S)
    parse_body parse_text w o uuid uri resource options selectors timeout st,
  set_tags options -> set_tags selectors ->
  exists request, header_field request (addressing (lit "Action")) (standard_action o) /\
    header_field request (dmtf (lit "ResourceURI")) uri /\
    (exists body, first_at [soap (lit "Body")] request body /\ x_children body = match resource with Some r => [r] | None => [] end) /\
    snd (run_op send parse_body parse_text w o uuid uri resource options selectors timeout st)
    = snd (send st request (op_retries o) (http_timeout timeout)) /\
    (forall b, fst (run_op send parse_body parse_text w o uuid uri resource options selectors timeout st) = WBody b ->
       exists text x, fst (send st request (op_retries o) (http_timeout timeout)) = RBody text /\ parse_body text = Some x /\
         relates_to x (message_id uuid) /\ lookup [soap (lit "Body")] x b).
Proof. exact @method_request. Qed.
Print Assumptions C53_method.
(* C53: no two methods share an action *)
Theorem C53_distinct : forall o o', standard_action o = standard_action o' -> o = o'.
Proof. intros o o'. destruct o, o'; vm_compute; intros H; first [reflexivity|discriminate H]. Qed.
Print Assumptions C53_distinct.
Example C53_case : fst (run_op toy_send toy_parse toy_parse toy_w OpGet (lit "ab-12") (lit "uri") None None None None (RBody (lit "right"))) = WBody (Some (Elem (soap (lit "Body")) [] None [])).
Proof. vm_compute. reflexivity. Qed.
