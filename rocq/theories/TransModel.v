(* Model of the HTTP transport, src/pypsrp/wsman.py:733-1118, and of the
   payload size arithmetic of WSMan (wsman.py:423-442, 522-557). *)
From Verif Require Import Base Lit NumModel ReModel EncModel Utf8Model.

(* ---- settings: wsman.py:734-813 _TransportHTTP.__init__ ----
   Not modelled: proxies, certificate validation and the keyword arguments
   that are only stored. *)
Record settings := {
  s_server : list N; s_port : option Z; s_username : option (list N); s_password : option (list N);
  s_ssl : bool; s_path : list N; s_auth : list N; s_encryption : list N;
  s_key_pem : option (list N); s_pem : option (list N) }.

Record transport := {
  t_settings : settings; t_port : Z; t_wrap : bool; t_endpoint : list N }.

(* wsman.py:40 *)
Definition supported_auths : list (list N) :=
  [lit "basic"; lit "certificate"; lit "credssp"; lit "kerberos"; lit "negotiate"; lit "ntlm"].
(* wsman.py:773 *)
Definition enc_providers : list (list N) := [lit "credssp"; lit "kerberos"; lit "negotiate"; lit "ntlm"].
Definition one_of (x : list N) (l : list (list N)) : bool := existsb (str_eqb x) l.

(* wsman.py:1101-1118 _create_endpoint; [ipv6] is ipaddress.IPv6Address followed
   by its compressed text, None for AddressValueError *)
Definition create_endpoint (ipv6 : list N -> option (list N)) (ssl : bool) (server : list N)
    (port : Z) (path : list N) : list N :=
  let scheme := if ssl then lit "https" else lit "http" in
  let server := match ipv6 server with Some a => lit "[" ++ a ++ lit "]" | None => server end in
  scheme ++ lit "://" ++ server ++ lit ":" ++ py_str port ++ lit "/" ++ path.

Definition transport_init (ipv6 : list N -> option (list N)) (s : settings) : res transport :=
  let port := match s_port s with Some p => p | None => if s_ssl s then 5986%Z else 5985%Z end in
  if negb (one_of (s_auth s) supported_auths) then Err ValueError
  else if negb (one_of (s_encryption s) [lit "auto"; lit "always"; lit "never"]) then Err ValueError
  else
    let wrap := if s_ssl s then str_eqb (s_encryption s) (lit "always")
                else negb (str_eqb (s_encryption s) (lit "never")) in
    if (wrap && negb (one_of (s_auth s) enc_providers))%bool then Err ValueError
    else Ok {| t_settings := s; t_port := port; t_wrap := wrap;
               t_endpoint := create_endpoint ipv6 (s_ssl s) (s_server s) port (s_path s) |}.

(* wsman.py:1008-1053 the _build_auth_ methods, called by _build_session
   (wsman.py:935-1006): the errors they raise before anything is sent *)
Definition build_session (t : transport) : res unit :=
  let s := t_settings t in
  if str_eqb (s_auth s) (lit "basic") then
    match s_username s, s_password s with Some _, Some _ => Ok tt | _, _ => Err ValueError end
  else if str_eqb (s_auth s) (lit "certificate") then
    match s_key_pem s, s_pem s with
    | Some _, Some _ => if s_ssl s then Ok tt else Err ValueError
    | _, _ => Err ValueError
    end
  else if str_eqb (s_auth s) (lit "credssp") then
    match s_username s, s_password s with Some _, Some _ => Ok tt | _, _ => Err ValueError end
  else Ok tt.

(* ---- the network, as seen from requests.Session.send ---- *)
(* What the session answers to one request: an exception, or a response with
   its status, content type ("" when absent), body and the text requests makes
   of the body (its guess of the charset is not modelled). *)
Inductive outcome : Type :=
| ORaise (e : exn)
| OResp (status : Z) (ctype : list N) (body : bytes) (text : list N).

(* The result of _send_request and of send *)
Inductive reply : Type :=
| RBody (b : bytes)
| RHttp (code : Z) (text : list N)   (* WinRMTransportError("http", code, text) *)
| RExn (e : exn).

Definition is_timeout (e : exn) : bool :=
  match e with ReadTimeout | ConnectTimeout => true | _ => false end.

Section Transport.
  Context {W : Type}.
  Context (wrap_winrm : W -> bytes -> res (bytes * bytes * Z * W)).
  Context (unwrap_winrm : W -> bytes -> bytes -> res (bytes * W)).

  (* A security context: an identity, its state and whether the server's
     answer header was "kerberos" (negotiate.py, response_auth_header). *)
  Record context := { c_id : N; c_state : W; c_kerberos : bool }.

  (* One answer of the session.  [a_context] is the context that the
     authentication handler of the session completed for the host while this
     request was sent, if it did (session.auth.contexts[hostname]). *)
  Record answer := { a_context : option context; a_outcome : outcome }.

  (* What can be observed: requests handed to the session and their answers,
     and the factor of reconnection_backoff slept.  [by_ctx] says which
     context, in which state, produced the body of a request. *)
  Inductive event : Type :=
  | EvProbe
  | EvPost (ctype : list N) (payload : bytes) (by_ctx : option context)
  | EvAnswer (a : answer)
  | EvSleep (factor : N).

  (* The mutable state of the transport: whether the session exists, the
     context of the host held by its auth object, self.encryption (context and
     protocol) and the number of requests made so far. *)
  Record tstate := {
    st_session : bool; st_context : option context;
    st_encryption : option (context * list N); st_calls : nat }.
  Definition initial : tstate :=
    {| st_session := false; st_context := None; st_encryption := None; st_calls := 0 |}.

  Definition set_encryption (st : tstate) (e : option (context * list N)) : tstate :=
    {| st_session := st_session st; st_context := st_context st;
       st_encryption := e; st_calls := st_calls st |}.
  Definition with_state (c : context) (w : W) : context :=
    {| c_id := c_id c; c_state := w; c_kerberos := c_kerberos c |}.

  (* re.search, wsman.py:915: "boundary=" and a bar or a double quote, then
     the longest group without a line feed that ends at one of these; the
     first place where this matches *)
  Definition is_quote (c : N) : bool := (N.eqb c 124 || N.eqb c 34)%bool.
  Fixpoint last_quote (s : list N) : option (list N) :=
    match s with
    | [] => None
    | c :: s' =>
        if N.eqb c 10 then None
        else match last_quote s' with
             | Some g => Some (c :: g)
             | None => if is_quote c then Some [] else None
             end
    end.
  Fixpoint find_boundary (s : list N) : option (list N) :=
    match s with
    | [] => None
    | _ :: s' =>
        match after (lit "boundary=") s with
        | Some (q :: r) =>
            if is_quote q then
              match last_quote r with Some g => Some g | None => find_boundary s' end
            else find_boundary s'
        | _ => find_boundary s'
        end
    end.

  (* to_bytes(boundary): the boundary is text *)
  (* wsman.py:901-933 _send_request.  Simplified: a context that fails in the
     middle of a message keeps its state. *)
  Definition encrypted_type (ctype : list N) : bool :=
    (starts_with (lit "multipart/encrypted;") ctype ||
     starts_with (lit "multipart/x-multi-encrypted;") ctype)%bool.

  Definition finish (status : Z) (content : bytes) (text : list N) : reply :=
    if ((400 <=? status) && (status <? 600))%Z then
      if (status =? 401)%Z then RExn AuthenticationError else RHttp status text
    else RBody content.

  Definition send_request (net : nat -> answer) (st : tstate) : reply * tstate * list event :=
    let a := net (st_calls st) in
    let st1 := {| st_session := st_session st;
                  st_context := match a_context a with Some c => Some c | None => st_context st end;
                  st_encryption := st_encryption st; st_calls := S (st_calls st) |} in
    let tr := [EvAnswer a] in
    match a_outcome a with
    | ORaise e => (RExn e, st1, tr)
    | OResp status ctype body text =>
        if encrypted_type ctype then
          match find_boundary ctype with
          | None => (RExn AttributeError, st1, tr)
          | Some b =>
              match st_encryption st1 with
              | None => (RExn AttributeError, st1, tr)
              | Some (c, proto) =>
                  match utf8_encode b with
                  | Err e => (RExn e, st1, tr)
                  | Ok b =>
                  match unwrap_message unwrap_winrm b (c_state c) body with
                  | Err e => (RExn e, st1, tr)
                  | Ok (content, w) =>
                      let st2 := set_encryption st1 (Some (with_state c w, proto)) in
                      match utf8_decode content with
                      | Err e => (RExn e, st2, tr)
                      | Ok text => (finish status content text, st2, tr)
                      end
                  end
                  end
              end
          end
        else (finish status body (match body with [] => [] | _ => text end), st1, tr)
    end.

  (* wsman.py:830-857: the initial blank request when encryption is required
     and there is no encryption object yet *)
  Definition establish (net : nat -> answer) (t : transport) (st : tstate)
    : reply * tstate * list event :=
    let '(r, st1, tr) := send_request net st in
    match r with
    | RBody _ =>
        match st_context st1 with
        | None => (RExn KeyError, st1, EvProbe :: tr)
        | Some c =>
            let proto := if str_eqb (s_auth (t_settings t)) (lit "credssp") then CREDSSP
                         else if c_kerberos c then KERBEROS else SPNEGO in
            (RBody [], set_encryption st1 (Some (c, proto)), EvProbe :: tr)
        end
    | _ => (r, st1, EvProbe :: tr)
    end.

  (* wsman.py:863-886: content type and body of the request with the message *)
  Definition prepare (t : transport) (message : bytes) (st : tstate)
    : res (list N * bytes * option context * tstate) :=
    if t_wrap t then
      match st_encryption st with
      | None => Err AttributeError
      | Some (c, proto) =>
          do '(ct, payload, w) <- wrap_message wrap_winrm proto (c_state c) message;
          Ok (ct ++ lit ";protocol=""" ++ proto ++ lit """;boundary=""Encrypted Boundary""",
              payload, Some c, set_encryption st (Some (with_state c w, proto)))
      end
    else Ok (lit "application/soap+xml;charset=UTF-8", message, None, st).

  (* wsman.py:833-899, the retry loop; [rem] is retries_on_read_timeout minus
     [attempt].  A negative limit, which would never be reached, is not modelled. *)
  Fixpoint send_loop (net : nat -> answer) (t : transport) (message : bytes) (rem attempt : nat)
      (st : tstate) : reply * tstate * list event :=
    let '(r1, st1, tr1) :=
      if (t_wrap t && match st_encryption st with None => true | Some _ => false end)%bool
      then establish net t st else (RBody [], st, []) in
    match r1 with
    | RExn e =>
        if is_timeout e then
          match rem with
          | O => (r1, st1, tr1)
          | S rem' =>
              let '(r, st2, tr2) := send_loop net t message rem' (S attempt) st1 in
              (r, st2, tr1 ++ EvSleep (2 ^ N.of_nat (S attempt)) :: tr2)
          end
        else (r1, st1, tr1)
    | RHttp _ _ => (r1, st1, tr1)
    | RBody _ =>
        match prepare t message st1 with
        | Err e => (RExn e, st1, tr1)
        | Ok (header, payload, c, st2) =>
            let '(r2, st3, tr2) := send_request net st2 in
            let tr2 := tr1 ++ EvPost header payload c :: tr2 in
            match r2 with
            | RExn e =>
                if is_timeout e then
                  match rem with
                  | O => (r2, st3, tr2)
                  | S rem' =>
                      let '(r, st4, tr3) :=
                        send_loop net t message rem' (S attempt) (set_encryption st3 None) in
                      (r, st4, tr2 ++ EvSleep (2 ^ N.of_nat (S attempt) - 1) :: tr3)
                  end
                else (r2, st3, tr2)
            | _ => (r2, st3, tr2)
            end
        end
    end.

  (* wsman.py:822-899 send *)
  Definition send (net : nat -> answer) (t : transport) (message : bytes) (retries : nat)
      (st : tstate) : reply * tstate * list event :=
    if st_session st then send_loop net t message retries 0 st
    else
      match build_session t with
      | Err e => (RExn e, st, [])
      | Ok _ =>
          let st1 := {| st_session := true; st_context := st_context st;
                        st_encryption := st_encryption st; st_calls := st_calls st |} in
          send_loop net t message retries 0 st1
      end.

  (* a history of sends on one transport *)
  Fixpoint sends (net : nat -> answer) (t : transport) (ops : list (bytes * nat)) (st : tstate)
    : list reply * tstate * list event :=
    match ops with
    | [] => ([], st, [])
    | (m, r) :: ops' =>
        let '(x, st1, tr1) := send net t m r st in
        let '(xs, st2, tr2) := sends net t ops' st1 in
        (x :: xs, st2, tr1 ++ tr2)
    end.
End Transport.

(* ---- payload size: wsman.py:522-557 _calc_envelope_size ----
   [envelope] is the length of the sample envelope.  Python computes
   int((max - size) / 4 * 3) in floating point; the quotient and the product
   are exact below 2^50, so this is truncation of the exact value. *)
Definition calc_envelope_size (envelope max_size : Z) : Z :=
  Z.quot (3 * (max_size - (envelope + 256))) 4.

(* wsman.py:423-442 update_max_payload_size, given a size *)
Definition max_payload_size (envelope max_size : Z) : Z := calc_envelope_size envelope max_size.
