(* Model of how the settings of a connection reach the HTTP session and the
   security context: src/pypsrp/wsman.py:43-47, 734-816, 935-1072 and
   src/pypsrp/negotiate.py:33-82, 99-140, 200-280.

   requests and its environment (merge_environment_settings), the certificate
   parser and the digests are oracles.  Not modelled: warnings, log messages,
   the fallback for urllib3 older than 1.21, a missing requests-credssp. *)
From Verif Require Import Base Lit NumModel ReModel EncModel TransModel NegModel.

(* session.verify and the argument cert_validation: a bool or the path of a
   bundle *)
Inductive verification := VerifyBool (b : bool) | VerifyPath (p : list N).
(* the value of a keyword argument *)
Inductive kwvalue := KwBool (b : bool) | KwText (s : list N) | KwInt (z : Z).
(* wsman.py:43-47 AUTH_KWARGS; the certificate ones are in [settings] but for
   the password of the key *)
Definition credssp_kwargs : list (list N) := [lit "credssp_auth_mechanism"; lit "credssp_disable_tlsv1_2"; lit "credssp_minimum_version"].
Definition negotiate_kwargs : list (list N) :=
  [lit "negotiate_delegate"; lit "negotiate_hostname_override"; lit "negotiate_send_cbt"; lit "negotiate_service"].

(* the arguments of WSMan and _TransportHTTP.__init__ beyond [settings];
   [g_kwargs] is **kwargs, None standing for an argument that is None *)
Record config := {
  g_settings : settings; g_verify : verification; g_proxy : option (list N); g_no_proxy : bool;
  g_retries : Z; g_backoff : Z; g_key_password : option (list N); g_kwargs : list (list N * option kwvalue) }.
(* session.merge_environment_settings(...) for the endpoint *)
Record environment := { v_proxies : list (list N * list N); v_verify : option verification }.

Inductive authenticator :=
| NoAuth
| Basic (username password : list N)
| CredSSP (username password : list N) (kwargs : list (list N * kwvalue))
| Negotiate (username password : option (list N)) (provider : list N) (wrap : bool) (kwargs : list (list N * kwvalue)).
(* a proxy by scheme: its URL, or False *)
Record session := {
  z_headers : list (list N * list N); z_proxies : list (list N * option (list N));
  z_retry_total : Z; z_retry_connect : Z; z_retry_status : Z; z_retry_read : Z; z_backoff : Z; z_statuses : list Z;
  z_verify : verification; z_cert : option (list N * list N); z_key_password : option (list N);
  z_auth : authenticator }.

(* wsman.py:1064-1072 _get_auth_kwargs; setattr and getattr of the keyword
   arguments are wsman.py:804-806 *)
Fixpoint get_auth_kwargs (prefix : list N) (names : list (list N)) (kw : list (list N * option kwvalue)) : list (list N * kwvalue) :=
  match names with
  | [] => []
  | n :: names' =>
      match dict_get str_eqb n kw with
      | Some (Some v) => (skipn (S (length prefix)) n, v) :: get_auth_kwargs prefix names' kw
      | _ => get_auth_kwargs prefix names' kw
      end
  end.

(* wsman.py:1008-1062: what the _build_auth_ methods set: session.auth,
   session.cert and the header Authorization *)
Definition build_auth (t : transport) (g : config) : res (authenticator * option (list N * list N) * option (list N)) :=
  let s := t_settings t in
  if str_eqb (s_auth s) (lit "basic") then
    match s_username s, s_password s with
    | Some u, Some p => Ok (Basic u p, None, None)
    | _, _ => Err ValueError
    end
  else if str_eqb (s_auth s) (lit "certificate") then
    match s_key_pem s, s_pem s with
    | Some k, Some c =>
        if s_ssl s then
          Ok (NoAuth, Some (c, k), Some (lit "http://schemas.dmtf.org/wbem/wsman/1/wsman/secprofile/https/mutual"))
        else Err ValueError
    | _, _ => Err ValueError
    end
  else if str_eqb (s_auth s) (lit "credssp") then
    match s_username s, s_password s with
    | Some u, Some p => Ok (CredSSP u p (get_auth_kwargs (lit "credssp") credssp_kwargs (g_kwargs g)), None, None)
    | _, _ => Err ValueError
    end
  else
    (* kerberos and ntlm call _build_auth_negotiate with their own name *)
    Ok (Negotiate (s_username s) (s_password s) (s_auth s) (t_wrap t) (get_auth_kwargs (lit "negotiate") negotiate_kwargs (g_kwargs g)), None, None).

(* wsman.py:935-1006 _build_session *)
Definition make_session (v : environment) (t : transport) (g : config) : res session :=
  let s := t_settings t in
  let key := if s_ssl s then lit "https" else lit "http" in
  let proxies :=
    match g_proxy g with
    | Some p => [(key, Some p)]
    | None => if g_no_proxy g then [(key, None)] else map (fun e => (fst e, Some (snd e))) (v_proxies v)
    end in
  let verify :=
    match g_verify g, v_verify v with
    | VerifyBool true, Some e => e
    | x, _ => x
    end in
  do '(ac, h) <- build_auth t g;
  let '(auth, cert) := ac in
  Ok {| z_headers := [(lit "User-Agent", lit "Python PSRP Client"); (lit "Accept-Encoding", lit "identity")]
                     ++ match h with Some x => [(lit "Authorization", x)] | None => [] end;
        z_proxies := proxies;
        z_retry_total := g_retries g; z_retry_connect := g_retries g; z_retry_status := g_retries g; z_retry_read := 0;
        z_backoff := g_backoff g; z_statuses := [425; 429; 503]%Z;
        z_verify := verify; z_cert := cert; z_key_password := g_key_password g; z_auth := auth |}.
(* a transport and the session of its first request *)
Definition connect (ipv6 : list N -> option (list N)) (v : environment) (g : config) : res (transport * session) :=
  do t <- transport_init ipv6 (g_settings g);
  do z <- make_session v t g;
  Ok (t, z).

(* ---- the security context of a 401 answer ---- *)
(* What the answer came over, as far as _get_cbt_data can tell: not through
   urllib3, no socket to be found, a socket without TLS, or TLS with the peer's
   certificate. *)
Inductive channel := ForeignBackend | NoSocket | PlainSocket | TlsSocket (certificate : bytes).
Section Cbt.
  (* the name of cert.signature_hash_algorithm, None when it is None or
     UnsupportedAlgorithm is raised; and the digests by name *)
  Context (signature_hash : bytes -> res (option (list N))) (digest : list N -> bytes -> bytes).
  (* negotiate.py:244-280 _get_certificate_hash *)
  Definition get_certificate_hash (der : bytes) : res bytes :=
    do a <- signature_hash der;
    Ok (match a with
        | None => digest (lit "sha256") der
        | Some n => if (str_eqb n (lit "md5") || str_eqb n (lit "sha1"))%bool then digest (lit "sha256") der else digest n der
        end).
  (* negotiate.py:200-242 _get_cbt_data *)
  Definition get_cbt_data (c : channel) : res (option bytes) :=
    match c with
    | TlsSocket der => do h <- get_certificate_hash der; Ok (Some (lit "tls-server-end-point:" ++ h))
    | _ => Ok None
    end.

  (* the arguments of spnego.client *)
  Record client_args := {
    ca_username : option (list N); ca_password : option (list N); ca_hostname : list N; ca_service : kwvalue;
    ca_bindings : option bytes; ca_delegate : bool; ca_protocol : list N; ca_wrap : bool }.
  (* truth of a Python value *)
  Definition truthy (v : kwvalue) : bool :=
    match v with KwBool b => b | KwText s => match s with [] => false | _ => true end | KwInt z => negb (Z.eqb z 0) end.
  (* HTTPNegotiateAuth.__init__ with its defaults, negotiate.py:33-80: [kw] are
     the keyword arguments *)
  Definition option_of (name : String.string) (default : kwvalue) (kw : list (list N * kwvalue)) : kwvalue :=
    match dict_get str_eqb (lit name) kw with Some v => v | None => default end.
  (* negotiate.py:99-135 handle_401 up to spnego.client.  [host] is the
     hostname of the URL; a hostname_override that is not a str is not
     modelled and taken as if it were not there. *)
  Definition context_args (username password : option (list N)) (provider : list N) (wrap : bool) (kw : list (list N * kwvalue))
      (offered host : list N) (c : channel) : res client_args :=
    do protocol <- choose_protocol provider offered;
    let hostname := match option_of "hostname_override" (KwText []) kw with KwText (x :: s) => x :: s | _ => host end in
    do cbt <- (if truthy (option_of "send_cbt" (KwBool true) kw) then get_cbt_data c else Ok None);
    Ok {| ca_username := username; ca_password := password; ca_hostname := hostname;
          ca_service := option_of "service" (KwText (lit "host")) kw;
          ca_bindings := match cbt with Some (x :: b) => Some (x :: b) | _ => None end;
          ca_delegate := truthy (option_of "delegate" (KwBool false) kw);
          ca_protocol := protocol; ca_wrap := wrap |}.
End Cbt.
