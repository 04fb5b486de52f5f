(* Property theorems C55 and C56: from the arguments of WSMan to the HTTP
   session and the security context. *)
From Verif Require Import Base BaseProofs Lit NumModel ReModel EncModel TransModel TransSpec TransProofs NegModel SessModel SessSpec SessProofs.

(* ---- a configuration for the examples ---- *)
Definition sess_settings (ssl : bool) (auth enc : String.string) : settings :=
  {| s_server := lit "host"; s_port := None; s_username := Some (lit "u"); s_password := Some (lit "p");
     s_ssl := ssl; s_path := lit "wsman"; s_auth := lit auth; s_encryption := lit enc;
     s_key_pem := Some (lit "key.pem"); s_pem := Some (lit "cert.pem") |}.
Definition sess_config (ssl : bool) (auth enc : String.string) (kw : list (list N * option kwvalue)) : config :=
  {| g_settings := sess_settings ssl auth enc; g_verify := VerifyBool true; g_proxy := None; g_no_proxy := false;
     g_retries := 4; g_backoff := 2; g_key_password := None; g_kwargs := kw |}.
Definition sess_env : environment :=
  {| v_proxies := [(lit "https", lit "http://proxy:3128")]; v_verify := Some (VerifyPath (lit "/etc/ca.pem")) |}.

(* ------------------------------ C55 ------------------------------ *)

(* A session is built exactly for settings that are acceptable and complete for
   the authentication method; anything else raises ValueError. *)
Theorem C55_accepts_iff : forall (ipv6 : list N -> option (list N)) (v : environment) (g : config),
  ((exists tz, connect ipv6 v g = Ok tz) <-> acceptable (g_settings g) /\ equipped (g_settings g)) /\
  (forall e, connect ipv6 v g = Err e -> e = ValueError).
Proof. exact connects_iff. Qed.
Print Assumptions C55_accepts_iff.
Example C55_accepts_case : acceptable (sess_settings true "certificate" "auto") /\ equipped (sess_settings true "certificate" "auto") /\
  exists tz, connect (fun _ => None) sess_env (sess_config true "certificate" "auto" []) = Ok tz.
Proof.
  assert (E : exists tz, connect (fun _ => None) sess_env (sess_config true "certificate" "auto" []) = Ok tz) by (eexists; vm_compute; reflexivity).
  split; [|split; [|exact E]]; apply (proj1 (proj1 (C55_accepts_iff _ _ _)) E).
Qed.

(* The server's certificate is left unverified only if the caller or, the
   caller having said nothing, the environment asked for that; a bundle named
   by the caller is used unchanged. *)
Theorem C55_verify : forall (ipv6 : list N -> option (list N)) (v : environment) (g : config) (t : transport) (z : session),
  connect ipv6 v g = Ok (t, z) ->
  (forall p, g_verify g = VerifyPath p -> z_verify z = VerifyPath p) /\
  (g_verify g = VerifyBool false -> z_verify z = VerifyBool false) /\
  (g_verify g = VerifyBool true -> z_verify z = match v_verify v with Some e => e | None => VerifyBool true end) /\
  (z_verify z = VerifyBool false ->
     g_verify g = VerifyBool false \/ (g_verify g = VerifyBool true /\ v_verify v = Some (VerifyBool false))).
Proof. exact session_verify. Qed.
Print Assumptions C55_verify.
Example C55_verify_case : exists t z, connect (fun _ => None) sess_env (sess_config true "ntlm" "auto" []) = Ok (t, z) /\
  z_verify z = VerifyPath (lit "/etc/ca.pem") /\ z_proxies z = [(lit "https", Some (lit "http://proxy:3128"))].
Proof. eexists. eexists. split; [vm_compute; reflexivity|]. split; vm_compute; reflexivity. Qed.

(* A proxy given by the caller is the only one; no_proxy rules out those of the
   environment; otherwise they are used. *)
Theorem C55_proxy : forall (ipv6 : list N -> option (list N)) (v : environment) (g : config) (t : transport) (z : session),
  connect ipv6 v g = Ok (t, z) ->
  let scheme := if s_ssl (g_settings g) then lit "https" else lit "http" in
  (forall p, g_proxy g = Some p -> z_proxies z = [(scheme, Some p)]) /\
  (g_proxy g = None -> g_no_proxy g = true -> z_proxies z = [(scheme, None)]) /\
  (g_proxy g = None -> g_no_proxy g = false -> z_proxies z = map (fun e => (fst e, Some (snd e))) (v_proxies v)).
Proof. exact session_proxies. Qed.
Print Assumptions C55_proxy.

(* The HTTP library never resends a request whose answer it was reading: only
   failed connections and the three statuses that promise nothing was done are
   retried, as often as the caller said. *)
Theorem C55_retries : forall (ipv6 : list N -> option (list N)) (v : environment) (g : config) (t : transport) (z : session),
  connect ipv6 v g = Ok (t, z) ->
  z_retry_read z = 0%Z /\ z_retry_connect z = g_retries g /\ z_retry_total z = g_retries g /\ z_retry_status z = g_retries g /\
  z_backoff z = g_backoff g /\ z_statuses z = [425; 429; 503]%Z.
Proof. exact session_retries. Qed.
Print Assumptions C55_retries.

(* The authenticator of the session is the one that was asked for, with the
   credentials given, and with every keyword argument that was given a value
   and no other. *)
Theorem C55_authenticator : forall (ipv6 : list N -> option (list N)) (v : environment) (g : config) (t : transport) (z : session),
  connect ipv6 v g = Ok (t, z) ->
  let s := g_settings g in
  match z_auth z with
  | NoAuth => s_auth s = lit "certificate" /\ s_ssl s = true /\
      exists k c, s_key_pem s = Some k /\ s_pem s = Some c /\ z_cert z = Some (c, k)
  | Basic u p => s_auth s = lit "basic" /\ s_username s = Some u /\ s_password s = Some p /\ z_cert z = None
  | CredSSP u p kw => s_auth s = lit "credssp" /\ s_username s = Some u /\ s_password s = Some p /\ z_cert z = None /\
      forwarded credssp_parameters g kw
  | Negotiate u p provider wrap kw => In (s_auth s) [lit "kerberos"; lit "negotiate"; lit "ntlm"] /\ provider = s_auth s /\
      u = s_username s /\ p = s_password s /\ z_cert z = None /\ (wrap = true <-> encryption_required s) /\
      forwarded negotiate_parameters g kw
  end.
Proof. exact session_auth. Qed.
Print Assumptions C55_authenticator.
Example C55_authenticator_case : exists t z,
  connect (fun _ => None) sess_env (sess_config false "kerberos" "auto" [(lit "negotiate_delegate", Some (KwBool true)); (lit "negotiate_service", None)]) = Ok (t, z) /\
  z_auth z = Negotiate (Some (lit "u")) (Some (lit "p")) (lit "kerberos") true [(lit "delegate", KwBool true)].
Proof. eexists. eexists. split; [vm_compute; reflexivity|]. vm_compute; reflexivity. Qed.

(* Certificate authentication makes no use of a user name or password, whatever
   they are; the other methods none of a client certificate; and no method but
   the certificate's sets a fixed Authorization header. *)
Theorem C55_no_leak : forall (ipv6 : list N -> option (list N)) (v : environment) (g : config),
  (s_auth (g_settings g) = lit "certificate" -> forall u p,
     session_of (connect ipv6 v (with_credentials u p g)) = session_of (connect ipv6 v g)) /\
  (s_auth (g_settings g) <> lit "certificate" -> forall k c,
     session_of (connect ipv6 v (with_certificate k c g)) = session_of (connect ipv6 v g)) /\
  (forall t z, connect ipv6 v g = Ok (t, z) -> forall value, In (lit "Authorization", value) (z_headers z) ->
     s_auth (g_settings g) = lit "certificate" /\ value = lit "http://schemas.dmtf.org/wbem/wsman/1/wsman/secprofile/https/mutual").
Proof.
  exact (fun ipv6 v g => conj (fun E u p => certificate_alone ipv6 v g u p E)
    (conj (fun E k c => credentials_alone ipv6 v g k c E) (fun t z H => headers_never_leak ipv6 v g t z H))).
Qed.
Print Assumptions C55_no_leak.

(* A password is sent by Basic authentication without TLS only if the caller
   declined encryption in so many words. *)
Theorem C55_basic_in_clear : forall (ipv6 : list N -> option (list N)) (v : environment) (g : config) (t : transport) (z : session)
    (u p : list N),
  connect ipv6 v g = Ok (t, z) -> z_auth z = Basic u p ->
  s_ssl (g_settings g) = true \/ s_encryption (g_settings g) = lit "never".
Proof. exact basic_in_clear. Qed.
Print Assumptions C55_basic_in_clear.
Example C55_basic_case : exists t z, connect (fun _ => None) sess_env (sess_config false "basic" "never" []) = Ok (t, z) /\
  z_auth z = Basic (lit "u") (lit "p").
Proof. eexists. eexists. split; [vm_compute; reflexivity|]. vm_compute; reflexivity. Qed.

(* ------------------------------ C56 ------------------------------ *)

(* What the security context of a connection is made with: the credentials, the
   service, the host and the delegation asked for, sealing whenever encryption
   is required; and exactly over TLS, unless the caller declined it, the
   channel binding of RFC 5929 for the certificate that the server presented on
   this very connection. *)
Theorem C56_context : forall (signature_hash : bytes -> res (option (list N))) (digest : list N -> bytes -> bytes)
    (ipv6 : list N -> option (list N)) (v : environment) (g : config) (t : transport) (z : session)
    (u p : option (list N)) (provider : list N) (wrap : bool) (kw : list (list N * kwvalue))
    (offered host : list N) (c : channel) (ca : client_args),
  connect ipv6 v g = Ok (t, z) -> z_auth z = Negotiate u p provider wrap kw ->
  context_args signature_hash digest u p provider wrap kw offered host c = Ok ca ->
  let given name default := match dict_get str_eqb (lit name) (g_kwargs g) with Some (Some x) => x | _ => default end in
  ca_username ca = s_username (g_settings g) /\ ca_password ca = s_password (g_settings g) /\
  (ca_wrap ca = true <-> encryption_required (g_settings g)) /\
  ca_service ca = given "negotiate_service"%string (KwText (lit "host")) /\
  ca_delegate ca = truthy (given "negotiate_delegate"%string (KwBool false)) /\
  ca_hostname ca = match given "negotiate_hostname_override"%string (KwText []) with KwText (x :: s) => x :: s | _ => host end /\
  (forall b, ca_bindings ca = Some b <->
     truthy (given "negotiate_send_cbt"%string (KwBool true)) = true /\
     exists der a n, c = TlsSocket der /\ signature_hash der = Ok a /\ end_point_hash a n /\
       b = (lit "tls-server-end-point:" ++ digest n der)%list).
Proof. exact connection_context. Qed.
Print Assumptions C56_context.
Example C56_context_case : exists t z ca, connect (fun _ => None) sess_env (sess_config true "ntlm" "auto" [(lit "negotiate_service", Some (KwText (lit "HTTP")))]) = Ok (t, z) /\
  context_args (fun _ => Ok (Some (lit "sha1"))) (fun n d => (n ++ d)%list) (Some (lit "u")) (Some (lit "p")) (lit "ntlm") false
    [(lit "service", KwText (lit "HTTP"))] (lit "Negotiate") (lit "host") (TlsSocket [1; 2]%N) = Ok ca /\
  z_auth z = Negotiate (Some (lit "u")) (Some (lit "p")) (lit "ntlm") false [(lit "service", KwText (lit "HTTP"))] /\
  ca_bindings ca = Some (lit "tls-server-end-point:sha256" ++ [1; 2]%N)%list /\ ca_service ca = KwText (lit "HTTP").
Proof.
  eexists. eexists. eexists. split; [vm_compute; reflexivity|]. split; [vm_compute; reflexivity|].
  repeat split; vm_compute; reflexivity.
Qed.

(* README.md:194 and the docstring at wsman.py:206 say that the service of the
   principal is WSMAN when none was given.  It is host. *)
Theorem C56_service_refuted : exists (g : config) (t : transport) (z : session) (u p : option (list N)) (provider : list N) (wrap : bool)
    (kw : list (list N * kwvalue)) (ca : client_args),
  dict_get str_eqb (lit "negotiate_service") (g_kwargs g) = None /\
  connect (fun _ => None) sess_env g = Ok (t, z) /\ z_auth z = Negotiate u p provider wrap kw /\
  context_args (fun _ => Ok None) (fun _ d => d) u p provider wrap kw (lit "Kerberos") (lit "host") PlainSocket = Ok ca /\
  ca_service ca <> KwText (lit "WSMAN").
Proof.
  exists (sess_config false "kerberos" "auto" []). eexists. eexists. eexists. eexists. eexists. eexists. eexists. eexists.
  split; [reflexivity|]. split; [vm_compute; reflexivity|]. split; [vm_compute; reflexivity|]. split; [vm_compute; reflexivity|].
  vm_compute. discriminate.
Qed.
Print Assumptions C56_service_refuted.
