(* What a caller expects of the session built from the settings, and what
   RFC 5929 asks of the channel binding.  Nothing here uses the functions of
   SessModel. *)
From Verif Require Import Base Lit TransModel TransSpec SessModel.

(* The documented keyword arguments of WSMan and what they are called by the
   authenticator. *)
Definition negotiate_parameters : list (list N * list N) :=
  [(lit "negotiate_delegate", lit "delegate"); (lit "negotiate_hostname_override", lit "hostname_override");
   (lit "negotiate_send_cbt", lit "send_cbt"); (lit "negotiate_service", lit "service")].
Definition credssp_parameters : list (list N * list N) :=
  [(lit "credssp_auth_mechanism", lit "auth_mechanism"); (lit "credssp_disable_tlsv1_2", lit "disable_tlsv1_2");
   (lit "credssp_minimum_version", lit "minimum_version")].
(* [kw] holds the arguments the caller gave a value, under the short names, and
   nothing else *)
Definition forwarded (parameters : list (list N * list N)) (g : config) (kw : list (list N * kwvalue)) : Prop :=
  forall short v, dict_get str_eqb short kw = Some v <->
    exists long, In (long, short) parameters /\ dict_get str_eqb long (g_kwargs g) = Some (Some v).

(* what an authentication method needs *)
Definition equipped (s : settings) : Prop :=
  (s_auth s = lit "basic" \/ s_auth s = lit "credssp" -> s_username s <> None /\ s_password s <> None) /\
  (s_auth s = lit "certificate" -> s_key_pem s <> None /\ s_pem s <> None /\ s_ssl s = true).

(* the same configuration with other credentials; with another certificate *)
Definition with_credentials (u p : option (list N)) (g : config) : config :=
  let s := g_settings g in
  {| g_settings := {| s_server := s_server s; s_port := s_port s; s_username := u; s_password := p; s_ssl := s_ssl s;
                      s_path := s_path s; s_auth := s_auth s; s_encryption := s_encryption s;
                      s_key_pem := s_key_pem s; s_pem := s_pem s |};
     g_verify := g_verify g; g_proxy := g_proxy g; g_no_proxy := g_no_proxy g; g_retries := g_retries g;
     g_backoff := g_backoff g; g_key_password := g_key_password g; g_kwargs := g_kwargs g |}.
Definition with_certificate (k c : option (list N)) (g : config) : config :=
  let s := g_settings g in
  {| g_settings := {| s_server := s_server s; s_port := s_port s; s_username := s_username s; s_password := s_password s;
                      s_ssl := s_ssl s; s_path := s_path s; s_auth := s_auth s; s_encryption := s_encryption s;
                      s_key_pem := k; s_pem := c |};
     g_verify := g_verify g; g_proxy := g_proxy g; g_no_proxy := g_no_proxy g; g_retries := g_retries g;
     g_backoff := g_backoff g; g_key_password := g_key_password g; g_kwargs := g_kwargs g |}.
Definition session_of (r : res (transport * session)) : res session :=
  match r with Ok tz => Ok (snd tz) | Err e => Err e end.

(* RFC 5929, 4.1: the hash of the binding by the hash of the certificate's
   signature.  The RFC leaves the last case undefined. *)
Inductive end_point_hash : option (list N) -> list N -> Prop :=
| eph_weak : forall n, n = lit "md5" \/ n = lit "sha1" -> end_point_hash (Some n) (lit "sha256")
| eph_own : forall n, n <> lit "md5" -> n <> lit "sha1" -> end_point_hash (Some n) n
| eph_unknown : end_point_hash None (lit "sha256").
