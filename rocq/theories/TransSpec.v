(* Specification vocabulary for the transport.  Only the data types of
   observable events are taken from the model. *)
From Verif Require Import Base Lit EncModel TransModel.

(* ---- settings ---- *)
(* message encryption is required: always, or auto without TLS *)
Definition encryption_required (s : settings) : Prop :=
  s_encryption s = lit "always" \/ (s_encryption s = lit "auto" /\ s_ssl s = false).
Definition can_encrypt (auth : list N) : Prop :=
  In auth [lit "credssp"; lit "kerberos"; lit "negotiate"; lit "ntlm"].
Definition known_auth (auth : list N) : Prop :=
  can_encrypt auth \/ auth = lit "basic" \/ auth = lit "certificate".
Definition known_encryption (e : list N) : Prop := In e [lit "auto"; lit "always"; lit "never"].
Definition acceptable (s : settings) : Prop :=
  known_auth (s_auth s) /\ known_encryption (s_encryption s) /\
  (encryption_required s -> can_encrypt (s_auth s)).

(* ---- traces ---- *)
Section Traces.
  Context {W : Type}.
  Implicit Types (tr : list (@event W)) (a : @answer W).

  (* a response with a status that is no error *)
  Definition answered_well a : Prop :=
    exists status ct body text, a_outcome a = OResp status ct body text /\ ~ (400 <= status < 600)%Z.
  Definition timed_out a : Prop :=
    a_outcome a = ORaise ReadTimeout \/ a_outcome a = ORaise ConnectTimeout.

  (* the security context the session holds after these events *)
  Fixpoint held_context tr : option (@context W) :=
    match tr with
    | [] => None
    | EvAnswer a :: tr' =>
        match held_context tr' with
        | Some c => Some c
        | None => a_context a
        end
    | _ :: tr' => held_context tr'
    end.

  Definition is_post (e : @event W) : Prop := exists h p c, e = EvPost h p c.
  Definition is_request (e : @event W) : Prop := e = EvProbe \/ is_post e.
  Definition is_sleep (e : @event W) : Prop := exists n, e = EvSleep n.

  (* The body of this request was produced by [c], the context that the session
     held when its last authentication probe, since the last delay, was answered. *)
  Definition sealed_request (wrap : W -> list N -> res (list N * list N * Z * W)) (credssp : bool)
      (messages : list (list N)) (before : list (@event W)) (header payload : list N)
      (by_ctx : option (@context W)) : Prop :=
    exists c m proto ct w before1 a before2 c0,
      by_ctx = Some c /\ In m messages /\
      before = before1 ++ EvProbe :: EvAnswer a :: before2 /\ answered_well a /\
      (forall e, In e before2 -> ~ is_sleep e /\ e <> EvProbe) /\
      held_context (before1 ++ [EvProbe; EvAnswer a]) = Some c0 /\ c_id c = c_id c0 /\
      proto = (if credssp then lit "application/HTTP-CredSSP-session-encrypted"
               else if c_kerberos c0 then lit "application/HTTP-Kerberos-session-encrypted"
               else lit "application/HTTP-SPNEGO-session-encrypted") /\
      wrap_message wrap proto (c_state c) m = Ok (ct, payload, w) /\
      header = ct ++ lit ";protocol=""" ++ proto ++ lit """;boundary=""Encrypted Boundary""".

  Fixpoint count (p : @event W -> bool) tr : nat :=
    match tr with [] => 0 | e :: tr' => (if p e then 1 else 0) + count p tr' end.
  Definition post_event (e : @event W) : bool := match e with EvPost _ _ _ => true | _ => false end.
  Definition probe_event (e : @event W) : bool := match e with EvProbe => true | _ => false end.
  Definition sleep_event (e : @event W) : bool := match e with EvSleep _ => true | _ => false end.

  (* the delays, each with the kind of request it follows (true: a message) *)
  Fixpoint delays (after_post : bool) tr : list (bool * N) :=
    match tr with
    | [] => []
    | EvProbe :: tr' => delays false tr'
    | EvPost _ _ _ :: tr' => delays true tr'
    | EvAnswer _ :: tr' => delays after_post tr'
    | EvSleep f :: tr' => (after_post, f) :: delays after_post tr'
    end.
End Traces.

(* what a server's plain answer (not an encrypted one) amounts to *)
Definition plain_reply (o : outcome) (r : reply) : Prop :=
  match o with
  | ORaise e => r = RExn e
  | OResp status ct body text =>
      (401%Z = status /\ r = RExn AuthenticationError) \/
      ((400 <= status < 600)%Z /\ status <> 401%Z /\ r = RHttp status (match body with [] => [] | _ => text end)) \/
      (~ (400 <= status < 600)%Z /\ r = RBody body)
  end.
Definition not_encrypted (o : outcome) : Prop :=
  match o with
  | ORaise _ => True
  | OResp _ ct _ _ => forall rest, ct <> lit "multipart/encrypted;" ++ rest /\ ct <> lit "multipart/x-multi-encrypted;" ++ rest
  end.

(* what a server's answer, plain or encrypted, amounts to; an encrypted body
   counts only as its decryption by some state of a security context *)
Definition server_reply {W} (unwrap : W -> list N -> list N -> res (list N * W)) (a : @answer W) (r : reply) : Prop :=
  (not_encrypted (a_outcome a) -> plain_reply (a_outcome a) r) /\
  (~ not_encrypted (a_outcome a) -> forall b, r = RBody b ->
     exists status ct body text boundary w w', a_outcome a = OResp status ct body text /\
       ~ (400 <= status < 600)%Z /\ unwrap_message unwrap boundary w body = Ok (b, w')).

(* security contexts do not raise the timeouts of the HTTP library *)
Definition calm_contexts {W} (wrap : W -> list N -> res (list N * list N * Z * W))
    (unwrap : W -> list N -> list N -> res (list N * W)) : Prop :=
  (forall w m, wrap w m <> Err ReadTimeout /\ wrap w m <> Err ConnectTimeout) /\
  (forall w h d, unwrap w h d <> Err ReadTimeout /\ unwrap w h d <> Err ConnectTimeout).
