(* Property theorems C15, C18, C35 and C36: the HTTP transport. *)
From Verif Require Import Base BaseProofs Lit NumModel EncModel TextModel TransModel TransSpec TransProofs TransProofs2 TransProofs5.

(* ---- examples: a toy context and a scripted network ---- *)
Definition toy_wrap (w : N) (m : list N) : res (list N * list N * Z * N) :=
  Ok ([w]%N, map (fun b => N.lxor b 255) m, 0%Z, (w + 1)%N).
Definition toy_unwrap (w : N) (h d : list N) : res (list N * N) :=
  if list_eqb N.eqb h [w]%N then Ok (map (fun b => N.lxor b 255) d, (w + 1)%N) else Err OtherError.
Definition toy_settings (ssl : bool) (auth enc : String.string) : settings :=
  {| s_server := lit "host"; s_port := None; s_username := Some (lit "u"); s_password := Some (lit "p");
     s_ssl := ssl; s_path := lit "wsman"; s_auth := lit auth; s_encryption := lit enc;
     s_key_pem := None; s_pem := None |}.
Definition no_ipv6 (s : list N) : option (list N) := None.
Definition toy_transport (ssl : bool) (auth enc : String.string) : transport :=
  match transport_init no_ipv6 (toy_settings ssl auth enc) with
  | Ok t => t
  | Err _ => {| t_settings := toy_settings ssl auth enc; t_port := 0; t_wrap := false; t_endpoint := [] |}
  end.
Definition ctx (n : N) : @context N := {| c_id := n; c_state := (100 * n)%N; c_kerberos := false |}.
Definition good (c : option (@context N)) : @answer N := {| a_context := c; a_outcome := OResp 200 [] (lit "ok") (lit "ok") |}.
Definition late : @answer N := {| a_context := None; a_outcome := ORaise ReadTimeout |}.
Definition script (l : list (@answer N)) (n : nat) : @answer N := nth n l late.

(* ------------------------------ C15 ------------------------------ *)

(* Which settings are accepted: exactly the known ones, encryption demanded
   only of a method that can encrypt; the others raise ValueError. *)
Theorem C15_settings_iff : forall (ipv6 : list N -> option (list N)) (s : settings),
  ((exists t, transport_init ipv6 s = Ok t) <-> acceptable s) /\
  (~ acceptable s -> transport_init ipv6 s = Err ValueError).
Proof.
  exact (fun ipv6 s => conj (init_accepts ipv6 s) (fun Hn =>
    match transport_init ipv6 s as r return transport_init ipv6 s = r -> r = Err ValueError with
    | Ok t => fun E => False_ind _ (Hn (proj1 (init_accepts ipv6 s) (ex_intro _ t E)))
    | Err e => fun E => f_equal (@Err transport) (init_error ipv6 s e E)
    end eq_refl)).
Qed.
Print Assumptions C15_settings_iff.

(* A transport encrypts exactly when the settings require it. *)
Theorem C15_wraps_iff_required : forall (ipv6 : list N -> option (list N)) (s : settings) (t : transport),
  transport_init ipv6 s = Ok t -> (t_wrap t = true <-> encryption_required s) /\ t_settings t = s.
Proof. exact init_wrap. Qed.
Print Assumptions C15_wraps_iff_required.

(* Whatever the network answers, whatever is sent with whatever retry limits:
   every message handed to the network by a transport that must encrypt was
   produced by the security context that the session held when its last
   authentication probe was answered, and since then there was no delay. *)
Theorem C15_nothing_in_clear : forall (W : Type) (wrap : W -> list N -> res (list N * list N * Z * W))
    (unwrap : W -> list N -> list N -> res (list N * W)) (net : nat -> @answer W)
    (ipv6 : list N -> option (list N)) (s : settings) (t : transport)
    (ops : list (list N * nat)) (rs : list reply) (st' : @tstate W) (tr : list (@event W)),
  transport_init ipv6 s = Ok t -> encryption_required s ->
  sends wrap unwrap net t ops initial = (rs, st', tr) ->
  forall pre h p c post, tr = pre ++ EvPost h p c :: post ->
    sealed_request wrap (str_eqb (s_auth s) (lit "credssp")) (map fst ops) pre h p c.
Proof.
  exact (fun W wrap unwrap net ipv6 s t ops rs st' tr Hi Hr H =>
    eq_rect (t_settings t) (fun s' => forall pre h p c post, tr = pre ++ EvPost h p c :: post ->
      sealed_request wrap (str_eqb (s_auth s') (lit "credssp")) (map fst ops) pre h p c)
      (sends_protected wrap unwrap net t ops rs st' tr (proj2 (proj1 (init_wrap ipv6 s t Hi)) Hr) H)
      s (proj2 (init_wrap ipv6 s t Hi))).
Qed.
Print Assumptions C15_nothing_in_clear.

(* a timeout in the middle: the message is sealed again by the second context *)
Example C15_nothing_in_clear_case :
  let t := toy_transport false "negotiate" "auto" in
  let '(rs, _, tr) := sends toy_wrap toy_unwrap (script [good (Some (ctx 1)); late; good (Some (ctx 2)); good None]) t
                        [(lit "hello", 3)] initial in
  rs = [RBody (lit "ok")] /\ encryption_required (t_settings t) /\
  map (fun e => match e with EvPost _ _ (Some c) => c_id c | EvPost _ _ None => 99 | EvProbe => 10 | EvAnswer _ => 11 | EvSleep f => 20 + f end)%N tr
  = [10; 11; 1; 11; 21; 10; 11; 2; 11]%N.
Proof. vm_compute. repeat split. right. split; reflexivity. Qed.

(* Finding: the comment in send says that a failure invalidates the encryption
   state; it does so only when it tries again.  After the last timeout the next
   message is sealed by the old context without a new authentication. *)
Theorem C15_fresh_after_timeout_refuted :
  exists (net : nat -> @answer N) (t : transport) (ops : list (list N * nat)) (pre : list (@event N)) h p c post,
    t_wrap t = true /\
    snd (sends toy_wrap toy_unwrap net t ops initial) = pre ++ EvAnswer late :: EvPost h p c :: post /\ timed_out late.
Proof.
  exists (script [good (Some (ctx 1)); late; good None]), (toy_transport false "negotiate" "auto"),
    [(lit "a", 0); (lit "b", 0)].
  let y := eval vm_compute in (snd (sends toy_wrap toy_unwrap (script [good (Some (ctx 1)); late; good None])
    (toy_transport false "negotiate" "auto") [(lit "a", 0); (lit "b", 0)] initial)) in
  match y with [?e1; ?e2; ?e3; ?e4; EvPost ?h ?p ?c; ?e6] => exists [e1; e2; e3], h, p, c, [e6] end.
  split; [vm_compute; reflexivity|]. split; [vm_compute; reflexivity|]. left. reflexivity.
Qed.
Print Assumptions C15_fresh_after_timeout_refuted.

(* ------------------------------ C18 ------------------------------ *)

(* At most retries + 1 attempts, of the message as of the probe, and at most
   [retries] delays; so without retries the message goes out at most once. *)
Theorem C18_bounded : forall (W : Type) (wrap : W -> list N -> res (list N * list N * Z * W))
    (unwrap : W -> list N -> list N -> res (list N * W)) (net : nat -> @answer W) (t : transport)
    (message : list N) (retries : nat) (st : @tstate W) (r : reply) (st' : @tstate W) (tr : list (@event W)),
  send wrap unwrap net t message retries st = (r, st', tr) ->
  count post_event tr <= S retries /\ count probe_event tr <= S retries /\ count sleep_event tr <= retries.
Proof. exact @send_bounded. Qed.
Print Assumptions C18_bounded.

Example C18_bounded_case :
  let '(r, _, tr) := send toy_wrap toy_unwrap (script [late; late; good None; good None]) (toy_transport true "basic" "auto") (lit "m") 5 initial in
  r = RBody (lit "ok") /\ count post_event tr = 3 /\ count probe_event tr = 0 /\ delays false tr = [(true, 1); (true, 3)]%N.
Proof. vm_compute. repeat split. Qed.

(* An answer is followed by something only if it timed out, then by a delay and
   a new attempt, which starts with a probe when messages are encrypted; or if
   it answers a probe well, then by the message. *)
Theorem C18_only_timeouts_are_retried : forall (W : Type) (wrap : W -> list N -> res (list N * list N * Z * W))
    (unwrap : W -> list N -> list N -> res (list N * W)) (net : nat -> @answer W) (t : transport)
    (message : list N) (retries : nat) (st : @tstate W) (r : reply) (st' : @tstate W) (tr : list (@event W)),
  send wrap unwrap net t message retries st = (r, st', tr) -> calm_contexts wrap unwrap ->
  forall pre q a post, tr = pre ++ q :: EvAnswer a :: post -> is_request q -> post <> [] ->
  (timed_out a /\ exists f q' post', post = EvSleep f :: q' :: post' /\ (if t_wrap t then q' = EvProbe else is_post q')) \/
  (answered_well a /\ q = EvProbe /\ exists h p c post', post = EvPost h p c :: post').
Proof. exact @send_retries. Qed.
Print Assumptions C18_only_timeouts_are_retried.

Example C18_only_timeouts_case :
  calm_contexts toy_wrap toy_unwrap /\
  (let '(r, _, tr) := send toy_wrap toy_unwrap (script [late; {| a_context := None; a_outcome := OResp 500 [] (lit "x") (lit "x") |}; good None])
     (toy_transport true "basic" "auto") (lit "m") 5 initial in
   r = RHttp 500 (lit "x") /\ count post_event tr = 2).
Proof.
  split; [|vm_compute; split; reflexivity]. split.
  - intros w m. unfold toy_wrap. split; discriminate.
  - intros w h d. unfold toy_unwrap. destruct (list_eqb _ _ _); split; discriminate.
Qed.

(* Every request is answered before anything else happens. *)
Theorem C18_one_at_a_time : forall (W : Type) (wrap : W -> list N -> res (list N * list N * Z * W))
    (unwrap : W -> list N -> list N -> res (list N * W)) (net : nat -> @answer W) (t : transport)
    (message : list N) (retries : nat) (st : @tstate W) (r : reply) (st' : @tstate W) (tr : list (@event W)),
  send wrap unwrap net t message retries st = (r, st', tr) ->
  forall pre q post, tr = pre ++ q :: post -> is_request q -> exists a post', post = EvAnswer a :: post'.
Proof. exact @send_answers. Qed.
Print Assumptions C18_one_at_a_time.

(* Every attempt carries the message itself, in clear or sealed. *)
Theorem C18_same_message : forall (W : Type) (wrap : W -> list N -> res (list N * list N * Z * W))
    (unwrap : W -> list N -> list N -> res (list N * W)) (net : nat -> @answer W) (t : transport)
    (message : list N) (retries : nat) (st : @tstate W) (r : reply) (st' : @tstate W) (tr : list (@event W)),
  send wrap unwrap net t message retries st = (r, st', tr) ->
  forall pre h p c post, tr = pre ++ EvPost h p c :: post ->
  if t_wrap t then exists c' proto ct w, c = Some c' /\ wrap_message wrap proto (c_state c') message = Ok (ct, p, w)
  else h = lit "application/soap+xml;charset=UTF-8" /\ p = message /\ c = None.
Proof. exact @send_posts. Qed.
Print Assumptions C18_same_message.

(* What send gives back is what the last answer amounts to; a body is that of
   an answer to the message, with a status that is no error.  Otherwise it is
   one of its own errors: no context after the probe, a context that could not
   seal the message, or settings that give no session. *)
Theorem C18_last_answer_decides : forall (W : Type) (wrap : W -> list N -> res (list N * list N * Z * W))
    (unwrap : W -> list N -> list N -> res (list N * W)) (net : nat -> @answer W) (t : transport)
    (message : list N) (retries : nat) (st : @tstate W) (r : reply) (st' : @tstate W) (tr : list (@event W)),
  send wrap unwrap net t message retries st = (r, st', tr) ->
  (exists pre q a, tr = pre ++ [q; EvAnswer a] /\ is_request q /\ server_reply unwrap a r /\
      (forall b, r = RBody b -> is_post q /\ answered_well a)) \/
  (r = RExn KeyError /\ exists pre a, tr = pre ++ [EvProbe; EvAnswer a] /\ answered_well a) \/
  (t_wrap t = true /\ exists e, r = RExn e /\ (e = AttributeError \/ exists proto w, wrap_message wrap proto w message = Err e)) \/
  (tr = [] /\ st_session st = false /\ exists e, build_session t = Err e /\ r = RExn e).
Proof. exact @send_reply. Qed.
Print Assumptions C18_last_answer_decides.

(* A timeout is raised only when the retries are used up, and it is the one of
   the last request. *)
Theorem C18_timeout_only_when_exhausted : forall (W : Type) (wrap : W -> list N -> res (list N * list N * Z * W))
    (unwrap : W -> list N -> list N -> res (list N * W)) (net : nat -> @answer W) (t : transport)
    (message : list N) (retries : nat) (st : @tstate W) (r : reply) (st' : @tstate W) (tr : list (@event W)),
  send wrap unwrap net t message retries st = (r, st', tr) -> calm_contexts wrap unwrap ->
  forall e, r = RExn e -> (e = ReadTimeout \/ e = ConnectTimeout) ->
  count sleep_event tr = retries /\ exists pre q a, tr = pre ++ [q; EvAnswer a] /\ is_request q /\ a_outcome a = ORaise e.
Proof. exact @send_timeout. Qed.
Print Assumptions C18_timeout_only_when_exhausted.

Example C18_timeout_case :
  let '(r, _, tr) := send toy_wrap toy_unwrap (script []) (toy_transport false "ntlm" "always") (lit "m") 4 initial in
  r = RExn ReadTimeout /\ delays false tr = [(false, 2); (false, 4); (false, 8); (false, 16)]%N.
Proof. vm_compute. split; reflexivity. Qed.

(* The delays, in units of reconnection_backoff: the i-th is 2^i after a probe
   and 2^i - 1 after a message. *)
Theorem C18_delays : forall (W : Type) (wrap : W -> list N -> res (list N * list N * Z * W))
    (unwrap : W -> list N -> list N -> res (list N * W)) (net : nat -> @answer W) (t : transport)
    (message : list N) (retries : nat) (st : @tstate W) (r : reply) (st' : @tstate W) (tr : list (@event W)),
  send wrap unwrap net t message retries st = (r, st', tr) ->
  forall i k f, nth_error (delays false tr) i = Some (k, f) -> f = (2 ^ N.of_nat (S i) - (if k then 1 else 0))%N.
Proof. exact @send_delays. Qed.
Print Assumptions C18_delays.

(* So successive delays do not double, as the README and C18 say (X, 2X, 4X):
   after messages they are 1, 3, 7. *)
Theorem C18_delays_double_refuted : exists (net : nat -> @answer N) (t : transport) (m : list N) (k : nat) tr x y rest,
  snd (send toy_wrap toy_unwrap net t m k initial) = tr /\ delays false tr = (true, x) :: (true, y) :: rest /\ y <> (2 * x)%N.
Proof.
  exists (script []), (toy_transport true "basic" "auto"), (lit "m"), 3.
  eexists. exists 1%N, 3%N, [(true, 7%N)]. split; [reflexivity|]. split; [vm_compute; reflexivity|discriminate].
Qed.
Print Assumptions C18_delays_double_refuted.

(* ------------------------------ C35 ------------------------------ *)
Theorem C35_endpoint : forall (ipv6 : list N -> option (list N)) (s : settings) (t : transport),
  transport_init ipv6 s = Ok t ->
  t_endpoint t =
    (if s_ssl s then lit "https" else lit "http") ++ lit "://" ++
    match ipv6 (s_server s) with Some a => lit "[" ++ a ++ lit "]" | None => s_server s end ++
    lit ":" ++ py_str (match s_port s with Some p => p | None => if s_ssl s then 5986%Z else 5985%Z end) ++
    lit "/" ++ s_path s.
Proof. exact init_endpoint. Qed.
Print Assumptions C35_endpoint.

Example C35_endpoint_case :
  (match transport_init (fun s => if str_eqb s (lit "FE80::0001") then Some (lit "fe80::1") else None)
     {| s_server := lit "FE80::0001"; s_port := None; s_username := None; s_password := None; s_ssl := true;
        s_path := lit "wsman"; s_auth := lit "negotiate"; s_encryption := lit "auto"; s_key_pem := None; s_pem := None |} with
   | Ok t => t_endpoint t = lit "https://[fe80::1]:5986/wsman"
   | Err _ => False
   end) /\ t_endpoint (toy_transport false "ntlm" "auto") = lit "http://host:5985/wsman".
Proof. vm_compute. split; reflexivity. Qed.

(* ------------------------------ C36 ------------------------------ *)

(* Full claim: rest + base64(payload) <= limit whenever the payload is within
   max_payload_size.  False when the room left is 2 or 3 above a multiple of
   four (below); true otherwise, and never wrong by more than two bytes. *)
Theorem C36_payload_fits_partial : forall (est limit rest : Z) (payload : list N),
  (0 <= limit - (est + 256))%Z -> (rest <= est + 256)%Z -> (zlen payload <= max_payload_size est limit)%Z ->
  (rest + zlen (b64encode payload) <= limit + 2)%Z /\
  ((limit - (est + 256)) mod 4 <= 1 -> rest + zlen (b64encode payload) <= limit)%Z.
Proof. exact payload_bound. Qed.
Print Assumptions C36_payload_fits_partial.

(* Not wasteful: four bytes more never fit beside a full envelope. *)
Theorem C36_payload_maximal : forall (est limit : Z) (payload : list N),
  (0 <= limit - (est + 256))%Z -> (max_payload_size est limit + 4 <= zlen payload)%Z ->
  (limit < (est + 256) + zlen (b64encode payload))%Z.
Proof. exact payload_tight. Qed.
Print Assumptions C36_payload_maximal.

Theorem C36_payload_fits_refuted : exists (est limit rest : Z) (payload : list N),
  (0 <= limit - (est + 256) /\ rest <= est + 256 /\ zlen payload <= max_payload_size est limit /\
   rest + zlen (b64encode payload) = limit + 2)%Z.
Proof. exists 1000%Z, 1266%Z, 1256%Z, [1;2;3;4;5;6;7]%N. vm_compute. repeat split; discriminate. Qed.
Print Assumptions C36_payload_fits_refuted.

Example C36_case : (0 <= 1264 - (1000 + 256) /\ zlen (lit "abcdef") <= max_payload_size 1000 1264 /\ (1264 - 1256) mod 4 = 0)%Z.
Proof. vm_compute. repeat split; discriminate. Qed.
