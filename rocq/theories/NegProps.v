(* The properties of authentication (C32, C33). *)
From Verif Require Import Base Lit NumModel TextModel NegModel NegSpec NegProofs.
Require Import Lia ZifyBool ZifyNat ZifyN.

Section S.
  (* any security context, any server *)
  Context {CS NS : Type}.
  Context (step : CS -> option bytes -> res (option bytes) * CS) (complete : CS -> bool).
  Context (send : NS -> list N -> res answer * NS).

  (* C32: an answer that is not a 401 is returned as it is, nothing is sent *)
  Theorem C32_not_challenged fuel client configured host a ns contexts : a_status a <> 401%Z ->
    response_hook step complete send fuel client configured host a ns contexts = (Ok a, contexts, ns, []).
  Proof. exact (@hook_other CS NS step complete send fuel client configured host a ns contexts). Qed.

  (* C32: the names are looked for in the header without regard to case; when
     none is there AuthenticationError is raised and nothing is sent *)
  Theorem C32_none_offered fuel client configured host a ns contexts : a_status a = 401%Z -> latin (a_auth a) ->
    ~ occurs negotiate (a_auth a) -> ~ occurs kerberos (a_auth a) -> ~ occurs ntlm (a_auth a) ->
    response_hook step complete send fuel client configured host a ns contexts = (Err AuthenticationError, contexts, ns, []).
  Proof. exact (@hook_none CS NS step complete send fuel client configured host a ns contexts). Qed.

  (* C32: Negotiate if it is in the header, else Kerberos, else NTLM: it is the
     scheme of every request; the context is made for a permitted protocol and
     made with the first challenge; where no protocol is permitted, ValueError *)
  Theorem C32_scheme fuel client configured host a ns contexts offered x contexts' ns' l :
    a_status a = 401%Z -> latin (a_auth a) ->
    (offered = negotiate /\ occurs negotiate (a_auth a) \/
     offered = kerberos /\ ~ occurs negotiate (a_auth a) /\ occurs kerberos (a_auth a) \/
     offered = ntlm /\ ~ occurs negotiate (a_auth a) /\ ~ occurs kerberos (a_auth a) /\ occurs ntlm (a_auth a)) ->
    response_hook step complete send fuel client configured host a ns contexts = (x, contexts', ns', l) ->
    (forall h, In h (requests_out l) -> exists token, h = offered ++ [32%N] ++ b64encode token) /\
    (l <> [] -> exists protocol cs, permitted configured offered protocol /\ client protocol = Ok cs /\
       exists cs', authenticate step complete send fuel offered a cs ns = (x, cs', ns', l)) /\
    (lowercase offered <> configured -> configured <> lit "negotiate" -> offered <> negotiate ->
       x = Err ValueError /\ contexts' = contexts /\ ns' = ns /\ l = []).
  Proof. exact (@hook_scheme CS NS step complete send fuel client configured host a ns contexts offered x contexts' ns' l). Qed.

  (* C32: what the client would do with the context of a protocol that is not
     permitted has no influence *)
  Theorem C32_permitted_only fuel client client' configured host a ns contexts offered :
    a_status a = 401%Z -> latin (a_auth a) ->
    (offered = negotiate /\ occurs negotiate (a_auth a) \/
     offered = kerberos /\ ~ occurs negotiate (a_auth a) /\ occurs kerberos (a_auth a) \/
     offered = ntlm /\ ~ occurs negotiate (a_auth a) /\ ~ occurs kerberos (a_auth a) /\ occurs ntlm (a_auth a)) ->
    (forall p, permitted configured offered p -> client p = client' p) ->
    response_hook step complete send fuel client configured host a ns contexts
    = response_hook step complete send fuel client' configured host a ns contexts.
  Proof. exact (@hook_permitted CS NS step complete send fuel client client' configured host a ns contexts offered). Qed.

  (* C33: every token the context made was sent, once, in order, under the
     scheme.  For headers whose token is the base64 text after the first name,
     the context was given nothing, then the tokens of the answers, each once
     and in order; the loop ended at the first answer without a token, or when
     the context was complete and had made nothing; it goes on only as long as
     tokens come. *)
  Theorem C33_exchange_partial fuel scheme first cs ns x cs' ns' l :
    authenticate step complete send fuel scheme first cs ns = (x, cs', ns', l) ->
    (x <> Err OutOfFuel -> requests_out l = map (fun b => scheme ++ [32%N] ++ b64encode b) (tokens_made l)) /\
    (forall ts, Forall2 carries (map a_auth (answers l)) ts ->
       fed l = None :: map Some (somes ts) /\
       (forall a, x = Ok a ->
          (exists front, answers l = front ++ [a] /\ (exists ts', ts = ts' ++ [None] /\ Forall (fun t => t <> None) ts') /\
             Forall (fun o => exists t, o = Ok (Some t)) (made l)) \/
          (Forall (fun t => t <> None) ts /\ complete cs' = true /\
             (exists os, made l = os ++ [Ok None] /\ Forall (fun o => exists t, o = Ok (Some t)) os) /\
             (answers l = [] /\ a = first \/ exists front, answers l = front ++ [a]))) /\
       ((forall c i, fst (step c i) <> Err OutOfFuel) -> (forall n h, fst (send n h) <> Err OutOfFuel) -> x = Err OutOfFuel -> length (somes ts) = fuel)).
  Proof. exact (@authenticate_log CS NS step complete send fuel scheme first cs ns x cs' ns' l). Qed.

  (* C33: the context the exchange ran on is kept for that host, with the
     scheme in lower case when the exchange ended; those of other hosts stay,
     and where nothing was done nothing is kept *)
  Theorem C33_kept fuel client configured host a ns contexts x contexts' ns' l :
    response_hook step complete send fuel client configured host a ns contexts = (x, contexts', ns', l) ->
    (forall other, other <> host -> dict_get str_eqb other contexts' = dict_get str_eqb other contexts) /\
    (l = [] -> contexts' = contexts) /\
    (l <> [] -> exists offered protocol cs cs' name, client protocol = Ok cs /\
       authenticate step complete send fuel offered a cs ns = (x, cs', ns', l) /\ dict_get str_eqb host contexts' = Some (cs', name) /\
       (forall r, x = Ok r -> In (offered, name) [(negotiate, lit "negotiate"); (kerberos, lit "kerberos"); (ntlm, lit "ntlm")])).
  Proof. exact (@hook_kept CS NS step complete send fuel client configured host a ns contexts x contexts' ns' l). Qed.
End S.
Print Assumptions C33_kept.
Print Assumptions C32_not_challenged.
Print Assumptions C32_none_offered.
Print Assumptions C32_scheme.
Print Assumptions C32_permitted_only.
Print Assumptions C33_exchange_partial.

(* a context that makes two tokens and is then complete; a server that answers
   one token and then the page *)
Definition toy_step (n : nat) (i : option bytes) : res (option bytes) * nat :=
  (Ok (match n with 0 => Some [1%N; 2%N] | 1 => Some [3%N] | _ => None end), S n).
Definition toy_complete (n : nat) : bool := Nat.leb 2 n.
Definition toy_send (n : nat) (h : list N) : res answer * nat :=
  (Ok (match n with 0 => mkAnswer 401 (lit "nEgotiate CQk=, Basic realm=x") | _ => mkAnswer 200 [] end), S n).
Definition challenge : answer := mkAnswer 401 (lit "Basic realm=x, KERBEROS, negotiate").
Example C32_case :
  response_hook toy_step toy_complete toy_send 10 (fun p => if str_eqb p (lit "kerberos") then Ok 0%nat else Err ValueError) (lit "kerberos") (lit "srv") challenge 0%nat []
  = (Ok (mkAnswer 200 []), [(lit "srv", (2%nat, lit "negotiate"))], 2%nat,
     [HStep None (Ok (Some [1%N; 2%N])); HRequest (lit "Negotiate AQI="); HAnswer (mkAnswer 401 (lit "nEgotiate CQk=, Basic realm=x"));
      HStep (Some [9%N; 9%N]) (Ok (Some [3%N])); HRequest (lit "Negotiate Aw=="); HAnswer (mkAnswer 200 [])]).
Proof. vm_compute. reflexivity. Qed.
Example C33_case : carries (lit "nEgotiate CQk=, Basic realm=x") (Some [9%N; 9%N]) /\ carries [] None.
Proof.
  split.
  - change (lit "nEgotiate CQk=, Basic realm=x") with ([] ++ lit "nEgotiate" ++ lit " " ++ b64encode [9%N; 9%N] ++ lit ", Basic realm=x").
    apply (Token [] negotiate).
    + left. reflexivity.
    + unfold negotiate. unfold same_nocase, same_letter. cbv [lit map list_ascii_of_string N_of_ascii N_of_digits]. cbn. repeat (apply Forall2_cons; [lia|]). apply Forall2_nil.
    + apply Forall_cons; [reflexivity|apply Forall_nil].
    + right. eexists. reflexivity.
    + apply Forall_cons; [lia|]. apply Forall_cons; [lia|]. apply Forall_nil.
    + discriminate.
    + intros k K. cbn in K. lia.
  - apply NoName. intros k K (name & t & r & I & E & F). rewrite skipn_nil in E. destruct t; [|discriminate E].
    destruct I as [<-|[<-|[<-|[]]]]; inversion F.
Qed.

(* C32, found: a name anywhere in the header counts as an offer, also inside
   the realm of another scheme *)
Theorem C32_realm_refuted : exists a, a_auth a = lit "Basic realm=""negotiate""" /\
  requests_out (snd (response_hook toy_step toy_complete toy_send 10 (fun _ => Ok 0%nat) (lit "negotiate") (lit "srv") a 0%nat [])) <> [].
Proof. exists (mkAnswer 401 (lit "Basic realm=""negotiate""")). split; [reflexivity|]. vm_compute. discriminate. Qed.
Print Assumptions C32_realm_refuted.
(* C32, found: str.upper() makes SS of a sharp s, so a name that is not there
   is found; the theorems are stated for headers without that letter *)
Theorem C32_sharp_s_refuted : exists h, ~ occurs kerberos h /\ check_auth_supported h preferred = Ok kerberos.
Proof.
  exists (lit "kerbero" ++ [223%N]). split; [|vm_compute; reflexivity]. intros (a & t & b & E & F).
  pose proof (f_equal (@length _) E) as L. rewrite !app_length in L. assert (Lt : length t = 8%nat) by (rewrite <- (forall2_length _ _ _ F); reflexivity).
  change (length (lit "kerbero") + length [223%N])%nat with 8%nat in L. destruct a; [|cbn [length] in L; lia]. destruct b; [|cbn [length] in L; lia].
  cbn [app] in E. rewrite app_nil_r in E. subst t. clear - F.
  change kerberos with (lit "Kerbero" ++ [115%N]) in F. apply Forall2_app_inv_l in F. destruct F as (l1 & l2 & F1 & F2 & E).
  assert (length l1 = 7%nat) by (rewrite <- (forall2_length _ _ _ F1); reflexivity).
  assert (l2 = [223%N]).
  { assert (X := f_equal (skipn 7) E). rewrite (skipn_app 7 l1 l2), H, (skipn_all2 l1) in X by lia. cbn [app Nat.sub skipn] in X. rewrite <- X. reflexivity. }
  subst l2. inversion F2 as [|? ? ? ? S _]. unfold same_letter in S. subst. lia.
Qed.
Print Assumptions C32_sharp_s_refuted.

(* C33, found: only the first name in a header is looked at: the token of a
   later challenge is not read, and the exchange stops *)
Theorem C33_first_only_refuted : exists a, a_auth a = lit "Kerberos, Negotiate CQk=" /\
  let send (n : nat) (h : list N) := (Ok a, S n) in
  let '(x, _, _, l) := authenticate toy_step toy_complete send 10 (lit "Negotiate") challenge 0%nat 0%nat in
  x = Ok a /\ fed l = [None] /\ length (answers l) = 1%nat.
Proof. exists (mkAnswer 401 (lit "Kerberos, Negotiate CQk=")). split; [reflexivity|]. vm_compute. auto. Qed.
Print Assumptions C33_first_only_refuted.
(* C33, found: a context with nothing to send that is not complete is an error
   of b64encode, not the end of the exchange *)
Theorem C33_nothing_to_send_refuted : exists (step : nat -> option bytes -> res (option bytes) * nat),
  let '(x, _, _, l) := authenticate step (fun _ => false) toy_send 10 (lit "Negotiate") challenge 0%nat 0%nat in
  x = Err TypeError /\ requests_out l = [].
Proof. exists (fun n _ => (Ok None, n)). vm_compute. auto. Qed.
Print Assumptions C33_nothing_to_send_refuted.
