(* Model of src/pypsrp/negotiate.py:80-199, HTTPNegotiateAuth.

   Header values are text with code points below 256, as http.client decodes
   them.  The security context (spnego), the network and the hash are oracles.
   Not modelled: log messages, warnings, consuming the content of a response
   and releasing its connection. *)
From Verif Require Import Base Lit NumModel TextModel.

(* str.upper() and str.lower() on code points below 256; others are left as
   they are *)
Definition up1 (c : N) : list N :=
  if (N.leb 97 c && N.leb c 122)%bool then [(c - 32)%N]
  else if N.eqb c 181 then [924%N]
  else if N.eqb c 223 then [83%N; 83%N]
  else if N.eqb c 255 then [376%N]
  else if (N.leb 224 c && N.leb c 254 && negb (N.eqb c 247))%bool then [(c - 32)%N]
  else [c].
Definition uppercase (s : list N) : list N := flat_map up1 s.
Definition low1 (c : N) : N :=
  if (N.leb 65 c && N.leb c 90)%bool then (c + 32)%N
  else if (N.leb 192 c && N.leb c 222 && negb (N.eqb c 215))%bool then (c + 32)%N
  else c.
Definition lowercase (s : list N) : list N := map low1 s.

(* text.startswith(p), and p in text *)
Fixpoint starts (p s : list N) : bool :=
  match p, s with
  | [], _ => true
  | x :: p', y :: s' => (N.eqb x y && starts p' s')%bool
  | _ :: _, [] => false
  end.
Fixpoint within (p s : list N) : bool :=
  (starts p s || match s with [] => false | _ :: s' => within p s' end)%bool.

(* negotiate.py:93, the schemes in the order of preference *)
Definition preferred : list (list N) := [lit "Negotiate"; lit "Kerberos"; lit "NTLM"].

(* _check_auth_supported: negotiate.py:172-182.  [header] is
   response.headers.get("www-authenticate", "") *)
Definition check_auth_supported (header : list N) (providers : list (list N)) : res (list N) :=
  match filter (fun p => within (uppercase p) (uppercase header)) providers with
  | [] => Err AuthenticationError
  | p :: _ => Ok p
  end.

(* handle_401's choice of the protocol of the context: negotiate.py:101-114 *)
Definition choose_protocol (configured offered : list N) : res (list N) :=
  let l := lowercase offered in
  if str_eqb l configured then Ok configured
  else if str_eqb configured (lit "negotiate") then Ok l
  else if str_eqb l (lit "negotiate") then Ok configured
  else Err ValueError.

(* The pattern of negotiate.py:82: one of the names Kerberos, Negotiate, NTLM
   compared without case, then blanks, then a group of all characters up to the
   next comma.  Simplified: re.I also lets a long s or a
   Kelvin sign match, which are not below 256. *)
Fixpoint starts_nocase (p s : list N) : option (list N) :=
  match p, s with
  | [], _ => Some s
  | x :: p', y :: s' => if N.eqb (low1 x) (if (N.ltb y 128) then low1 y else y) then starts_nocase p' s' else None
  | _ :: _, [] => None
  end.
Definition match_name (s : list N) : option (list N) :=
  match starts_nocase (lit "Kerberos") s with
  | Some r => Some r
  | None => match starts_nocase (lit "Negotiate") s with
            | Some r => Some r
            | None => starts_nocase (lit "NTLM") s
            end
  end.
Fixpoint upto_comma (s : list N) : list N :=
  match s with c :: s' => if N.eqb c 44 then [] else c :: upto_comma s' | [] => [] end.
(* pattern.search(header).group(2), the leftmost match: the blanks after the
   name are skipped, the group takes the rest *)
Fixpoint search_token (s : list N) : option (list N) :=
  match match_name s with
  | Some r => Some (upto_comma (drop_while is_space r))
  | None => match s with [] => None | _ :: s' => search_token s' end
  end.
(* _get_auth_token: negotiate.py:190-199 *)
Definition get_auth_token (header : list N) : res (option bytes) :=
  match search_token header with
  | None => Ok None
  | Some t => do b <- b64decode t; Ok (Some b)
  end.
(* _set_auth_token: negotiate.py:184-188.  b64encode(None) is a TypeError; the
   name is ASCII. *)
Definition auth_header (scheme : list N) (token : option bytes) : res (list N) :=
  match token with
  | Some b => Ok (scheme ++ [32%N] ++ b64encode b)
  | None => Err TypeError
  end.

(* A response: status and www-authenticate header *)
Record answer := mkAnswer { a_status : Z; a_auth : list N }.

(* What happens between the client, the security context and the server. *)
Inductive happening :=
| HStep (input : option bytes) (output : res (option bytes))   (* context.step(input) *)
| HRequest (authorization : list N)      (* a request went out with that header *)
| HAnswer (a : answer).                  (* its response *)

Section Exchange.
  (* [CS]: the state of the security context; [NS]: of the server and network *)
  Context {CS NS : Type}.
  Context (step : CS -> option bytes -> res (option bytes) * CS) (complete : CS -> bool).
  Context (send : NS -> list N -> res answer * NS).

  Definition tokenless (t : option bytes) : bool := match t with None | Some [] => true | _ => false end.

  (* the while loop: negotiate.py:141-164; [response] is the last one, [log]
     what happened, oldest first *)
  Fixpoint exchange (fuel : nat) (scheme : list N) (out : option bytes) (response : answer) (cs : CS) (ns : NS)
    : res answer * CS * NS * list happening :=
    if (complete cs && match out with None => true | Some _ => false end)%bool then (Ok response, cs, ns, [])
    else
      match fuel with
      | O => (Err OutOfFuel, cs, ns, [])
      | S fuel' =>
          match auth_header scheme out with
          | Err e => (Err e, cs, ns, [])
          | Ok h =>
              let '(r, ns1) := send ns h in
              match r with
              | Err e => (Err e, cs, ns1, [HRequest h])
              | Ok a =>
                  match get_auth_token (a_auth a) with
                  | Err e => (Err e, cs, ns1, [HRequest h; HAnswer a])
                  | Ok t =>
                      if tokenless t then (Ok a, cs, ns1, [HRequest h; HAnswer a])
                      else
                        let '(o, cs1) := step cs t in
                        match o with
                        | Err e => (Err e, cs1, ns1, [HRequest h; HAnswer a; HStep t o])
                        | Ok out' =>
                            let '(x, cs2, ns2, log) := exchange fuel' scheme out' a cs1 ns1 in
                            (x, cs2, ns2, HRequest h :: HAnswer a :: HStep t o :: log)
                        end
                  end
              end
          end
      end.

  (* handle_401 after the context was made, negotiate.py:140-169 *)
  Definition authenticate (fuel : nat) (scheme : list N) (first : answer) (cs : CS) (ns : NS)
    : res answer * CS * NS * list happening :=
    let '(o, cs1) := step cs None in
    match o with
    | Err e => (Err e, cs1, ns, [HStep None o])
    | Ok out => let '(x, cs2, ns2, log) := exchange fuel scheme out first cs1 ns in (x, cs2, ns2, HStep None o :: log)
    end.

  (* response_hook and handle_401: negotiate.py:90-169.  [client] makes the
     context for a protocol.  The answer, and the contexts kept per host with
     the scheme of the MIME protocol (response_auth_header). *)
  Definition response_hook (fuel : nat) (client : list N -> res CS) (configured host : list N) (response : answer) (ns : NS)
      (contexts : list (list N * (CS * list N)))
    : res answer * list (list N * (CS * list N)) * NS * list happening :=
    if Z.eqb (a_status response) 401 then
      match check_auth_supported (a_auth response) preferred with
      | Err e => (Err e, contexts, ns, [])
      | Ok offered =>
          match choose_protocol configured offered with
          | Err e => (Err e, contexts, ns, [])
          | Ok protocol =>
              match client protocol with
              | Err e => (Err e, contexts, ns, [])
              | Ok cs =>
                  let '(x, cs', ns', log) := authenticate fuel offered response cs ns in
                  (* the attribute is set only when the loop ended *)
                  let name := match x with Ok _ => lowercase offered | Err _ => [] end in
                  (x, dict_set str_eqb host (cs', name) contexts, ns', log)
              end
          end
      end
    else (Ok response, contexts, ns, []).
End Exchange.

