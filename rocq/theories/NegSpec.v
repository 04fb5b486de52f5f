(* Authentication as a user sees it: which schemes a header offers, which token
   an answer carries, and what passed between the client, the security context
   and the server. *)
From Verif Require Import Base Lit NumModel TextModel NegModel.

(* equal letters, or an ASCII letter in its two cases *)
Definition same_letter (a b : N) : Prop :=
  a = b \/ (65 <= a <= 90 /\ b = a + 32)%N \/ (65 <= b <= 90 /\ a = b + 32)%N.
Definition same_nocase : list N -> list N -> Prop := Forall2 same_letter.
(* the name occurs somewhere in the header *)
Definition occurs (name header : list N) : Prop :=
  exists a t b, header = a ++ t ++ b /\ same_nocase name t.
(* what an HTTP header may contain, without the sharp s *)
Definition latin (header : list N) : Prop := Forall (fun c => (c < 256)%N /\ c <> 223%N) header.

Definition negotiate := lit "Negotiate".
Definition kerberos := lit "Kerberos".
Definition ntlm := lit "NTLM".

(* the protocol a context may be made for, when [offered] is the scheme chosen
   from the header *)
Definition permitted (configured offered protocol : list N) : Prop :=
  same_nocase offered configured /\ protocol = configured \/
  configured = lit "negotiate" /\ same_nocase offered protocol \/
  same_nocase offered (lit "negotiate") /\ protocol = configured.

(* ---- tokens in a header ---- *)
Definition name_here (s : list N) : Prop :=
  exists name t r, In name [negotiate; kerberos; ntlm] /\ s = t ++ r /\ same_nocase name t.
(* no name starts before place [n] *)
Definition none_before (n : nat) (s : list N) : Prop := forall k, k < n -> ~ name_here (skipn k s).
Definition blanks (s : list N) : Prop := Forall (fun c => is_space c = true) s.
Definition ends_item (rest : list N) : Prop := rest = [] \/ exists r, rest = 44%N :: r.

(* [carries h t]: the token the header carries.  The name may be anywhere but
   must be the first of the three names in the header. *)
Inductive carries : list N -> option bytes -> Prop :=
| NoName h : none_before (S (length h)) h -> carries h None
| NoToken a name t b rest :
    In name [negotiate; kerberos; ntlm] -> same_nocase name t -> blanks b -> ends_item rest ->
    none_before (length a) (a ++ t ++ b ++ rest) -> carries (a ++ t ++ b ++ rest) None
| Token a name t b tok rest :
    In name [negotiate; kerberos; ntlm] -> same_nocase name t -> blanks b -> ends_item rest -> bytes_ok tok -> tok <> [] ->
    none_before (length a) (a ++ t ++ b ++ b64encode tok ++ rest) -> carries (a ++ t ++ b ++ b64encode tok ++ rest) (Some tok).

(* ---- the exchange ---- *)
Definition fed (l : list happening) : list (option bytes) := flat_map (fun h => match h with HStep i _ => [i] | _ => [] end) l.
Definition made (l : list happening) : list (res (option bytes)) := flat_map (fun h => match h with HStep _ o => [o] | _ => [] end) l.
Definition requests_out (l : list happening) : list (list N) := flat_map (fun h => match h with HRequest a => [a] | _ => [] end) l.
Definition answers (l : list happening) : list answer := flat_map (fun h => match h with HAnswer a => [a] | _ => [] end) l.
(* the tokens among what the context gave *)
Definition tokens_made (l : list happening) : list bytes := flat_map (fun o => match o with Ok (Some b) => [b] | _ => [] end) (made l).
Definition somes {A} (l : list (option A)) : list A := flat_map (fun o => match o with Some a => [a] | None => [] end) l.
