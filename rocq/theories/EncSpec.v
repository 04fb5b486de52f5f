(* Specification vocabulary for message encryption; independent of the model. *)
From Verif Require Import Base Lit.

Definition blank_byte (c : N) : Prop := In c [9; 10; 11; 12; 13; 32]%N.
Definition contains (x s : list N) : Prop := exists a b, s = a ++ x ++ b.
Definition newline : list N := [13; 10]%N.

(* what separates the parts of a body: "--", blanks, the boundary, CR LF *)
Definition delimiter (boundary d : list N) : Prop :=
  exists bl, Forall blank_byte bl /\ d = lit "--" ++ bl ++ boundary ++ newline.

(* the binary content of a part contains nothing that looks like a MIME delimiter *)
Definition opaque (x : list N) : Prop :=
  (forall bl, Forall blank_byte bl -> ~ contains (lit "--" ++ bl ++ lit "Encrypted Boundary") x) /\
  ~ contains (lit "	Content-Type: application/octet-stream" ++ newline) x.

(* decimal text of a length *)
Definition decimal_of (s : list N) (n : N) : Prop :=
  s <> [] /\ Forall (fun c => (48 <= c <= 57)%N) s /\
  fold_left (fun a c => 10 * a + (c - 48))%N s 0%N = n.

(* one encrypted part: declared length, header and data of the security context *)
Record part := { p_length : Z; p_header : list N; p_data : list N }.
Definition part_binary (p : part) : list N :=
  le_bytes 4 (Z.to_N (zlen (p_header p))) ++ p_header p ++ p_data p.

(* the text of a part on the wire *)
Inductive part_text (proto : list N) : part -> list N -> Prop :=
| part_text_intro p digits :
    (0 <= p_length p)%Z -> decimal_of digits (Z.to_N (p_length p)) ->
    part_text proto p
      (lit "--Encrypted Boundary" ++ newline ++
       lit "	Content-Type: " ++ proto ++ newline ++
       lit "	OriginalContent: type=application/soap+xml;charset=UTF-8;Length=" ++ digits ++ newline ++
       lit "--Encrypted Boundary" ++ newline ++
       lit "	Content-Type: application/octet-stream" ++ newline ++
       part_binary p).

(* the whole body *)
Definition body_text (proto : list N) (parts : list part) (body : list N) : Prop :=
  exists texts, Forall2 (part_text proto) parts texts /\
    body = concat texts ++ lit "--Encrypted Boundary--" ++ newline.

(* how a message is cut: CredSSP messages over 16 KiB in pieces of 16 KiB, the
   last one possibly shorter, anything else not at all *)
Definition credssp_protocol : list N := lit "application/HTTP-CredSSP-session-encrypted".
Definition protocols : list (list N) :=
  [credssp_protocol; lit "application/HTTP-Kerberos-session-encrypted";
   lit "application/HTTP-SPNEGO-session-encrypted"].
Definition cut_message (proto m : list N) (pieces : list (list N)) : Prop :=
  concat pieces = m /\
  ((proto = credssp_protocol /\ (16384 < zlen m)%Z) ->
     exists full last, pieces = full ++ [last] /\ Forall (fun p => zlen p = 16384%Z) full /\
                       (1 <= zlen last <= 16384)%Z) /\
  (~ (proto = credssp_protocol /\ (16384 < zlen m)%Z) -> pieces = [m]).

(* a run of the sending context over the pieces of a message *)
Section Runs.
  Context {W U : Type}.
  Inductive sealed (wrap : W -> list N -> res (list N * list N * Z * W)) :
      W -> list (list N) -> list part -> W -> Prop :=
  | sealed_nil w : sealed wrap w [] [] w
  | sealed_cons w m ms h d pad w1 ps w2 :
      wrap w m = Ok (h, d, pad, w1) -> sealed wrap w1 ms ps w2 ->
      sealed wrap w (m :: ms) ({| p_length := zlen m + pad; p_header := h; p_data := d |} :: ps) w2.

  (* the receiving context undoes the sending one; [R] relates their states;
     the padding announced by the sender is at the end of the plain text *)
  Definition matching (wrap : W -> list N -> res (list N * list N * Z * W))
      (unwrap : U -> list N -> list N -> res (list N * U)) (R : W -> U -> Prop) : Prop :=
    forall w u m h d pad w', R w u -> wrap w m = Ok (h, d, pad, w') ->
      exists padding u', zlen padding = pad /\ unwrap u h d = Ok (m ++ padding, u') /\ R w' u'.

  (* decryption of a sequence of parts: the declared lengths are those of the
     plain texts and the plain texts make up the message *)
  Inductive opened (unwrap : U -> list N -> list N -> res (list N * U)) :
      U -> list part -> list N -> U -> Prop :=
  | opened_nil u : opened unwrap u [] [] u
  | opened_cons u p ps plain u1 r u2 :
      unwrap u (p_header p) (p_data p) = Ok (plain, u1) -> zlen plain = p_length p ->
      opened unwrap u1 ps r u2 -> opened unwrap u (p :: ps) (plain ++ r) u2.
End Runs.

(* pieces of a message, each followed by its padding *)
Inductive padded : list (list N) -> list N -> Prop :=
| padded_nil : padded [] []
| padded_cons m pad ms r : padded ms r -> padded (m :: ms) ((m ++ pad) ++ r).

(* cutting a body at its delimiters: leftmost delimiters first *)
Inductive cut_at (is_delim : list N -> Prop) : list N -> list (list N) -> Prop :=
| cut_last p : (forall a d b, p = a ++ d ++ b -> ~ is_delim d) -> cut_at is_delim p [p]
| cut_next p d rest ps : is_delim d ->
    (* no delimiter starts before this one *)
    (forall a c d' b, p = a ++ c -> c <> [] -> c ++ d ++ rest = d' ++ b -> ~ is_delim d') ->
    cut_at is_delim rest ps -> cut_at is_delim (p ++ d ++ rest) (p :: ps).

(* the length announced by the head of a part: the integer [int] written after
   the first "Length=" of the head without the blanks around it.  [reads] is
   Python's reading of an integer. *)
Definition announces (reads : list N -> res Z) (head : list N) (n : Z) : Prop :=
  exists b1 b2 a t c, Forall blank_byte b1 /\ Forall blank_byte b2 /\
    head = b1 ++ (a ++ lit "Length=" ++ t ++ c) ++ b2 /\
    (forall x y, a ++ lit "Length=" ++ t ++ c = x ++ lit "Length=" ++ y -> length a <= length x) /\
    (c = [] \/ exists c', c = lit "Length=" ++ c') /\ reads t = Ok n.

(* heads and payloads alternate *)
Inductive alternate {A : Type} : list A -> list A -> list A -> Prop :=
| alternate_nil : alternate [] [] []
| alternate_cons h p l hs ps : alternate l hs ps -> alternate (h :: p :: l) (h :: hs) (p :: ps).
