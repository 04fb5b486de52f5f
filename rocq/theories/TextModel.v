(* Model of the text layer of the CLIXML serializer,
   /repo/src/pypsrp/serializer.py:56-70, 564-611 and 762-803, together with
   the Python codecs it calls (utf-16-be, utf-16-le, hexlify, base64, PKCS7). *)
From Verif Require Import Base.

(* ------------------------------------------------------------------ *)
(* Python codecs *)

Definition is_surrogate (u : N) : bool := (N.leb 55296 u && N.leb u 57343)%bool.
Definition is_high (u : N) : bool := (N.leb 55296 u && N.leb u 56319)%bool.
Definition is_low (u : N) : bool := (N.leb 56320 u && N.leb u 57343)%bool.

(* str.encode("utf-16-be"/"utf-16-le") down to 16-bit units: surrogate code
   points cannot be encoded (UnicodeEncodeError, a ValueError). *)
Definition utf16_units_of (c : N) : res (list N) :=
  if is_surrogate c then Err ValueError
  else if N.ltb c 65536 then Ok [c]
  else Ok [55296 + (c - 65536) / 1024; 56320 + (c - 65536) mod 1024]%N.

Definition utf16_units (s : list N) : res (list N) :=
  do uss <- mapM utf16_units_of s; Ok (concat uss).

Definition unit_be (u : N) : bytes := [u / 256; u mod 256]%N.
Definition unit_le (u : N) : bytes := [u mod 256; u / 256]%N.

Definition utf16be_encode (s : list N) : res bytes :=
  do us <- utf16_units s; Ok (flat_map unit_be us).
Definition utf16le_encode (s : list N) : res bytes :=
  do us <- utf16_units s; Ok (flat_map unit_le us).

(* bytes.decode("utf-16-be"): odd length, lone or swapped surrogates raise
   UnicodeDecodeError (a ValueError). *)
Fixpoint units_of_be (b : bytes) : res (list N) :=
  match b with
  | [] => Ok []
  | h :: l :: b' => do us <- units_of_be b'; Ok ((256 * h + l)%N :: us)
  | [_] => Err ValueError
  end.
Fixpoint units_of_le (b : bytes) : res (list N) :=
  match b with
  | [] => Ok []
  | l :: h :: b' => do us <- units_of_le b'; Ok ((256 * h + l)%N :: us)
  | [_] => Err ValueError
  end.

Fixpoint utf16_decode_units (us : list N) : res (list N) :=
  match us with
  | [] => Ok []
  | u :: us' =>
      if is_high u then
        match us' with
        | v :: us'' =>
            if is_low v then
              do s <- utf16_decode_units us'';
              Ok ((65536 + (u - 55296) * 1024 + (v - 56320))%N :: s)
            else Err ValueError
        | [] => Err ValueError
        end
      else if is_low u then Err ValueError
      else do s <- utf16_decode_units us'; Ok (u :: s)
  end.

Definition utf16be_decode (b : bytes) : res (list N) :=
  do us <- units_of_be b; utf16_decode_units us.
Definition utf16le_decode (b : bytes) : res (list N) :=
  do us <- units_of_le b; utf16_decode_units us.

(* Hexadecimal digits: binascii.hexlify(...).upper() and binascii.unhexlify. *)
Definition hex_digit (d : N) : N := if N.ltb d 10 then (48 + d)%N else (55 + d)%N.
Definition hex_of_byte (b : N) : list N := [hex_digit (b / 16); hex_digit (b mod 16)]%N.
Definition hexlify_upper (b : bytes) : list N := flat_map hex_of_byte b.

Definition hex_value (c : N) : option N :=
  if (N.leb 48 c && N.leb c 57)%bool then Some (c - 48)%N
  else if (N.leb 65 c && N.leb c 70)%bool then Some (c - 55)%N
  else if (N.leb 97 c && N.leb c 102)%bool then Some (c - 87)%N
  else None.

Fixpoint unhexlify (s : list N) : res bytes :=
  match s with
  | [] => Ok []
  | a :: b :: s' =>
      match hex_value a, hex_value b with
      | Some x, Some y => do r <- unhexlify s'; Ok ((16 * x + y)%N :: r)
      | _, _ => Err ValueError
      end
  | [_] => Err ValueError
  end.

(* ------------------------------------------------------------------ *)
(* Serializer._serialize_string, serializer.py:564-588 *)

Definition c_underscore : N := 95%N.
Definition c_x : N := 120%N.
Definition c_X : N := 88%N.
Definition is_x (c : N) : bool := (N.eqb c 120 || N.eqb c 88)%bool.

(* "_x005F_" *)
Definition esc_underscore : list N := [95; 120; 48; 48; 53; 70; 95]%N.

(* serializer.py:585: re.sub("(?i)_(x)", "_x005F_\\1", value).  The scan
   resumes after the matched x. *)
Fixpoint sub_underscore (s : list N) : list N :=
  match s with
  | [] => []
  | c :: s' =>
      if N.eqb c 95 then
        match s' with
        | d :: s'' =>
            if is_x d then esc_underscore ++ d :: sub_underscore s''
            else c :: sub_underscore s'
        | [] => [c]
        end
      else c :: sub_underscore s'
  end.

(* serializer.py:64: the class [\0-\x1f\x7f-\x9f\U00010000-\U0010ffff] *)
Definition needs_escape (c : N) : bool :=
  (N.leb c 31 || (N.leb 127 c && N.leb c 159) || (N.leb 65536 c && N.leb c 1114111))%bool.

(* serializer.py:571-577: rplcr on one matched character. *)
Definition escape_unit (u : N) : list N :=
  [95; 120]%N ++ hexlify_upper (unit_be u) ++ [95]%N.
Definition escape_char (c : N) : list N :=
  match utf16_units_of c with
  | Ok us => flat_map escape_unit us
  | Err _ => [c]                       (* not reachable: needs_escape c *)
  end.

(* serializer.py:586 *)
Definition sub_special (s : list N) : list N :=
  flat_map (fun c => if needs_escape c then escape_char c else [c]) s.

(* serializer.py:564-588 on a str value *)
Definition serialize_string (s : list N) : list N := sub_special (sub_underscore s).

(* ------------------------------------------------------------------ *)
(* Serializer._deserialize_string, serializer.py:762-787 *)

(* one byte of [\0\w] in a bytes pattern *)
Definition is_word_byte (b : N) : bool :=
  (N.eqb b 0 || (N.leb 48 b && N.leb b 57) || (N.leb 65 b && N.leb b 90)
   || N.eqb b 95 || (N.leb 97 b && N.leb b 122))%bool.

(* serializer.py:69: \x00_\x00x([\0\w]{8})\x00_ at the head of the bytes;
   returns group 1 and what follows the match. *)
Definition match_escape (b : bytes) : option (bytes * bytes) :=
  match b with
  | z1 :: u1 :: z2 :: x1 ::
    g1 :: g2 :: g3 :: g4 :: g5 :: g6 :: g7 :: g8 :: z3 :: u2 :: rest =>
      let g := [g1; g2; g3; g4; g5; g6; g7; g8] in
      if list_eqb N.eqb [z1; u1; z2; x1; z3; u2] [0; 95; 0; 120; 0; 95]%N
      then if forallb is_word_byte g then Some (g, rest) else None
      else None
  | _ => None
  end.

(* serializer.py:769-780: rplcr *)
Definition unescape_group (g : bytes) : res bytes :=
  do s <- utf16be_decode g; unhexlify s.

(* serializer.py:786: re.sub over the bytes: leftmost, non-overlapping, at
   every byte position.  [fuel] is the length of the input. *)
Fixpoint sub_escapes (fuel : nat) (b : bytes) : res bytes :=
  match b with
  | [] => Ok []
  | x :: b' =>
      match fuel with
      | O => Err OutOfFuel
      | S fuel' =>
          match match_escape b with
          | Some (g, rest) =>
              do r <- unescape_group g;
              do r' <- sub_escapes fuel' rest;
              Ok (r ++ r')
          | None => do r' <- sub_escapes fuel' b'; Ok (x :: r')
          end
      end
  end.

(* serializer.py:762-787; element text None gives the empty string *)
Definition deserialize_string (v : option (list N)) : res (list N) :=
  match v with
  | None => Ok []
  | Some s =>
      do ub <- utf16be_encode s;
      do bv <- sub_escapes (length ub) ub;
      utf16be_decode bv
  end.

(* ------------------------------------------------------------------ *)
(* base64.b64encode and b64decode of the Python library. *)
Definition b64_char (v : N) : N :=
  if N.ltb v 26 then (65 + v)%N
  else if N.ltb v 52 then (97 + (v - 26))%N
  else if N.ltb v 62 then (48 + (v - 52))%N
  else if N.eqb v 62 then 43%N else 47%N.

Definition b64_value (c : N) : option N :=
  if (N.leb 65 c && N.leb c 90)%bool then Some (c - 65)%N
  else if (N.leb 97 c && N.leb c 122)%bool then Some (c - 71)%N
  else if (N.leb 48 c && N.leb c 57)%bool then Some (c + 4)%N
  else if N.eqb c 43 then Some 62%N
  else if N.eqb c 47 then Some 63%N
  else None.

Fixpoint b64encode (b : bytes) : list N :=
  match b with
  | [] => []
  | [x] => [b64_char (x / 4); b64_char ((x mod 4) * 16); 61; 61]%N
  | [x; y] => [b64_char (x / 4); b64_char ((x mod 4) * 16 + y / 16);
               b64_char ((y mod 16) * 4); 61]%N
  | x :: y :: z :: b' =>
      [b64_char (x / 4); b64_char ((x mod 4) * 16 + y / 16);
       b64_char ((y mod 16) * 4 + z / 64); b64_char (z mod 64)]%N ++ b64encode b'
  end.

(* binascii.a2b_base64 without strict mode: characters outside the alphabet are
   skipped, a complete padding ends the text, and it is an error (a ValueError)
   if the text ends inside a group of four.  [q] is the place in the group,
   [left] the bits not yet given out, [pads] the padding characters seen. *)
Fixpoint b64_scan (q : nat) (left : N) (pads : nat) (s : list N) : res bytes :=
  match s with
  | [] => match q with O => Ok [] | _ => Err ValueError end
  | c :: s' =>
      if N.eqb c 61 then
        if Nat.leb 2 q then
          if Nat.leb 4 (q + S pads) then Ok [] else b64_scan q left (S pads) s'
        else b64_scan q left pads s'
      else
        match b64_value c with
        | None => b64_scan q left pads s'
        | Some v =>
            match q with
            | O => b64_scan 1 v 0 s'
            | S O => do r <- b64_scan 2 (v mod 16) 0 s'; Ok ((left * 4 + v / 16)%N :: r)
            | S (S O) => do r <- b64_scan 3 (v mod 4) 0 s'; Ok ((left * 16 + v / 4)%N :: r)
            | _ => do r <- b64_scan 0 0 0 s'; Ok ((left * 64 + v)%N :: r)
            end
        end
  end.

(* base64.b64decode(text): text that is not ASCII is a ValueError *)
Definition b64decode (s : list N) : res bytes :=
  if forallb (fun c => N.ltb c 128) s then b64_scan 0 0 0 s else Err ValueError.

(* ------------------------------------------------------------------ *)
(* cryptography.hazmat PKCS7 with a block size in bytes, as used by
   serializer.py:603-604 and 800-801. *)
Definition pkcs7_pad (bs : N) (d : bytes) : bytes :=
  let n := (bs - N.of_nat (length d) mod bs)%N in
  d ++ repeat n (N.to_nat n).

Definition pkcs7_unpad (bs : N) (d : bytes) : res bytes :=
  match rev d with
  | [] => Err ValueError
  | n :: _ =>
      let k := (length d - N.to_nat n)%nat in
      if (N.eqb (N.of_nat (length d) mod bs) 0 && N.ltb 0 n && N.leb n bs &&
          Nat.leb (N.to_nat n) (length d) &&
          forallb (N.eqb n) (skipn k d))%bool
      then Ok (firstn k d) else Err ValueError
  end.

(* The session cipher: AES in CBC mode with a zero IV
   (powershell.py:917-921), abstracted to its two directions. *)
Record cipher := mkCipher { ci_block : N; ci_enc : bytes -> bytes; ci_dec : bytes -> bytes }.

(* serializer.py:590-611 *)
Definition serialize_secure_string (ci : option cipher) (value : list N) : res (list N) :=
  match ci with
  | None => Err SerializationError
  | Some c =>
      do string_bytes <- utf16le_encode value;
      let padded := pkcs7_pad (ci_block c) string_bytes in
      Ok (b64encode (ci_enc c padded))
  end.

(* serializer.py:789-803: without a cipher the element itself is returned. *)
Inductive secure_result := RawElement (text : option (list N)) | Plain (s : list N).

Definition deserialize_secure_string (ci : option cipher) (text : option (list N))
  : res secure_result :=
  match ci with
  | None => Ok (RawElement text)
  | Some c =>
      do ss <- b64decode (match text with Some t => t | None => [] end);
      do unp <- pkcs7_unpad (ci_block c) (ci_dec c ss);
      do s <- utf16le_decode unp;
      Ok (Plain s)
  end.
