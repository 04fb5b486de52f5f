(* Independent specification for the text layer. *)
From Verif Require Import Base TextModel.

(* Unicode scalar values: code points that are not surrogates. *)
Definition scalar (c : N) : Prop := (c < 55296 \/ 57343 < c /\ c < 1114112)%N.
Definition scalars (s : list N) : Prop := Forall scalar s.

(* Characters that may stand for themselves in the escaped form: no C0, DEL,
   C1 and nothing outside the BMP. *)
Definition plain_char (c : N) : Prop :=
  (32 <= c /\ c < 127 \/ 160 <= c /\ c < 65536)%N.

Definition upper_hex (c : N) : Prop := (48 <= c <= 57 \/ 65 <= c <= 70)%N.

Definition starts_with_x (s : list N) : Prop :=
  match s with c :: _ => c = 120%N \/ c = 88%N | [] => False end.

(* The escaped language: a sequence of characters standing for themselves,
   where an underscore is not followed by x or X, and of escapes _xHHHH_. *)
Inductive escaped : list N -> Prop :=
| e_nil : escaped []
| e_char : forall c s,
    plain_char c -> (c = 95%N -> ~ starts_with_x s) -> escaped s -> escaped (c :: s)
| e_code : forall h1 h2 h3 h4 s,
    upper_hex h1 -> upper_hex h2 -> upper_hex h3 -> upper_hex h4 ->
    escaped s -> escaped ([95; 120; h1; h2; h3; h4; 95]%N ++ s).

(* Nothing to escape: only characters that stand for themselves and no
   underscore before x or X. *)
Inductive harmless : list N -> Prop :=
| h_nil : harmless []
| h_cons : forall c s,
    plain_char c -> (c = 95%N -> ~ starts_with_x s) -> harmless s -> harmless (c :: s).

(* The XML 1.0 Char production. *)
Definition xml_char (c : N) : Prop :=
  (c = 9 \/ c = 10 \/ c = 13 \/ 32 <= c <= 55295 \/ 57344 <= c <= 65533 \/ 65536 <= c <= 1114111)%N.

(* NUL, a digit, an ASCII letter or an underscore. *)
Definition nul_or_word (b : N) : Prop :=
  (b = 0 \/ 48 <= b <= 57 \/ 65 <= b <= 90 \/ b = 95 \/ 97 <= b <= 122)%N.

(* The bytes of _xHHHH_ lying across character boundaries of UTF-16 text:
   a character U+kk00, then U+5F00, U+78g1, U+g2g3, U+g4g5, U+g6g7, U+g800,
   U+5Fyy, all of them written as themselves. *)
Definition straddle (k g1 g2 g3 g4 g5 g6 g7 g8 y : N) : list N :=
  [256 * k; 24320; 30720 + g1; 256 * g2 + g3; 256 * g4 + g5;
   256 * g6 + g7; 256 * g8; 24320 + y]%N.
Inductive has_straddle : list N -> Prop :=
| hs_here : forall k g1 g2 g3 g4 g5 g6 g7 g8 y s,
    (k < 256)%N -> (y < 256)%N ->
    Forall nul_or_word [g1; g2; g3; g4; g5; g6; g7; g8] ->
    harmless (straddle k g1 g2 g3 g4 g5 g6 g7 g8 y) ->
    has_straddle (straddle k g1 g2 g3 g4 g5 g6 g7 g8 y ++ s)
| hs_next : forall c s, has_straddle s -> has_straddle (c :: s).

(* The base64 alphabet. *)
Definition b64_alphabet (c : N) : Prop :=
  (65 <= c <= 90 \/ 97 <= c <= 122 \/ 48 <= c <= 57 \/ c = 43 \/ c = 47)%N.

(* [t] is [s] with characters of neither the alphabet nor the padding put in *)
Inductive sprinkled : list N -> list N -> Prop :=
| SprNil : sprinkled [] []
| SprKeep c s t : sprinkled s t -> sprinkled (c :: s) (c :: t)
| SprPut c s t : (c < 128)%N -> c <> 61%N -> ~ b64_alphabet c -> sprinkled s t -> sprinkled s (c :: t).

(* RFC 4648, table 1: the character of each value. *)
Definition b64_index (c v : N) : Prop :=
  (v <= 25 /\ c = v + 65 \/ 26 <= v <= 51 /\ c = v - 26 + 97 \/
   52 <= v <= 61 /\ c = v - 52 + 48 \/ v = 62 /\ c = 43 \/ v = 63 /\ c = 47)%N.

(* A block cipher usable as session cipher: a block size that fits the padding
   byte, and decryption undoes encryption on non-empty whole blocks. *)
Definition inverts_on_blocks (c : cipher) : Prop :=
  (0 < ci_block c < 256)%N /\
  forall d k, bytes_ok d -> N.of_nat (length d) = (ci_block c * N.of_nat (S k))%N ->
              bytes_ok (ci_enc c d) /\ ci_dec c (ci_enc c d) = d.
