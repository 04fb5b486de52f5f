(* Python's strict utf-8 codec, as used by to_bytes and to_string,
   /repo/src/pypsrp/_utils.py:9-49, and by ElementTree.tostring. *)
From Verif Require Import Base.

(* str.encode("utf-8") of one code point: surrogates cannot be encoded
   (UnicodeEncodeError, a ValueError). *)
Definition utf8_enc1 (c : N) : res bytes :=
  if N.ltb c 128 then Ok [c]
  else if N.ltb c 2048 then Ok [192 + c / 64; 128 + c mod 64]%N
  else if N.ltb c 65536 then
    if (N.leb 55296 c && N.leb c 57343)%bool then Err ValueError
    else Ok [224 + c / 4096; 128 + c / 64 mod 64; 128 + c mod 64]%N
  else if N.ltb c 1114112 then
    Ok [240 + c / 262144; 128 + c / 4096 mod 64; 128 + c / 64 mod 64; 128 + c mod 64]%N
  else Err ValueError.

Fixpoint utf8_encode (s : list N) : res bytes :=
  match s with
  | [] => Ok []
  | c :: s' => do b <- utf8_enc1 c; do r <- utf8_encode s'; Ok (b ++ r)
  end.

Definition is_cont (b : N) : bool := (N.leb 128 b && N.leb b 191)%bool.

(* bytes.decode("utf-8") in strict mode: stray or missing continuation bytes,
   overlong forms, surrogates and values above U+10FFFF raise
   UnicodeDecodeError (a ValueError). *)
Fixpoint utf8_decode (b : bytes) : res (list N) :=
  match b with
  | [] => Ok []
  | x :: b1 =>
      if N.ltb x 128 then do s <- utf8_decode b1; Ok (x :: s)
      else if N.ltb x 192 then Err ValueError
      else if N.ltb x 224 then
        match b1 with
        | y :: b2 =>
            let c := ((x - 192) * 64 + (y - 128))%N in
            if (is_cont y && N.leb 128 c)%bool
            then do s <- utf8_decode b2; Ok (c :: s) else Err ValueError
        | _ => Err ValueError
        end
      else if N.ltb x 240 then
        match b1 with
        | y :: z :: b3 =>
            let c := ((x - 224) * 4096 + (y - 128) * 64 + (z - 128))%N in
            if (is_cont y && is_cont z && N.leb 2048 c &&
                negb (N.leb 55296 c && N.leb c 57343))%bool
            then do s <- utf8_decode b3; Ok (c :: s) else Err ValueError
        | _ => Err ValueError
        end
      else if N.ltb x 248 then
        match b1 with
        | y :: z :: w :: b4 =>
            let c := ((x - 240) * 262144 + (y - 128) * 4096 + (z - 128) * 64 + (w - 128))%N in
            if (is_cont y && is_cont z && is_cont w && N.leb 65536 c && N.ltb c 1114112)%bool
            then do s <- utf8_decode b4; Ok (c :: s) else Err ValueError
        | _ => Err ValueError
        end
      else Err ValueError
  end.
