(* Model of src/pypsrp/encryption.py (WinRM message encryption). *)
From Verif Require Import Base Lit NumModel ReModel.

(* bytes matched by \s and removed by bytes.strip() *)
Definition byte_space (c : N) : bool := ((N.leb 9 c && N.leb c 13) || N.eqb c 32)%bool.

(* int(bytes): as int(str), but only the ASCII blanks and digits count *)
Definition bytes_int (s : list N) : res Z :=
  if existsb (fun c => (N.leb 28 c && N.leb c 31) || N.leb 128 c)%bool s then Err ValueError
  else py_int s.

(* encryption.py:13-17 *)
Definition SIXTEEN_KB : Z := 16384.
Definition mime_boundary : bytes := lit "--Encrypted Boundary".
Definition CREDSSP : bytes := lit "application/HTTP-CredSSP-session-encrypted".
Definition KERBEROS : bytes := lit "application/HTTP-Kerberos-session-encrypted".
Definition SPNEGO : bytes := lit "application/HTTP-SPNEGO-session-encrypted".
Definition crlf : bytes := [13; 10]%N.

(* struct.pack("<i", n) and struct.unpack("<i", b) *)
Definition pack_i (n : Z) : res bytes :=
  if ((- 2147483648 <=? n) && (n <? 2147483648))%Z
  then Ok (le_bytes 4 (Z.to_N (n mod 4294967296))) else Err StructError.
Definition unpack_i (b : bytes) : res Z :=
  do v <- struct_unpack_le 4 b;
  Ok (if (Z.of_N v <? 2147483648)%Z then Z.of_N v else (Z.of_N v - 4294967296)%Z).

Section Encryption.
  (* The security context: spnego / CredSSP objects outside of the library.
     [W] and [U] are their states; wrap_winrm gives header, data and padding
     length, unwrap_winrm takes header and data. *)
  Context {W U : Type}.
  Context (wrap_winrm : W -> bytes -> res (bytes * bytes * Z * W)).
  Context (unwrap_winrm : U -> bytes -> bytes -> res (bytes * U)).

  (* encryption.py:81-97 _wrap_message *)
  Definition wrap_part (proto : bytes) (w : W) (message : bytes) : res (bytes * W) :=
    do '(header, data, padding, w') <- wrap_winrm w message;
    do hl <- pack_i (zlen header);
    let msg_length := py_str (zlen message + padding)%Z in
    let payload := join crlf
      [ mime_boundary;
        lit "	Content-Type: " ++ proto;
        lit "	OriginalContent: type=application/soap+xml;charset=UTF-8;Length=" ++ msg_length;
        mime_boundary;
        lit "	Content-Type: application/octet-stream";
        [] ] in
    Ok (payload ++ hl ++ header ++ data, w').

  Fixpoint wrap_parts (proto : bytes) (w : W) (chunks : list bytes) : res (bytes * W) :=
    match chunks with
    | [] => Ok ([], w)
    | c :: cs =>
        do '(p, w1) <- wrap_part proto w c;
        do '(ps, w2) <- wrap_parts proto w1 cs;
        Ok (p ++ ps, w2)
    end.

  (* encryption.py:24-41 wrap_message: content type and body *)
  Definition wrap_message (proto : bytes) (w : W) (message : bytes) : res (bytes * bytes * W) :=
    if (str_eqb proto CREDSSP && (SIXTEEN_KB <? zlen message)%Z)%bool then
      do starts <- py_range0 (zlen message) SIXTEEN_KB;
      let chunks := map (fun i => py_slice message i (i + SIXTEEN_KB)) starts in
      do '(enc, w') <- wrap_parts proto w chunks;
      Ok (lit "multipart/x-multi-encrypted", enc ++ mime_boundary ++ lit "--" ++ crlf, w')
    else
      do '(enc, w') <- wrap_part proto w message;
      Ok (lit "multipart/encrypted", enc ++ mime_boundary ++ lit "--" ++ crlf, w').

  (* The two patterns of encryption.py:48 and :62, "--", blanks, the boundary
     and then CR LF, or "--" CR LF at the end ($ also matches before a final
     line feed).  Blanks are matched greedily with backtracking.  Simplified:
     the second pattern inserts the boundary without escaping it; the model
     takes it literally, which is the same when it has no special character. *)
  Fixpoint m_after_blanks (k : list N -> option nat) (s : list N) : option nat :=
    match s with
    | c :: s' =>
        if byte_space c then
          match m_after_blanks k s' with
          | Some n => Some (S n)
          | None => k s
          end
        else k s
    | [] => k s
    end.

  Definition m_delim (boundary : bytes) (s : bytes) : option nat :=
    match after (lit "--") s with
    | Some s1 =>
        match m_after_blanks (m_lit (boundary ++ crlf)) s1 with
        | Some n => Some (2 + n)
        | None => None
        end
    | None => None
    end.

  Definition m_lit_end (p : bytes) (s : bytes) : option nat :=
    match after p s with
    | Some [] => Some (length p)
    | Some [c] => if N.eqb c 10 then Some (length p) else None
    | _ => None
    end.

  Definition m_final (boundary : bytes) (s : bytes) : option nat :=
    match after (lit "--") s with
    | Some s1 =>
        match m_after_blanks (m_lit_end (boundary ++ lit "--" ++ crlf)) s1 with
        | Some n => Some (2 + n)
        | None => None
        end
    | None => None
    end.

  Definition octet_stream : bytes := lit "	Content-Type: application/octet-stream" ++ crlf.

  Definition nonempty (p : bytes) : bool := match p with [] => false | _ => true end.

  (* encryption.py:52-77, one turn of the loop *)
  Definition unwrap_part (boundary : bytes) (u : U) (head payload : bytes) : res (bytes * U) :=
    let header := strip_by byte_space head in
    do expected <-
      match re_split (m_lit (lit "Length=")) 0 header with
      | _ :: t :: _ => bytes_int t
      | _ => Err IndexError
      end;
    let payload := re_del (m_final boundary) 0 payload in
    let wrapped := re_del (m_lit octet_stream) 0 payload in
    do header_length <- unpack_i (slice_to wrapped 4);
    let h := py_slice wrapped 4 (4 + header_length) in
    let data := slice_from wrapped (4 + header_length) in
    do '(plain, u') <- unwrap_winrm u h data;
    if (zlen plain =? expected)%Z then Ok (plain, u') else Err WinRMError.

  Fixpoint unwrap_parts (boundary : bytes) (u : U) (parts : list bytes) : res (bytes * U) :=
    match parts with
    | [] => Ok ([], u)
    | [_] => Err IndexError
    | head :: payload :: rest =>
        do '(m, u1) <- unwrap_part boundary u head payload;
        do '(ms, u2) <- unwrap_parts boundary u1 rest;
        Ok (m ++ ms, u2)
    end.

  (* encryption.py:43-79 unwrap_message *)
  Definition unwrap_message (boundary : bytes) (u : U) (message : bytes) : res (bytes * U) :=
    unwrap_parts boundary u (filter nonempty (re_split (m_delim boundary) 0 message)).
End Encryption.
