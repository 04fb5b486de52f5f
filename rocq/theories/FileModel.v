(* Model of Client.copy and Client.fetch (src/pypsrp/client.py:68-143, 235-291)
   and of the two remote scripts (src/pypsrp/pwsh_scripts/copy.ps1, fetch.ps1).

   SHA1 is an oracle [sha1] from all the data to the digest; feeding it in
   blocks is feeding it the concatenation.  That the items reach the script
   and its output the client is the subject of C40, C20 and others; here what
   arrives is arbitrary.  Not modelled: log messages, warnings, expansion of
   variables in local paths. *)
From Verif Require Import Base Lit NumModel TextModel.

(* ---- digests as text ---- *)
(* hexdigest(): two lower-case digits per byte *)
Definition hex_low (d : N) : N := if N.ltb d 10 then (48 + d)%N else (87 + d)%N.
Definition hexdigest_of (b : bytes) : list N := flat_map (fun x => [hex_low (x / 16); hex_low (x mod 16)])%N b.
(* [System.BitConverter]::ToString: pairs of upper-case digits with dashes between *)
Fixpoint bit_converter (b : bytes) : list N :=
  match b with
  | [] => []
  | [x] => hex_of_byte x
  | x :: b' => hex_of_byte x ++ 45%N :: bit_converter b'
  end.
(* .Replace("-", "").ToLowerInvariant(), on these characters *)
Definition net_lower (c : N) : N := if (N.leb 65 c && N.leb c 90)%bool then (c + 32)%N else c.
Definition net_hash_text (digest : bytes) : list N :=
  map net_lower (filter (fun c => negb (N.eqb c 45)) (bit_converter digest)).

(* [System.Convert]::FromBase64String: blanks (9, 10, 13, 32) are skipped; groups of four
   characters, padding only in the last; anything else is a FormatException *)
Definition net_blank (c : N) : bool := (N.eqb c 9 || N.eqb c 10 || N.eqb c 13 || N.eqb c 32)%bool.
Fixpoint net_groups (s : list N) : res bytes :=
  match s with
  | [] => Ok []
  | a :: b :: c :: d :: s' =>
      match b64_value a, b64_value b, b64_value c, b64_value d with
      | Some x, Some y, Some z, Some t =>
          do r <- net_groups s'; Ok ((x * 4 + y / 16)%N :: (y mod 16 * 16 + z / 4)%N :: (z mod 4 * 64 + t)%N :: r)
      | Some x, Some y, Some z, None =>
          if (N.eqb d 61 && match s' with [] => true | _ => false end)%bool
          then Ok [(x * 4 + y / 16)%N; (y mod 16 * 16 + z / 4)%N] else Err OtherError
      | Some x, Some y, None, None =>
          if (N.eqb c 61 && N.eqb d 61 && match s' with [] => true | _ => false end)%bool
          then Ok [(x * 4 + y / 16)%N] else Err OtherError
      | _, _, _, _ => Err OtherError
      end
  | _ => Err OtherError
  end.
Definition net_b64 (s : list N) : res bytes := net_groups (filter (fun c => negb (net_blank c)) s).

(* ---- copy: the local side ---- *)
(* client.py:124.  Simplified: exact arithmetic; the float is exact below 2^53. *)
Definition buffer_size (max_payload_size : Z) : Z := Z.quot ((max_payload_size - 82) * 3) 4.

(* What src_file.read(size) gives, call after call, until it gives nothing, for
   a file that does not change: a negative size reads all there is. *)
Fixpoint pieces (fuel n : nat) (b : bytes) : list bytes :=
  match fuel, b with
  | S f, _ :: _ => firstn n b :: pieces f n (skipn n b)
  | _, _ => []
  end.
Definition file_reads (size : Z) (content : bytes) : list bytes :=
  if Z.eqb size 0 then []
  else if Z.ltb size 0 then match content with [] => [] | _ => [content] end
  else pieces (length content) (Z.to_nat size) content.

Section Copy.
  Context (sha1 : bytes -> bytes).

  (* read_buffer: client.py:93-112.  [reads] are the pieces read, [total] the
     size asked for before.  Each element is what one step yields. *)
  Fixpoint read_loop (total : Z) (done : bytes) (reads : list bytes) : list (list (list N)) :=
    match reads with
    | [] => match done with [] => [[[]; b64encode (hexdigest_of (sha1 []))]] | _ => [] end
    | d :: reads' =>
        let done := done ++ d in
        (b64encode d :: (if Z.eqb (zlen done) total then [b64encode (hexdigest_of (sha1 done))] else []))
          :: read_loop total done reads'
    end.
  Definition read_buffer (total : Z) (reads : list bytes) : list (list (list N)) := read_loop total [] reads.
  (* the objects sent: a list is sent element by element (powershell.py:1265-1268, C40) *)
  Definition copy_items (total : Z) (reads : list bytes) : list (list N) := concat (read_buffer total reads).

  (* ---- copy.ps1 ---- *)
  (* Files of a host.  Paths are compared exactly. *)
  Notation files := (list (list N * bytes)).
  (* How the host behaves: GetUnresolvedProviderPathFromPSPath after the
     expansion, UTF8.GetString, the comparison -ne (which ignores case), FullName,
     whether Delete and Move work.  The temporary file is created and removed by
     the script and is kept out of [files]. *)
  Record host := mkHost {
    h_resolve : list N -> bool -> res (list N);
    h_utf8 : bytes -> list N;
    h_same : list N -> list N -> bool;
    h_fullname : list N -> list N;
    h_delete : list N -> bool;
    h_move : list N -> bool }.

  (* the process block: copy.ps1:91-98.  [last] is $bytes, [written] what was
     written to the temporary file and hashed *)
  Fixpoint copy_process (last : option bytes) (written : bytes) (items : list (list N)) : res (option bytes * bytes) :=
    match items with
    | [] => Ok (last, written)
    | i :: items' =>
        let written := match last with Some b => written ++ b | None => written end in
        do b <- net_b64 i; copy_process (Some b) written items'
    end.
  (* the whole script, copy.ps1:91-133: output, or an error that ends it, and the files *)
  Definition copy_script (h : host) (dest : list N) (expand : bool) (items : list (list N)) (fs : files)
    : res (list (list N)) * files :=
    match copy_process None [] items with
    | Err e => (Err e, fs)
    | Ok (last, written) =>
        match h_resolve h dest expand with
        | Err e => (Err e, fs)
        | Ok path =>
            match last with
            | None => (Err OtherError, fs)         (* GetString($null) *)
            | Some b =>
                if h_same h (net_hash_text (sha1 written)) (h_utf8 h b) then
                  if h_delete h path then
                    let fs1 := dict_del str_eqb path fs in
                    if h_move h path then (Ok [h_fullname h path], dict_set str_eqb path written fs1)
                    else (Err OtherError, fs1)
                  else (Err OtherError, fs)
                else (Err OtherError, fs)          (* throw "Transport failure, hash mismatch..." *)
            end
        end
    end.

  (* client.py:134-143 and 324-328: an error that ends the script makes the
     pipeline Failed, which sets had_errors (powershell.py:1585-1586) *)
  Definition copy_result (r : res (list (list N))) : res (list N) :=
    match r with
    | Err _ => Err WinRMError
    | Ok out => match rev out with o :: _ => Ok (py_strip o) | [] => Err IndexError end
    end.
  Definition copy (h : host) (max_payload_size total : Z) (reads : Z -> list bytes) (dest : list N) (expand : bool) (fs : files)
    : res (list N) * files :=
    let '(r, fs') := copy_script h dest expand (copy_items total (reads (buffer_size max_payload_size))) fs in
    (copy_result r, fs').

  (* ---- fetch.ps1 ---- *)
  (* fetch.ps1:29-41.  [reads]: what each fs.Read got.  The place in the buffer
     is given as $offset, although the buffer is a new one of $bytes_to_read
     bytes: a second read after a short one is an ArgumentException.  The buffer
     is filled with zeros.  Result: the output so far, and $bytes with what was
     hashed or the error. *)
  Fixpoint fetch_loop (to_read offset : nat) (last : option bytes) (hashed : bytes) (reads : list bytes)
    : list (list N) * res (option bytes * bytes) :=
    match to_read with
    | O => ([], Ok (last, hashed))
    | _ =>
        match reads with
        | [] => ([], Err OutOfFuel)
        | d :: reads' =>
            match offset with
            | O =>
                let buffer := d ++ repeat 0%N (to_read - length d) in
                let '(out, r) := fetch_loop (to_read - length d) (length d) (Some buffer) (hashed ++ buffer) reads' in
                (b64encode buffer :: out, r)
            | _ => ([], Err OtherError)
            end
        end
    end.
  (* fetch.ps1:9-46 for a file that is there; TransformFinalBlock($null, 0, 0) is
     an ArgumentNullException *)
  Definition fetch_script (size : nat) (reads : list bytes) : list (list N) * res unit :=
    let '(out, r) := fetch_loop size 0 None [] reads in
    match r with
    | Err e => (out, Err e)
    | Ok (None, _) => (out, Err OtherError)
    | Ok (Some _, hashed) => (out ++ [net_hash_text (sha1 hashed)], Ok tt)
    end.

  (* ---- fetch: the local side ---- *)
  (* an object of the output *)
  Inductive output := OText (s : list N) | OBytes (b : bytes) | OOther.
  (* base64.b64decode(value); bytes are scanned without the ASCII test *)
  Definition decode_output (o : output) : res bytes :=
    match o with OText s => b64decode s | OBytes b => b64_scan 0 0 0 b | OOther => Err TypeError end.
  Definition output_is (o : output) (s : list N) : bool := match o with OText t => str_eqb t s | _ => false end.

  (* How the local system behaves: the name mkstemp gives, how many bytes
     os.write takes, and what shutil.copy does with a destination: all is well,
     or an error that leaves it [Some] way ([None]: as it was). *)
  Inductive copying := CopyDone | CopyFailed (left : option bytes).
  Record local := mkLocal {
    l_temp : list N;
    l_write : bytes -> res nat;
    l_copy : copying }.

  (* client.py:267-291, after mkstemp; the last step is the finally block *)
  Definition fetch_checked (l : local) (dest : list N) (outs : list output) (expected : output) (fs : files) : res unit * files :=
    match outs with
    | [] => (Err IndexError, fs)
    | o :: _ =>
        match decode_output o with
        | Err e => (Err e, fs)
        | Ok b =>
            match l_write l b with
            | Err e => (Err e, fs)
            | Ok n =>
                let fs1 := dict_set str_eqb (l_temp l) (firstn n b) fs in
                if output_is expected (hexdigest_of (sha1 b)) then
                  match l_copy l with
                  | CopyDone => (Ok tt, dict_set str_eqb dest (firstn n b) fs1)
                  | CopyFailed None => (Err OtherError, fs1)
                  | CopyFailed (Some x) => (Err OtherError, dict_set str_eqb dest x fs1)
                  end
                else (Err WinRMError, fs1)
            end
        end
    end.
  (* client.py:254-291: [outs] is powershell.output, [failed] had_errors *)
  Definition fetch (l : local) (dest : list N) (outs : list output) (failed : bool) (fs : files) : res unit * files :=
    if failed then (Err WinRMError, fs)
    else match rev outs with
    | [] => (Err IndexError, fs)
    | expected :: _ =>
        let fs0 := dict_set str_eqb (l_temp l) [] fs in
        let '(r, fs') := fetch_checked l dest outs expected fs0 in
        (r, dict_del str_eqb (l_temp l) fs')
    end.
End Copy.
