(* The properties of copying and fetching files (C29, C30). *)
From Verif Require Import Base Lit NumModel TextModel FileModel FileSpec FileProofs.

Section S.
  (* any function for SHA1, as long as digests are bytes *)
  Context (sha1 : bytes -> bytes).

  (* C29: a file that does not change while it is read arrives as it is, empty
     or not, whatever the payload size (but see C29_small_payload_refuted): the
     destination holds exactly its bytes, no other file changes *)
  Theorem C29_delivered h m content dest expand fs path :
    sane h -> (forall b, bytes_ok b -> bytes_ok (sha1 b)) -> bytes_ok content -> (m < 81 \/ 83 < m)%Z ->
    h_resolve h dest expand = Ok path -> h_delete h path = true -> h_move h path = true ->
    exists fs', copy sha1 h m (zlen content) (fun size => file_reads size content) dest expand fs = (Ok (py_strip (h_fullname h path)), fs') /\
      now_holds path content fs fs'.
  Proof. exact (@copy_delivers sha1 h m content dest expand fs path). Qed.

  (* C29: whatever items arrive at the script, if it succeeds then the last is
     the checksum of all others, and those are what the destination holds; if it
     fails nothing has changed (but see C29_move_refuted) *)
  Theorem C29_checked_partial h dest expand items fs r fs' : copy_script sha1 h dest expand items fs = (r, fs') ->
    (forall out, r = Ok out -> exists ds d path, items_carry items (ds ++ [d]) /\ h_resolve h dest expand = Ok path /\
       h_same h (net_hash_text (sha1 (concat ds))) (h_utf8 h d) = true /\ out = [h_fullname h path] /\ now_holds path (concat ds) fs fs') /\
    (forall e, r = Err e -> (forall path, h_delete h path = true -> h_move h path = true) -> fs' = fs).
  Proof. exact (@copy_checked sha1 h dest expand items fs r fs'). Qed.

  (* C29: items whose last is not the checksum of the others: an error, nothing
     changed *)
  Theorem C29_mismatch h dest expand items fs ds d : items_carry items (ds ++ [d]) ->
    h_same h (net_hash_text (sha1 (concat ds))) (h_utf8 h d) = false ->
    exists e, copy_script sha1 h dest expand items fs = (Err e, fs).
  Proof. exact (@copy_mismatch sha1 h dest expand items fs ds d). Qed.

  (* C29: the file changed its size, and the last piece read is not the text of
     a checksum: copy raises, nothing changed (but see C29_emptied_refuted) *)
  Theorem C29_resized_partial h m total reads dest expand fs :
    (forall b, bytes_ok b -> bytes_ok (sha1 b)) ->
    let got := reads (buffer_size m) in
    Forall bytes_ok got -> concat got <> [] -> zlen (concat got) <> total ->
    (forall D, h_same h (net_hash_text (sha1 D)) (h_utf8 h (List.last got [])) = false) ->
    copy sha1 h m total reads dest expand fs = (Err WinRMError, fs).
  Proof. exact (@copy_resized sha1 h m total reads dest expand fs). Qed.

  (* C30: fetch succeeds only when the first object decodes to data whose
     checksum is the last object; the destination then holds that data, no other
     file changes.  os.write is assumed to take all (see
     C30_short_write_refuted). *)
  Theorem C30_verified_partial l dest outs failed fs fs' : dict_get str_eqb (l_temp l) fs = None -> dest <> l_temp l ->
    (forall b n, l_write l b = Ok n -> n = length b) ->
    fetch sha1 l dest outs failed fs = (Ok tt, fs') ->
    failed = false /\ exists first b, hd_error outs = Some first /\ decode_output first = Ok b /\
      List.last outs OOther = OText (hexdigest_of (sha1 b)) /\ now_holds dest b fs fs'.
  Proof. exact (@fetch_ok sha1 l dest outs failed fs fs'). Qed.

  (* C30: after an error all files are as before, unless shutil.copy itself left
     the destination half written *)
  Theorem C30_untouched_partial l dest outs failed fs fs' e : dict_get str_eqb (l_temp l) fs = None ->
    (forall x, l_copy l <> CopyFailed (Some x)) ->
    fetch sha1 l dest outs failed fs = (Err e, fs') -> same_files fs fs'.
  Proof. exact (@fetch_error sha1 l dest outs failed fs fs' e). Qed.

  (* C30: the temporary file is gone in every case *)
  Theorem C30_temporary l dest outs failed fs : dict_get str_eqb (l_temp l) fs = None ->
    dict_get str_eqb (l_temp l) (snd (fetch sha1 l dest outs failed fs)) = None.
  Proof. exact (@fetch_temp sha1 l dest outs failed fs). Qed.

  (* C30: what the script prints when its first read got something: it ends well
     only if that read got the whole file, and prints that and its checksum *)
  Theorem C30_script size d rest out : (0 < length d <= size)%nat -> fetch_script sha1 size (d :: rest) = (out, Ok tt) ->
    length d = size /\ out = [b64encode d; net_hash_text (sha1 d)].
  Proof. exact (@script_first sha1 size d rest out). Qed.

  (* C30: end to end, for a file with content *)
  Theorem C30_whole l dest d fs : d <> [] -> bytes_ok d -> (forall b, bytes_ok b -> bytes_ok (sha1 b)) ->
    dict_get str_eqb (l_temp l) fs = None -> dest <> l_temp l -> l_write l d = Ok (length d) -> l_copy l = CopyDone ->
    exists out fs', fetch_script sha1 (length d) [d] = (out, Ok tt) /\
      fetch sha1 l dest (map OText out) false fs = (Ok tt, fs') /\ now_holds dest d fs fs'.
  Proof.
    intros Hd H K T Nt W C. destruct (fetch_whole sha1 l dest d fs H K T Nt W C) as (fs' & E & P).
    exists [b64encode d; net_hash_text (sha1 d)], fs'. split; [exact (script_full sha1 d Hd)|]. split; assumption.
  Qed.
End S.
Print Assumptions C29_delivered.
Print Assumptions C29_checked_partial.
Print Assumptions C29_mismatch.
Print Assumptions C29_resized_partial.
Print Assumptions C30_verified_partial.
Print Assumptions C30_untouched_partial.
Print Assumptions C30_temporary.
Print Assumptions C30_script.
Print Assumptions C30_whole.

(* a checksum for the examples: length and sum *)
Definition toy_sum (b : bytes) : bytes := [N.modulo (N.of_nat (length b)) 256; N.modulo (fold_left N.add b 0%N) 256].
Definition toy_host : host := mkHost (fun p _ => Ok p) (fun b => b) str_eqb (fun p => p) (fun _ => true) (fun _ => true).
Example toy_sane : sane toy_host.
Proof. split; [exact str_refl|reflexivity]. Qed.
Definition old_files : list (list N * bytes) := [(lit "C:\a", [1%N]); (lit "C:\b", [2%N])].
(* a file of seven bytes in pieces of three *)
Example C29_case :
  copy_items toy_sum 7 (file_reads (buffer_size 86) [1;2;3;4;5;6;7]%N) = [lit "AQID"; lit "BAUG"; lit "Bw=="; lit "MDcxYw=="] /\
  copy toy_sum toy_host 86 7 (fun size => file_reads size [1;2;3;4;5;6;7]%N) (lit "C:\a") false old_files
  = (Ok (lit "C:\a"), [(lit "C:\b", [2%N]); (lit "C:\a", [1;2;3;4;5;6;7]%N)]).
Proof. vm_compute. split; reflexivity. Qed.
(* two items exchanged, one lost *)
Example C29_altered_case :
  copy_script toy_sum toy_host (lit "C:\a") false [lit "AQID"; lit "Bw=="; lit "MDcxYw=="] old_files = (Err OtherError, old_files) /\
  copy_script toy_sum toy_host (lit "C:\a") false [lit "AQID"; lit "BAUG"; lit "Bw=="] old_files = (Err OtherError, old_files).
Proof. vm_compute. split; reflexivity. Qed.
Definition toy_local : local := mkLocal (lit "/tmp/x") (fun b => Ok (length b)) CopyDone.
Example C30_case :
  fetch_script toy_sum 3 [[1;2;3]%N] = ([lit "AQID"; lit "0306"], Ok tt) /\
  fetch toy_sum toy_local (lit "/d") [OText (lit "AQID"); OText (lit "0306")] false [(lit "/d", [9%N])] = (Ok tt, [(lit "/d", [1;2;3]%N)]) /\
  fetch toy_sum toy_local (lit "/d") [OText (lit "AQID"); OText (lit "0307")] false [(lit "/d", [9%N])] = (Err WinRMError, [(lit "/d", [9%N])]).
Proof. vm_compute. repeat split; reflexivity. Qed.

(* C29, found: the destination is deleted before the temporary file is moved:
   when the move fails the previous file is lost *)
Theorem C29_move_refuted : exists h items fs fs' e, sane h /\
  copy_script toy_sum h (lit "C:\a") false items fs = (Err e, fs') /\
  dict_get str_eqb (lit "C:\a") fs = Some [1%N] /\ dict_get str_eqb (lit "C:\a") fs' = None.
Proof.
  exists (mkHost (fun p _ => Ok p) (fun b => b) str_eqb (fun p => p) (fun _ => true) (fun _ => false)),
    [lit "AQID"; lit "MDMwNg=="], old_files, [(lit "C:\b", [2%N])], OtherError.
  split; [split; [exact str_refl|reflexivity]|]. vm_compute. repeat split; reflexivity.
Qed.
Print Assumptions C29_move_refuted.
(* C29, found: a payload size of 81 to 83 gives a buffer of no bytes; an empty
   file is delivered and copy succeeds *)
Theorem C29_small_payload_refuted : exists m content fs', content <> [] /\
  copy toy_sum toy_host m (zlen content) (fun size => file_reads size content) (lit "C:\a") false old_files = (Ok (lit "C:\a"), fs') /\
  dict_get str_eqb (lit "C:\a") fs' = Some [].
Proof. exists 82%Z, [1;2;3]%N, [(lit "C:\b", [2%N]); (lit "C:\a", [])]. split; [discriminate|]. vm_compute. split; reflexivity. Qed.
Print Assumptions C29_small_payload_refuted.
(* C29, found: a file emptied between the two looks at it is delivered empty, no
   error *)
Theorem C29_emptied_refuted : exists total reads fs', concat (reads (buffer_size 86)) = [] /\ (0 < total)%Z /\
  copy toy_sum toy_host 86 total reads (lit "C:\a") false old_files = (Ok (lit "C:\a"), fs').
Proof. exists 7%Z, (fun _ => []), [(lit "C:\b", [2%N]); (lit "C:\a", [])]. split; [reflexivity|]. split; [reflexivity|]. vm_compute. reflexivity. Qed.
Print Assumptions C29_emptied_refuted.
(* C30, found: the count that os.write returns is not looked at, the checksum is
   taken of the data in memory: a short write gives a truncated destination and
   no error *)
Theorem C30_short_write_refuted : exists l fs', l_write l [1;2;3]%N = Ok 2%nat /\
  fetch toy_sum l (lit "/d") [OText (lit "AQID"); OText (lit "0306")] false [(lit "/d", [9%N])] = (Ok tt, fs') /\
  dict_get str_eqb (lit "/d") fs' = Some [1;2]%N.
Proof. exists (mkLocal (lit "/tmp/x") (fun b => Ok 2%nat) CopyDone), [(lit "/d", [1;2]%N)]. vm_compute. repeat split; reflexivity. Qed.
Print Assumptions C30_short_write_refuted.
(* C30, found: a failing shutil.copy may leave a part of the file *)
Theorem C30_copy_failed_refuted : exists l e fs', 
  fetch toy_sum l (lit "/d") [OText (lit "AQID"); OText (lit "0306")] false [(lit "/d", [9%N])] = (Err e, fs') /\
  dict_get str_eqb (lit "/d") fs' = Some [1]%N.
Proof. exists (mkLocal (lit "/tmp/x") (fun b => Ok (length b)) (CopyFailed (Some [1%N]))), OtherError, [(lit "/d", [1]%N)]. vm_compute. split; reflexivity. Qed.
Print Assumptions C30_copy_failed_refuted.
(* C30, found: an empty file cannot be fetched: the script ends in an error *)
Theorem C30_empty_refuted : exists size, forall sha1 reads, exists e, fetch_script sha1 size reads = ([], Err e).
Proof. exists 0%nat. intros sha1 reads. exists OtherError. unfold fetch_script. rewrite fetch_loop_0. reflexivity. Qed.
Print Assumptions C30_empty_refuted.
