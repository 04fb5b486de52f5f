(* Model of the PSRP fragment codec and fragmenter,
   /repo/src/pypsrp/powershell.py:1635-1791. *)
From Verif Require Import Base.

(* powershell.py:1747-1760, class Fragment.  Ids are Python ints. *)
Record fragment := mkFrag {
  fr_oid : Z; fr_id : Z; fr_data : bytes; fr_start : bool; fr_end : bool }.

(* powershell.py:1762-1775, Fragment.pack *)
Definition frag_pack (f : fragment) : res bytes :=
  let flags := ((if fr_start f then 1 else 0) + (if fr_end f then 2 else 0))%Z in
  do b1 <- struct_pack_be 8 (fr_oid f);
  do b2 <- struct_pack_be 8 (fr_id f);
  do b3 <- struct_pack_be 1 flags;
  do b4 <- struct_pack_be 4 (zlen (fr_data f));
  Ok (b1 ++ b2 ++ b3 ++ b4 ++ fr_data f).

(* powershell.py:1777-1791, Fragment.unpack.  Note that a payload shorter
   than the declared length is accepted as it is. *)
Definition frag_unpack (data : bytes) : res (fragment * bytes) :=
  do oid <- struct_unpack_be 8 (py_slice data 0 8);
  do fid <- struct_unpack_be 8 (py_slice data 8 16);
  do fl <- struct_unpack_be 1 (py_slice data 16 17);
  let start := N.eqb (N.land fl 1) 1 in
  let end_ := N.eqb (N.land fl 2) 2 in
  do len <- struct_unpack_be 4 (py_slice data 17 21);
  let fdata := py_slice data 21 (Z.of_N len + 21) in
  Ok (mkFrag (Z.of_N oid) (Z.of_N fid) fdata start end_,
      slice_from data (21 + Z.of_N len)).

(* powershell.py:1738-1745, Fragmenter._byte_iterator *)
Definition byte_iterator (data : bytes) (buffer_size : Z)
  : res (list (bytes * bool)) :=
  let byte_count := zlen data in
  do is <- py_range0 byte_count buffer_size;
  Ok (map (fun i => (py_slice data i (i + buffer_size),
                     (byte_count <=? i + buffer_size)%Z)) is).

(* powershell.py:1666-1677: the loop that packs the fragments yielded by
   _byte_iterator. *)
Fixpoint pack_chunks (oid fid : Z) (start : bool) (cs : list (bytes * bool))
  : res (list bytes) :=
  match cs with
  | [] => Ok []
  | (d, e) :: cs' =>
      do b <- frag_pack (mkFrag oid fid d start e);
      do bs <- pack_chunks oid (fid + 1) false cs';
      Ok (b :: bs)
  end.

(* The attributes max_size and outgoing_counter of Fragmenter,
   powershell.py:1636-1644. *)
Record sender := mkSender { sd_max : Z; sd_counter : Z }.

(* powershell.py:1641-1643 *)
Definition sender_init (max_size : Z) : sender :=
  mkSender (max_size - 21) 1.

(* powershell.py:1646-1677, Fragmenter.fragment, on the packed message
   [msg_data] (Message.pack is modelled in MsgModel.v). *)
Definition fragment_msg (s : sender) (msg_data : bytes)
           (remaining_size : option Z) : res (sender * list bytes) :=
  let oid := sd_counter s in
  do '(first, rest, fid, start) <-
     match remaining_size with
     | None => Ok ([], msg_data, 0%Z, true)
     | Some r =>
         let part := slice_to msg_data r in
         let rest := slice_from msg_data (zlen part) in
         let end_ := match rest with [] => true | _ => false end in
         do b <- frag_pack (mkFrag oid 0 part true end_);
         Ok ([b], rest, 1%Z, false)
     end;
  do cs <- byte_iterator rest (sd_max s);
  do bs <- pack_chunks oid fid start cs;
  Ok (mkSender (sd_max s) (sd_counter s + 1), first ++ bs).

(* fragments[-1] = fragments[-1] + x, powershell.py:1694 *)
Fixpoint append_last (l : list bytes) (x : bytes) : list bytes :=
  match l with
  | [] => []
  | [y] => [y ++ x]
  | y :: l' => y :: append_last l' x
  end.

(* powershell.py:1689-1701: the loop of Fragmenter.fragment_multiple.
   [frags] is the list built so far. *)
Fixpoint fragment_multiple_loop (s : sender) (blocks : list bytes)
         (remaining : Z) (frags : list bytes) : res (sender * list bytes) :=
  match blocks with
  | [] => Ok (s, frags)
  | b :: blocks' =>
      do '(s', bf) <- fragment_msg s b (Some remaining);
      do frags' <-
         (if negb (remaining =? sd_max s)%Z && negb (Nat.eqb (length frags) 0)
          then match bf with
               | [] => Err IndexError                 (* pop from empty list *)
               | x :: bf' => Ok (append_last frags x ++ bf')
               end
          else Ok (frags ++ bf));
      match rev frags' with
      | [] => Err IndexError                          (* fragments[-1] *)
      | l :: _ =>
          let rem := (sd_max s - zlen l)%Z in
          let rem' := if (rem <=? 0)%Z then sd_max s else rem in
          fragment_multiple_loop s' blocks' rem' frags'
      end
  end.

(* powershell.py:1679-1703, Fragmenter.fragment_multiple *)
Definition fragment_multiple (s : sender) (blocks : list bytes)
  : res (sender * list bytes) :=
  fragment_multiple_loop s blocks (sd_max s) [].

(* powershell.py:1711-1714: one entry of incoming_buffer *)
Record inbuf := mkInbuf { ib_data : bytes; ib_id : Z }.
Definition receiver : Type := list (Z * inbuf).

(* powershell.py:1711-1733: one turn of the loop of Fragmenter.defragment on
   an unpacked fragment.  The first component is the buffer table (it keeps
   the entry created for an object even when FragmentError is raised), the
   second the completed payload, if any. *)
Definition defrag_step (r : receiver) (f : fragment)
  : receiver * res (option bytes) :=
  let '(r1, ib) :=
    match dict_get Z.eqb (fr_oid f) r with
    | Some ib => (r, ib)
    | None => (dict_set Z.eqb (fr_oid f) (mkInbuf [] 0) r, mkInbuf [] 0)
    end in
  if negb (fr_id f =? ib_id ib)%Z then (r1, Err FragmentError)
  else if fr_start f && fr_end f then
    (dict_del Z.eqb (fr_oid f) r1, Ok (Some (fr_data f)))
  else if fr_start f then
    (dict_set Z.eqb (fr_oid f) (mkInbuf (fr_data f) (ib_id ib + 1)) r1, Ok None)
  else if fr_end f then
    (dict_del Z.eqb (fr_oid f) r1, Ok (Some (ib_data ib ++ fr_data f)))
  else
    (dict_set Z.eqb (fr_oid f) (mkInbuf (ib_data ib ++ fr_data f) (ib_id ib + 1)) r1,
     Ok None).

(* powershell.py:1709-1733: the while loop.  [fuel] bounds the number of
   turns; each turn consumes at least 21 bytes.  [acc] is the local list
   "fragments". *)
Fixpoint defrag_loop (fuel : nat) (r : receiver) (data : bytes)
         (acc : list bytes) : receiver * res (list bytes) :=
  match data with
  | [] => (r, Ok acc)
  | _ =>
    match fuel with
    | O => (r, Err OutOfFuel)
    | S fuel' =>
      match frag_unpack data with
      | Err e => (r, Err e)
      | Ok (f, rest) =>
          match defrag_step r f with
          | (r', Err e) => (r', Err e)
          | (r', Ok None) => defrag_loop fuel' r' rest acc
          | (r', Ok (Some m)) => defrag_loop fuel' r' rest (acc ++ [m])
          end
      end
    end
  end.

(* powershell.py:1705-1736, Fragmenter.defragment, up to the final list
   comprehension: the result is the list of complete packed messages, to each
   of which Message.unpack (MsgModel.v) is then applied. *)
Definition defragment (r : receiver) (data : bytes)
  : receiver * res (list bytes) :=
  defrag_loop (length data) r data [].

(* A history of receive calls on one receiver: powershell.py:742-751 calls
   defragment once per non-empty stream chunk; a call that raises leaves the
   receiver usable. *)
Fixpoint receive_calls (r : receiver) (calls : list bytes)
  : receiver * list (res (list bytes)) :=
  match calls with
  | [] => (r, [])
  | c :: cs =>
      let '(r', o) := defragment r c in
      let '(r'', os) := receive_calls r' cs in
      (r'', o :: os)
  end.

(* A history of sends on one pool: single messages
   (fragmenter.fragment) or several messages together
   (fragmenter.fragment_multiple). *)
Inductive send_op := SendOne (m : bytes) | SendMany (ms : list bytes).

Definition send_step (s : sender) (o : send_op) : res (sender * list bytes) :=
  match o with
  | SendOne m => fragment_msg s m None
  | SendMany ms => fragment_multiple s ms
  end.

(* powershell.py:835-846 (_process_session_capability): when the payload size
   of the connection is recalculated the fragmenter's limit is replaced by it,
   without the header allowance subtracted in Fragmenter.__init__.  Only the
   assignment is modelled here. *)
Definition session_capability_resize (s : sender) (payload : Z) : sender :=
  mkSender payload (sd_counter s).
