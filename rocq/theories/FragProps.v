(* Property theorems C01-C06 and C08: the PSRP fragment layer. *)
From Coq Require Import Lia Permutation.
From Verif Require Import Base BaseProofs FragModel FragSpec FragProofs FragProofs2 FragProofs3 FragProofs4.

(* ------------------------------ C01 ------------------------------ *)

Theorem C01_fragment_roundtrip : forall f rest,
  (0 <= fr_oid f < 2 ^ 64)%Z -> (0 <= fr_id f < 2 ^ 64)%Z -> (zlen (fr_data f) < 2 ^ 32)%Z ->
  exists b, frag_pack f = Ok b /\ frag_unpack (b ++ rest) = Ok (f, rest).
Proof. exact fragment_roundtrip. Qed.
Print Assumptions C01_fragment_roundtrip.

Example C01_case :
  let f := mkFrag 300 7 [1; 2; 255]%N false true in
  frag_pack f = Ok [0;0;0;0;0;0;1;44; 0;0;0;0;0;0;0;7; 2; 0;0;0;3; 1;2;255]%N /\
  frag_unpack ([0;0;0;0;0;0;1;44; 0;0;0;0;0;0;0;7; 2; 0;0;0;3; 1;2;255] ++ [9; 9])%N = Ok (f, [9; 9]%N).
Proof. split; vm_compute; reflexivity. Qed.

(* The error branch, exactly. *)
Theorem C01_pack_error_iff : forall f e,
  frag_pack f = Err e <->
  e = StructError /\
  ~ ((0 <= fr_oid f < 2 ^ 64)%Z /\ (0 <= fr_id f < 2 ^ 64)%Z /\ (zlen (fr_data f) < 2 ^ 32)%Z).
Proof. exact fragment_pack_error. Qed.
Print Assumptions C01_pack_error_iff.

Example C01_error_case : frag_pack (mkFrag (2 ^ 64) 0 [] true true) = Err StructError.
Proof. vm_compute; reflexivity. Qed.

(* The layout of MS-PSRP 2.2.4: offsets, byte order, flag values. *)
Theorem C01_fragment_layout : forall f b,
  frag_pack f = Ok b ->
  zlen b = (21 + zlen (fr_data f))%Z /\
  Z.of_N (big_endian (firstn 8 b)) = fr_oid f /\
  Z.of_N (big_endian (firstn 8 (skipn 8 b))) = fr_id f /\
  nth_error b 16 = Some (if fr_start f then if fr_end f then 3 else 1
                         else if fr_end f then 2 else 0)%N /\
  Z.of_N (big_endian (firstn 4 (skipn 17 b))) = zlen (fr_data f) /\
  skipn 21 b = fr_data f.
Proof. exact fragment_layout. Qed.
Print Assumptions C01_fragment_layout.

(* Conversely whatever is unpacked with its full payload and only the two
   defined flag bits is the wire image of the fragment returned. *)
Theorem C01_unpack_inverse : forall data f rest fl,
  bytes_ok data -> nth_error data 16 = Some fl -> (fl < 4)%N ->
  frag_unpack data = Ok (f, rest) ->
  big_endian (firstn 4 (skipn 17 data)) = N.of_nat (length (fr_data f)) ->
  exists b, frag_pack f = Ok b /\ data = b ++ rest.
Proof. exact fragment_unpack_inverse. Qed.
Print Assumptions C01_unpack_inverse.

Example C01_unpack_case :
  let data := [0;0;0;0;0;0;1;44; 0;0;0;0;0;0;0;7; 2; 0;0;0;3; 1;2;255; 8]%N in
  bytes_ok data /\ nth_error data 16 = Some 2%N /\
  frag_unpack data = Ok (mkFrag 300 7 [1; 2; 255]%N false true, [8]%N).
Proof. repeat split; try (vm_compute; reflexivity). unfold bytes_ok; repeat constructor; lia. Qed.

(* Finding: a payload cut short of its declared length is accepted. *)
Theorem C01_truncated_payload_accepted_refuted :
  exists data f rest, frag_unpack data = Ok (f, rest) /\
    (N.of_nat (length (fr_data f)) < big_endian (firstn 4 (skipn 17 data)))%N.
Proof.
  exists [0;0;0;0;0;0;0;1; 0;0;0;0;0;0;0;0; 3; 0;0;0;9; 1;2]%N, (mkFrag 1 0 [1; 2]%N true true), [].
  split; vm_compute; reflexivity.
Qed.
Print Assumptions C01_truncated_payload_accepted_refuted.

(* ------------------------------ C02 ------------------------------ *)

(* For every message and every size limit: the blocks are the fragments
   0,1,2,... of the message cut at the limit, and however they are grouped
   into receive calls, after j blocks the message has been delivered iff j
   covers all of them, and then the receiver is as before. *)
Theorem C02_single_message : forall s m,
  (1 <= sd_max s < 2 ^ 32)%Z -> (0 <= sd_counter s < 2 ^ 64)%Z ->
  m <> [] -> (zlen m < 2 ^ 63)%Z ->
  exists blocks pieces,
    fragment_msg s m None = Ok (mkSender (sd_max s) (sd_counter s + 1), blocks) /\
    concat pieces = m /\ cut_at (sd_max s) pieces /\
    mapM (fun i => frag_pack (frag_of (mkTransit (sd_counter s) pieces) i))
         (seq 0 (length pieces)) = Ok blocks /\
    forall r, dict_get Z.eqb (sd_counter s) r = None ->
    forall j calls, concat calls = firstn j blocks ->
      delivered (snd (receive_calls r (map (@concat N) calls))) =
        Ok (if Nat.ltb j (length blocks) then [] else [m]) /\
      (length blocks <= j -> same_table (fst (receive_calls r (map (@concat N) calls))) r).
Proof. exact single_message_roundtrip. Qed.
Print Assumptions C02_single_message.

Example C02_case :
  exists b1 b2 b3,
    fragment_msg (mkSender 4 77) [1;2;3;4;5;6;7;8;9]%N None = Ok (mkSender 4 78, [b1; b2; b3]) /\
    receive_calls [(5%Z, mkInbuf [1]%N 3)] [b1 ++ b2; []; b3] =
      ([(5%Z, mkInbuf [1]%N 3)], [Ok []; Ok []; Ok [[1;2;3;4;5;6;7;8;9]%N]]).
Proof. eexists; eexists; eexists; split; vm_compute; reflexivity. Qed.

(* ------------------------------ C03 ------------------------------ *)

Theorem C03_interleaving : forall ts r0 ws datas,
  NoDup (map t_oid ts) -> Forall (fun t => t_pieces t <> []) ts ->
  (forall t, In t ts -> dict_get Z.eqb (t_oid t) r0 = None) ->
  interleave (map stream ts) (concat ws) -> Forall2 word_wire ws datas ->
  exists r', receive_calls r0 datas = (r', map (fun w => Ok (completes w)) ws) /\
             same_table r' r0 /\
             Permutation (concat (map completes ws)) (map t_msg ts).
Proof. exact interleaved_delivery. Qed.
Print Assumptions C03_interleaving.

Definition ta := mkTransit 1 [[1;2]; [3]; [4;5]]%N.
Definition tb := mkTransit 2 [[6]; [7]]%N.
Definition w3 : list (list (transit * nat)) := [[(ta,0); (tb,0); (ta,1)]; [(tb,1)]; [(ta,2)]].
Definition d3 : list (list N) :=
  map (fun w => concat (map (fun x => match frag_pack (frag_of (fst x) (snd x)) with
                                      | Ok b => b | Err _ => [] end) w)) w3.
Example C03_case :
  NoDup (map t_oid [ta; tb]) /\ interleave (map stream [ta; tb]) (concat w3) /\
  Forall2 word_wire w3 d3 /\
  receive_calls [] d3 = ([], [Ok []; Ok [[6;7]%N]; Ok [[1;2;3;4;5]%N]]).
Proof.
  split; [repeat constructor; cbn; intros H; repeat (destruct H as [H|H]; try discriminate); contradiction|].
  split.
  { cbn. apply (il_cons [] (ta,0) _ [_]). apply (il_cons [_] (tb,0) _ []).
    apply (il_cons [] (ta,1) _ [_]). apply (il_cons [_] (tb,1) _ []).
    apply (il_cons [] (ta,2) _ [_]). constructor. repeat constructor. }
  split; [|vm_compute; reflexivity].
  repeat constructor; eexists; split; vm_compute; reflexivity.
Qed.

(* ------------------------------ C04 ------------------------------ *)

(* Full claim: every block is at most the connection's max_payload_size long
   for the whole life of the pool.  It holds until session negotiation
   changes the payload size ... *)
Theorem C04_block_size_partial : forall payload ops s' bss,
  (22 <= payload)%Z -> run_sends (sender_init payload) ops = Ok (s', bss) ->
  Forall (Forall (fun b => (zlen b <= payload)%Z)) bss.
Proof. exact payload_bound. Qed.
Print Assumptions C04_block_size_partial.

(* ... and fails afterwards: the limit is exceeded by the 21 header bytes
   for every message at least as long as the payload size ... *)
Theorem C04_block_size_after_negotiation_refuted : forall s payload m,
  (1 <= payload < 2 ^ 32)%Z -> (0 <= sd_counter s < 2 ^ 64)%Z ->
  (payload <= zlen m < 2 ^ 63)%Z ->
  exists s' b bs, send_step (session_capability_resize s payload) (SendOne m) = Ok (s', b :: bs) /\
                  zlen b = (payload + 21)%Z.
Proof. exact resized_exceeds. Qed.
Print Assumptions C04_block_size_after_negotiation_refuted.

(* ... and by no more than those. *)
Theorem C04_block_size_after_negotiation_partial : forall s payload ops s' bss,
  (1 <= payload)%Z -> run_sends (session_capability_resize s payload) ops = Ok (s', bss) ->
  Forall (Forall (fun b => (zlen b <= payload + 21)%Z)) bss.
Proof. exact resized_bound. Qed.
Print Assumptions C04_block_size_after_negotiation_partial.

Example C04_case :
  (exists s' bss, run_sends (sender_init 30) [SendOne (repeat 7%N 40); SendMany [[1;2]%N; [3]%N; repeat 5%N 9]] = Ok (s', bss)
     /\ map (map (@length N)) bss = [[30; 30; 30; 30; 25]; [23; 22; 30]]) /\
  (exists s' b, send_step (session_capability_resize (sender_init 30) 50) (SendOne (repeat 7%N 50)) = Ok (s', [b])
     /\ length b = 71).
Proof. split; eexists; eexists; split; vm_compute; reflexivity. Qed.

(* ------------------------------ C05 ------------------------------ *)

Theorem C05_fragment_multiple : forall s ms,
  (1 <= sd_max s < 2 ^ 32)%Z -> (0 <= sd_counter s)%Z ->
  (sd_counter s + zlen ms <= 2 ^ 64)%Z ->
  Forall (fun m => (zlen m < 2 ^ 63)%Z) ms ->
  exists blocks ts ws,
    fragment_multiple s ms = Ok (mkSender (sd_max s) (sd_counter s + zlen ms), blocks) /\
    map t_msg ts = ms /\
    map t_oid ts = map (fun i => sd_counter s + Z.of_nat i)%Z (seq 0 (length ms)) /\
    Forall2 word_wire ws blocks /\ concat ws = concat (map stream ts) /\
    forall r, (forall k, (sd_counter s <= k < sd_counter s + zlen ms)%Z -> dict_get Z.eqb k r = None) ->
      delivered (snd (receive_calls r blocks)) = Ok ms /\
      same_table (fst (receive_calls r blocks)) r.
Proof. exact multiple_roundtrip. Qed.
Print Assumptions C05_fragment_multiple.

Example C05_case :
  exists b1 b2,
    fragment_multiple (sender_init 100) [repeat 1%N 10; []; repeat 2%N 50] = Ok (mkSender 79 4, [b1; b2]) /\
    length b1 = 100 /\ length b2 = 44 /\
    snd (receive_calls [] [b1; b2]) = [Ok [repeat 1%N 10; []]; Ok [repeat 2%N 50]].
Proof. eexists; eexists; repeat split; vm_compute; reflexivity. Qed.

(* ------------------------------ C06 ------------------------------ *)

(* The receiver is exactly a sequence checker: whatever sequence of fragments
   of whatever messages arrives, each call delivers what the specification
   [spec_calls] says or raises FragmentError. *)
Theorem C06_receiver_is_sequence_checker : forall ts r0 ws datas,
  NoDup (map t_oid ts) ->
  (forall t, In t ts -> dict_get Z.eqb (t_oid t) r0 = None) ->
  Forall (word_over ts) ws -> Forall2 word_wire ws datas ->
  snd (receive_calls r0 datas) = map observe (snd (spec_calls expect0 ws)).
Proof. exact receive_refines. Qed.
Print Assumptions C06_receiver_is_sequence_checker.

(* Hence a call either raises FragmentError or delivers original messages
   only, one for each last fragment it contains. *)
Theorem C06_only_originals : forall ts r0 ws datas,
  NoDup (map t_oid ts) ->
  (forall t, In t ts -> dict_get Z.eqb (t_oid t) r0 = None) ->
  Forall (word_over ts) ws -> Forall2 word_wire ws datas ->
  Forall2 (fun w o => o = Err FragmentError \/ o = Ok (completes w)) ws
          (snd (receive_calls r0 datas)).
Proof. exact faulty_channel. Qed.
Print Assumptions C06_only_originals.

Definition w6 : list (list (transit * nat)) :=
  [[(ta,0)]; [(ta,2)]; [(ta,1); (tb,0); (tb,0)]; [(ta,2); (tb,1)]].
Definition d6 : list (list N) :=
  map (fun w => concat (map (fun x => match frag_pack (frag_of (fst x) (snd x)) with
                                      | Ok b => b | Err _ => [] end) w)) w6.
Example C06_case :
  Forall (word_over [ta; tb]) w6 /\ Forall2 word_wire w6 d6 /\
  snd (receive_calls [] d6) =
    [Ok []; Err FragmentError; Err FragmentError; Ok [[1;2;3;4;5]%N; [6;7]%N]].
Proof.
  split; [unfold w6, word_over; repeat constructor; cbn; auto; lia|].
  split; [|vm_compute; reflexivity].
  repeat constructor; eexists; split; vm_compute; reflexivity.
Qed.

(* ------------------------------ C08 ------------------------------ *)

Theorem C08_object_ids : forall payload ops,
  (22 <= payload <= 2 ^ 32)%Z ->
  (zlen (concat (map op_msgs ops)) < 2 ^ 63)%Z ->
  Forall (fun m => (zlen m < 2 ^ 63)%Z) (concat (map op_msgs ops)) ->
  exists s' bss ts,
    run_sends (sender_init payload) ops = Ok (s', bss) /\
    map t_msg ts = concat (map op_msgs ops) /\
    word_wire (concat (map stream ts)) (concat (concat bss)) /\
    map t_oid ts = map (fun i => 1 + Z.of_nat i)%Z (seq 0 (length ts)) /\
    strictly_increasing (map t_oid ts).
Proof. exact history_object_ids. Qed.
Print Assumptions C08_object_ids.

Example C08_case :
  exists s' bss, run_sends (sender_init 30) [SendOne [1]%N; SendMany [[2]; [3]]%N; SendOne [4]%N] = Ok (s', bss)
    /\ sd_counter s' = 5%Z /\ length (concat bss) = 4.
Proof. eexists; eexists; repeat split; vm_compute; reflexivity. Qed.
