(* Proofs about the sending side: fragment and fragment_multiple. *)
From Coq Require Import Lia ZifyBool ZifyNat ZifyN Permutation.
From Verif Require Import Base BaseProofs FragModel FragSpec FragProofs FragProofs2.
Ltac Zify.zify_post_hook ::= Z.div_mod_to_equations.

(* ---- cutting into chunks ---- *)
Definition nchunk (k : nat) (data : bytes) (j : nat) : bytes := firstn k (skipn (j * k) data).
Definition nceil (n k : nat) : nat := (n + k - 1) / k.

Lemma concat_chunks k : forall n (data : bytes),
  length data <= n * k -> concat (map (nchunk k data) (seq 0 n)) = data.
Proof.
  induction n as [|n IH]; intros data H.
  - destruct data; [reflexivity|simpl in H; lia].
  - cbn [seq map concat]. rewrite <- seq_shift, map_map.
    replace (map (fun x => nchunk k data (S x)) (seq 0 n))
      with (map (nchunk k (skipn k data)) (seq 0 n)).
    + rewrite IH; [|rewrite skipn_length; lia].
      unfold nchunk. cbn [Nat.mul skipn]. apply firstn_skipn.
    + apply map_ext. intros j. unfold nchunk. rewrite skipn_skipn. f_equal. f_equal. lia.
Qed.

Lemma nceil_bounds n k : 1 <= k -> (nceil n k - 1) * k < n + (if Nat.eqb n 0 then 1 else 0) /\ n <= nceil n k * k.
Proof.
  intros Hk. unfold nceil.
  assert (E : n + k - 1 = k * ((n + k - 1) / k) + (n + k - 1) mod k) by (apply Nat.div_mod; lia).
  assert (B : (n + k - 1) mod k < k) by (apply Nat.mod_upper_bound; lia).
  set (q := (n + k - 1) / k) in *. set (m := (n + k - 1) mod k) in *.
  split.
  - destruct (Nat.eqb_spec n 0); nia.
  - nia.
Qed.

Lemma nceil_0 k : 1 <= k -> nceil 0 k = 0.
Proof. intros H. unfold nceil. apply Nat.div_small. lia. Qed.

Lemma nceil_pos n k : 1 <= k -> 1 <= n -> 1 <= nceil n k.
Proof. intros H1 H2. destruct (nceil_bounds n k H1) as [_ H]. destruct (nceil n k); lia. Qed.

Lemma byte_iterator_pos data k :
  1 <= k ->
  byte_iterator data (Z.of_nat k) =
  Ok (map (fun j => (nchunk k data j, Nat.eqb (S j) (nceil (length data) k)))
          (seq 0 (nceil (length data) k))).
Proof.
  intros Hk. unfold byte_iterator, py_range0.
  destruct (Z.eqb_spec (Z.of_nat k) 0) as [|_]; [lia|].
  destruct (Z.ltb_spec (Z.of_nat k) 0) as [|_]; [lia|].
  cbn [bind]. f_equal. rewrite map_map.
  assert (EC : Z.to_nat ((zlen data + Z.of_nat k - 1) / Z.of_nat k) = nceil (length data) k).
  { unfold zlen, nceil.
    replace (Z.of_nat (length data) + Z.of_nat k - 1)%Z with (Z.of_nat (length data + k - 1)) by lia.
    rewrite <- Nat2Z.inj_div. apply Nat2Z.id. }
  rewrite EC. apply map_ext_in. intros j Hj. apply in_seq in Hj.
  f_equal.
  - rewrite py_slice_nonneg by nia. unfold nchunk. f_equal; [nia|].
    f_equal. nia.
  - destruct (nceil_bounds (length data) k Hk) as [B1 B2].
    unfold zlen.
    assert (Hn : length data <> 0).
    { intros E. rewrite E, nceil_0 in Hj by assumption. lia. }
    destruct (Nat.eqb_spec (length data) 0); [contradiction|].
    destruct (Nat.eqb_spec (S j) (nceil (length data) k)) as [E|E].
    + rewrite <- E in B2. apply Z.leb_le. nia.
    + apply Z.leb_gt. assert (S (S j) <= nceil (length data) k) by lia. nia.
Qed.

Definition chunks (k : nat) (data : bytes) : list bytes :=
  map (nchunk k data) (seq 0 (nceil (length data) k)).

Lemma chunks_concat k data : 1 <= k -> concat (chunks k data) = data.
Proof. intros H. apply concat_chunks. now apply nceil_bounds. Qed.

Lemma chunks_length k data : length (chunks k data) = nceil (length data) k.
Proof. unfold chunks. now rewrite map_length, seq_length. Qed.

Lemma chunks_count k data : 1 <= k -> length (chunks k data) <= length data.
Proof.
  intros H. rewrite chunks_length. destruct (nceil_bounds (length data) k H) as [B _].
  destruct (Nat.eqb_spec (length data) 0) as [E|E].
  - rewrite E, nceil_0 by assumption. lia.
  - nia.
Qed.

Lemma chunks_nil_iff k data : 1 <= k -> (chunks k data = [] <-> data = []).
Proof.
  intros H. split; intros E.
  - apply (f_equal (@length (list N))) in E. rewrite chunks_length in E. simpl in E.
    destruct data; [reflexivity|].
    pose proof (nceil_pos (length (n :: data)) k H). simpl length in *. lia.
  - subst. unfold chunks. simpl length. now rewrite nceil_0.
Qed.

Lemma nth_chunks k data j :
  j < nceil (length data) k -> nth j (chunks k data) [] = nchunk k data j.
Proof.
  intros H. unfold chunks.
  rewrite (nth_indep _ [] (nchunk k data 0)) by (rewrite map_length, seq_length; exact H).
  rewrite map_nth, seq_nth by assumption. reflexivity.
Qed.

Lemma nchunk_le k data j : length (nchunk k data j) <= k.
Proof. unfold nchunk. rewrite firstn_length. lia. Qed.

Lemma chunks_cut_at k data :
  1 <= k -> data <> [] -> cut_at (Z.of_nat k) (chunks k data).
Proof.
  intros Hk Hd.
  destruct (nceil (length data) k) as [|n] eqn:E.
  { destruct data; [contradiction|]. pose proof (nceil_pos (length (n :: data)) k Hk). simpl length in *; lia. }
  exists (map (nchunk k data) (seq 0 n)), (nchunk k data n).
  destruct (nceil_bounds (length data) k Hk) as [B1 B2]. rewrite E in *.
  destruct (Nat.eqb_spec (length data) 0) as [E0|E0].
  { destruct data; [contradiction|discriminate]. }
  split; [|split].
  - unfold chunks. rewrite E, seq_S, map_app. reflexivity.
  - apply Forall_forall. intros p Hp. apply in_map_iff in Hp as (j & <- & Hj).
    apply in_seq in Hj. unfold zlen, nchunk. rewrite firstn_length, skipn_length. f_equal.
    assert (S j * k <= n * k) by (apply Nat.mul_le_mono_r; lia). lia.
  - unfold zlen, nchunk. rewrite firstn_length, skipn_length. lia.
Qed.

(* ---- packing ---- *)
Lemma pack_chunks_frags t : forall n i cs,
  n = length (t_pieces t) - i ->
  cs = map (fun j => (nth j (t_pieces t) [], Nat.eqb (S j) (length (t_pieces t)))) (seq i n) ->
  pack_chunks (t_oid t) (Z.of_nat i) (Nat.eqb i 0) cs =
  mapM (fun x => frag_pack (frag_of (fst x) (snd x))) (map (fun j => (t, j)) (seq i n)).
Proof.
  induction n as [|n IH]; intros i cs Hn ->; cbn [seq map pack_chunks mapM]; [reflexivity|].
  unfold frag_of at 1. cbn [fst snd].
  destruct (frag_pack _) as [b|e]; cbn [bind]; [|reflexivity].
  replace (Z.of_nat i + 1)%Z with (Z.of_nat (S i)) by lia.
  change false with (Nat.eqb (S i) 0).
  rewrite (IH (S i) _ ltac:(lia) eq_refl). reflexivity.
Qed.

Definition sender_ok (s : sender) : Prop :=
  (1 <= sd_max s < 2 ^ 32)%Z /\ (0 <= sd_counter s)%Z.

Lemma frag_of_range t i :
  (0 <= t_oid t < 2 ^ 64)%Z -> (zlen (t_pieces t) <= 2 ^ 64)%Z ->
  i < length (t_pieces t) ->
  Forall (fun p => zlen p < 2 ^ 32)%Z (t_pieces t) -> frag_range (frag_of t i).
Proof.
  intros H1 H2 Hi H3. unfold frag_range, frag_of; cbn [fr_oid fr_id fr_data].
  unfold zlen in H2. repeat split; try lia.
  apply (proj1 (Forall_forall _ _) H3). now apply nth_In.
Qed.

Lemma mapM_frags_ok t l :
  Forall (fun j => frag_range (frag_of t j)) l ->
  mapM (fun x => frag_pack (frag_of (fst x) (snd x))) (map (fun j => (t, j)) l) =
  Ok (map (fun j => frag_bytes (frag_of t j)) l).
Proof.
  induction 1 as [|j l Hj Hl IH]; cbn [map mapM]; [reflexivity|].
  cbn [fst snd]. rewrite frag_pack_ok by assumption. cbn [bind]. rewrite IH. reflexivity.
Qed.

Definition frag_list (t : transit) : list bytes :=
  map (fun j => frag_bytes (frag_of t j)) (seq 0 (length (t_pieces t))).

(* ---- Fragmenter.fragment without a remaining size ---- *)
Definition cut_whole (s : sender) (m : bytes) : transit :=
  mkTransit (sd_counter s) (chunks (Z.to_nat (sd_max s)) m).

Lemma chunks_small k data : 1 <= k -> Forall (fun p => (zlen p <= Z.of_nat k)%Z) (chunks k data).
Proof.
  intros H. apply Forall_forall. intros p Hp. apply in_map_iff in Hp as (j & <- & _).
  pose proof (nchunk_le k data j). unfold zlen. lia.
Qed.

Lemma fragment_msg_none s m :
  sender_ok s -> (sd_counter s < 2 ^ 64)%Z -> (zlen m < 2 ^ 63)%Z ->
  fragment_msg s m None =
  Ok (mkSender (sd_max s) (sd_counter s + 1), frag_list (cut_whole s m)).
Proof.
  intros [Hm Hc] Hc' Hz. unfold fragment_msg. cbn [bind].
  set (k := Z.to_nat (sd_max s)). assert (Hk : 1 <= k) by (subst k; lia).
  replace (sd_max s) with (Z.of_nat k) at 1 by (subst k; lia).
  rewrite byte_iterator_pos by assumption. cbn [bind].
  change 0%Z with (Z.of_nat 0). change true with (Nat.eqb 0 0).
  change (sd_counter s) with (t_oid (cut_whole s m)) at 1.
  assert (LP : length (t_pieces (cut_whole s m)) = nceil (length m) k)
    by (unfold cut_whole; cbn [t_pieces]; apply chunks_length).
  rewrite (pack_chunks_frags (cut_whole s m) (nceil (length m) k) 0).
  - rewrite mapM_frags_ok.
    + cbn [bind app]. unfold frag_list. now rewrite LP.
    + apply Forall_forall. intros j Hj. apply in_seq in Hj.
      apply frag_of_range.
      * cbn. lia.
      * unfold zlen. rewrite LP. rewrite <- (chunks_length k m).
        pose proof (chunks_count k m Hk). unfold zlen in Hz. lia.
      * lia.
      * eapply Forall_impl; [|apply (chunks_small k m Hk)]. cbn. intros p Hp. subst k. lia.
  - rewrite LP. lia.
  - rewrite LP. apply map_ext_in. intros j Hj. apply in_seq in Hj.
    unfold cut_whole; cbn [t_pieces]. fold k. rewrite nth_chunks by lia. reflexivity.
Qed.

(* ---- Fragmenter.fragment with a remaining size ---- *)
Definition cut_rem (s : sender) (m : bytes) (r : Z) : transit :=
  mkTransit (sd_counter s)
            (firstn (Z.to_nat r) m :: chunks (Z.to_nat (sd_max s)) (skipn (Z.to_nat r) m)).

Lemma cut_rem_msg s m r : sender_ok s -> t_msg (cut_rem s m r) = m.
Proof.
  intros [Hm _]. unfold t_msg, cut_rem; cbn [t_pieces concat].
  rewrite chunks_concat by lia. apply firstn_skipn.
Qed.

Lemma cut_whole_msg s m : sender_ok s -> t_msg (cut_whole s m) = m.
Proof. intros [Hm _]. unfold t_msg, cut_whole; cbn [t_pieces]. apply chunks_concat. lia. Qed.

Lemma cut_rem_small s m r :
  sender_ok s -> (1 <= r <= sd_max s)%Z ->
  Forall (fun p => (zlen p <= sd_max s)%Z) (t_pieces (cut_rem s m r)).
Proof.
  intros [Hm _] Hr. unfold cut_rem; cbn [t_pieces]. constructor.
  - unfold zlen. rewrite firstn_length. lia.
  - eapply Forall_impl; [|apply chunks_small; lia]. cbn. intros p Hp. lia.
Qed.

Lemma fragment_msg_some s m r :
  sender_ok s -> (sd_counter s < 2 ^ 64)%Z -> (zlen m < 2 ^ 63)%Z ->
  (1 <= r <= sd_max s)%Z ->
  fragment_msg s m (Some r) =
  Ok (mkSender (sd_max s) (sd_counter s + 1), frag_list (cut_rem s m r)).
Proof.
  intros HS Hc' Hz Hr. pose proof HS as [Hm Hc].
  set (t := cut_rem s m r).
  set (k := Z.to_nat (sd_max s)). assert (Hk : 1 <= k) by (subst k; lia).
  assert (E1 : slice_to m r = firstn (Z.to_nat r) m) by (apply slice_to_nonneg; lia).
  assert (E2 : slice_from m (zlen (firstn (Z.to_nat r) m)) = skipn (Z.to_nat r) m).
  { rewrite slice_from_nonneg by apply zlen_nonneg. unfold zlen.
    rewrite Nat2Z.id, firstn_length.
    destruct (Nat.le_ge_cases (Z.to_nat r) (length m)).
    - now rewrite Nat.min_l by lia.
    - rewrite Nat.min_r by lia. now rewrite !skipn_all2 by lia. }
  set (rest := skipn (Z.to_nat r) m) in *.
  assert (LP : length (t_pieces t) = S (nceil (length rest) k)).
  { unfold t, cut_rem; cbn [t_pieces length]. f_equal. apply chunks_length. }
  assert (RNG : Forall (fun j => frag_range (frag_of t j)) (seq 0 (length (t_pieces t)))).
  { apply Forall_forall. intros j Hj. apply in_seq in Hj. apply frag_of_range.
    - cbn. lia.
    - unfold zlen. rewrite LP. rewrite <- (chunks_length k rest).
      pose proof (chunks_count k rest Hk). unfold rest in *. rewrite skipn_length in *.
      unfold zlen in Hz. lia.
    - lia.
    - eapply Forall_impl; [|apply (cut_rem_small s m r HS Hr)]. cbn. intros p Hp. lia. }
  unfold fragment_msg. rewrite E1, E2.
  assert (END : (match rest with [] => true | _ => false end) = Nat.eqb 1 (length (t_pieces t))).
  { rewrite LP. destruct (nceil (length rest) k) eqn:En.
    - destruct rest; [reflexivity|].
      pose proof (nceil_pos (length (n :: rest)) k Hk). simpl length in *; lia.
    - destruct rest; [|reflexivity]. simpl length in En. rewrite nceil_0 in En by assumption. discriminate. }
  assert (F0 : mkFrag (sd_counter s) 0 (firstn (Z.to_nat r) m) true
                 (match rest with [] => true | _ => false end) = frag_of t 0).
  { unfold frag_of. rewrite END. reflexivity. }
  rewrite F0.
  rewrite LP in RNG. cbn [seq] in RNG. inversion RNG as [|? ? R0 RN]; subst.
  rewrite (frag_pack_ok _ R0). cbn [bind].
  replace (sd_max s) with (Z.of_nat k) at 1 by (subst k; lia).
  rewrite byte_iterator_pos by assumption. cbn [bind].
  change 1%Z with (Z.of_nat 1) at 1. change false with (Nat.eqb 1 0).
  change (sd_counter s) with (t_oid t) at 1.
  rewrite (pack_chunks_frags t (nceil (length rest) k) 1).
  - rewrite mapM_frags_ok by exact RN. cbn [bind app].
    unfold frag_list. rewrite LP. cbn [seq map]. reflexivity.
  - rewrite LP. lia.
  - rewrite LP. rewrite <- seq_shift, map_map. apply map_ext_in. intros j Hj. apply in_seq in Hj.
    f_equal. unfold t, cut_rem; cbn [t_pieces nth]. fold k. fold rest.
    rewrite nth_chunks by lia. reflexivity.
Qed.

(* ---- fragment lists as words ---- *)
Lemma frag_list_words t :
  Forall (fun j => frag_range (frag_of t j)) (seq 0 (length (t_pieces t))) ->
  Forall2 word_wire (map (fun j => [(t, j)]) (seq 0 (length (t_pieces t)))) (frag_list t).
Proof.
  unfold frag_list. induction 1 as [|j l Hj Hl IH]; cbn [map]; constructor; [|exact IH].
  exists [frag_bytes (frag_of t j)]. split.
  - cbn [mapM fst snd]. rewrite frag_pack_ok by assumption. reflexivity.
  - cbn [concat]. now rewrite app_nil_r.
Qed.

Lemma concat_singletons {A B} (f : A -> B) l : concat (map (fun j => [f j]) l) = map f l.
Proof. induction l as [|x l IH]; [reflexivity|]. cbn [map concat app]. now rewrite IH. Qed.

Lemma cut_rem_range s m r :
  sender_ok s -> (sd_counter s < 2 ^ 64)%Z -> (zlen m < 2 ^ 63)%Z -> (1 <= r <= sd_max s)%Z ->
  Forall (fun j => frag_range (frag_of (cut_rem s m r) j))
         (seq 0 (length (t_pieces (cut_rem s m r)))).
Proof.
  intros HS Hc Hz Hr. apply Forall_forall. intros j Hj. apply in_seq in Hj.
  destruct HS as [Hm Hc0].
  apply frag_of_range.
  - cbn. lia.
  - unfold zlen, cut_rem; cbn [t_pieces length].
    pose proof (chunks_count (Z.to_nat (sd_max s)) (skipn (Z.to_nat r) m) ltac:(lia)) as C.
    rewrite skipn_length in C. unfold zlen in Hz. lia.
  - lia.
  - eapply Forall_impl; [|apply (cut_rem_small s m r (conj Hm Hc0) Hr)]. cbn. intros p Hp. lia.
Qed.

Lemma cut_whole_range s m :
  sender_ok s -> (sd_counter s < 2 ^ 64)%Z -> (zlen m < 2 ^ 63)%Z ->
  Forall (fun j => frag_range (frag_of (cut_whole s m) j))
         (seq 0 (length (t_pieces (cut_whole s m)))).
Proof.
  intros HS Hc Hz. apply Forall_forall. intros j Hj. apply in_seq in Hj.
  destruct HS as [Hm Hc0].
  apply frag_of_range.
  - cbn. lia.
  - unfold zlen, cut_whole; cbn [t_pieces].
    pose proof (chunks_count (Z.to_nat (sd_max s)) m ltac:(lia)) as C.
    unfold zlen in Hz. lia.
  - lia.
  - eapply Forall_impl; [|apply chunks_small; lia]. cbn. intros p Hp. lia.
Qed.

(* ---- fragment_multiple ---- *)
Lemma append_last_app (l : list bytes) y x : append_last (l ++ [y]) x = l ++ [y ++ x].
Proof.
  induction l as [|z l IH]; [reflexivity|].
  cbn [app append_last]. rewrite IH. destruct (l ++ [y]) eqn:E; [destruct l; discriminate|reflexivity].
Qed.

Lemma frag_list_lengths t mx :
  Forall (fun p => (zlen p <= mx)%Z) (t_pieces t) ->
  Forall (fun b => (zlen b <= mx + 21)%Z) (frag_list t).
Proof.
  intros H. apply Forall_forall. intros b Hb. apply in_map_iff in Hb as (j & <- & Hj).
  apply in_seq in Hj. rewrite frag_bytes_length. unfold frag_of; cbn [fr_data].
  assert (In (nth j (t_pieces t) []) (t_pieces t)) by (apply nth_In; lia).
  apply (proj1 (Forall_forall _ _) H) in H0. lia.
Qed.

(* The state of the loop: the blocks built so far are the wire images of
   words that together list the fragments of the messages done, and the
   remaining size is what still fits in the last block. *)
Record fm_inv (s : sender) (ts : list transit) (rem : Z) (frags : list bytes) (ws : list word) : Prop := {
  fi_wire : Forall2 word_wire ws frags;
  fi_words : concat ws = concat (map stream ts);
  fi_len : Forall (fun b => (zlen b <= sd_max s + 21)%Z) frags;
  fi_rem : (1 <= rem <= sd_max s)%Z;
  fi_last : rem <> sd_max s -> exists f0 l, frags = f0 ++ [l] /\ (zlen l + rem = sd_max s)%Z }.

Fixpoint oids_from (c : Z) (ms : list bytes) : list Z :=
  match ms with [] => [] | _ :: ms' => c :: oids_from (c + 1) ms' end.

Lemma rev_last {A} (l : list A) x l0 : rev l = x :: l0 -> l = rev l0 ++ [x].
Proof. intros H. apply (f_equal (@rev A)) in H. rewrite rev_involutive in H. exact H. Qed.

Lemma stream_length t : length (stream t) = length (t_pieces t).
Proof. unfold stream. now rewrite map_length, seq_length. Qed.

Lemma frag_list_cons s m r :
  exists b bs, frag_list (cut_rem s m r) = b :: bs /\
    b = frag_bytes (frag_of (cut_rem s m r) 0) /\
    bs = map (fun j => frag_bytes (frag_of (cut_rem s m r) j))
             (seq 1 (length (t_pieces (cut_rem s m r)) - 1)).
Proof.
  unfold frag_list. set (t := cut_rem s m r).
  assert (L : length (t_pieces t) = S (length (t_pieces t) - 1)) by (unfold t, cut_rem; cbn [t_pieces length]; lia).
  remember (length (t_pieces t) - 1) as n eqn:En. rewrite L. cbn [seq map].
  eexists; eexists. repeat split.
Qed.

Lemma fragment_multiple_loop_spec : forall ms s ts rem frags ws,
  sender_ok s -> (sd_counter s + Z.of_nat (length ms) <= 2 ^ 64)%Z ->
  Forall (fun m => (zlen m < 2 ^ 63)%Z) ms ->
  fm_inv s ts rem frags ws ->
  exists frags' ws' ts',
    fragment_multiple_loop s ms rem frags =
      Ok (mkSender (sd_max s) (sd_counter s + Z.of_nat (length ms)), frags') /\
    map t_msg ts' = ms /\ map t_oid ts' = oids_from (sd_counter s) ms /\
    Forall (fun t => t_pieces t <> []) ts' /\
    Forall2 word_wire ws' frags' /\ concat ws' = concat (map stream (ts ++ ts')) /\
    Forall (fun b => (zlen b <= sd_max s + 21)%Z) frags'.
Proof.
  induction ms as [|m ms IH]; intros s ts rem frags ws HS Hc Hms I.
  - exists frags, ws, []. cbn [fragment_multiple_loop length]. rewrite Z.add_0_r.
    destruct s as [mx c]. rewrite app_nil_r. destruct I. repeat split; auto.
  - inversion Hms as [|? ? Hm Hms']; subst. cbn [length] in Hc.
    cbn [fragment_multiple_loop].
    rewrite fragment_msg_some; try assumption; [|lia|apply (fi_rem _ _ _ _ _ I)].
    cbn [bind].
    set (t := cut_rem s m rem).
    destruct (frag_list_cons s m rem) as (b & bs & FL & Eb & Ebs). fold t in FL, Eb, Ebs.
    pose proof (cut_rem_range s m rem HS ltac:(lia) Hm (fi_rem _ _ _ _ _ I)) as RNG. fold t in RNG.
    pose proof (frag_list_words t RNG) as FW.
    assert (LT : length (t_pieces t) = S (length (t_pieces t) - 1)) by (unfold t, cut_rem; cbn [t_pieces length]; lia).
    rewrite LT in FW. cbn [seq map] in FW. rewrite FL in FW.
    inversion FW as [|? ? ? ? FWb FWbs]; subst b0 bs0 || idtac. 
    pose proof (frag_list_lengths t (sd_max s) (cut_rem_small s m rem HS (fi_rem _ _ _ _ _ I))) as FLEN.
    rewrite FL in FLEN. inversion FLEN as [|? ? FLb FLbs]; subst.
    set (bs := map (fun j => frag_bytes (frag_of t j)) (seq 1 (length (t_pieces t) - 1))) in *.
    set (b := frag_bytes (frag_of t 0)) in *.
    assert (Hb : (zlen b <= 21 + rem)%Z).
    { unfold b. rewrite frag_bytes_length. unfold frag_of; cbn [fr_data].
      unfold t, cut_rem; cbn [t_pieces nth]. unfold zlen. rewrite firstn_length.
      pose proof (fi_rem _ _ _ _ _ I). lia. }
    set (wb := map (fun j => [(t, j)]) (seq 1 (length (t_pieces t) - 1))) in *.
    assert (CW : [(t, 0)] ++ concat wb = stream t).
    { unfold stream. rewrite LT. cbn [seq map app]. unfold wb. now rewrite concat_singletons. }
    (* the new list of blocks *)
    assert (G : exists frags1 ws1,
       (if negb (rem =? sd_max s)%Z && negb (Nat.eqb (length frags) 0)
        then match frag_list t with
             | [] => Err IndexError
             | x :: bf' => Ok (append_last frags x ++ bf')
             end
        else Ok (frags ++ frag_list t)) = Ok frags1 /\
       frags1 <> [] /\
       Forall2 word_wire ws1 frags1 /\ concat ws1 = concat (map stream (ts ++ [t])) /\
       Forall (fun b0 => (zlen b0 <= sd_max s + 21)%Z) frags1).
    { rewrite map_app, concat_app. cbn [map concat]. rewrite app_nil_r, <- CW, <- (fi_words _ _ _ _ _ I).
      rewrite FL.
      destruct (Z.eqb_spec rem (sd_max s)) as [Er|Er]; cbn [negb andb].
      - exists (frags ++ b :: bs), (ws ++ [(t, 0)] :: wb).
        split; [reflexivity|]. split; [destruct frags; discriminate|].
        split; [apply Forall2_app; [apply I|constructor; assumption]|].
        split; [rewrite concat_app; reflexivity|].
        apply Forall_app. split; [apply I|constructor; assumption].
      - destruct (fi_last _ _ _ _ _ I Er) as (f0 & l & -> & Hl).
        rewrite app_length. cbn [length].
        destruct (Nat.eqb_spec (length f0 + 1) 0) as [|_]; [lia|]. cbn [negb].
        rewrite append_last_app.
        pose proof (fi_wire _ _ _ _ _ I) as W.
        apply Forall2_app_inv_r in W as (w0 & wl & W0 & Wl & Ews).
        inversion Wl as [|wlast ? wl0 ? Wlast Wnil]; subst. inversion Wnil; subst.
        exists ((f0 ++ [l ++ b]) ++ bs), ((w0 ++ [wlast ++ [(t, 0)]]) ++ wb).
        split; [reflexivity|]. split; [destruct f0; discriminate|].
        split.
        { apply Forall2_app; [|assumption]. apply Forall2_app; [assumption|].
          constructor; [|constructor]. now apply word_wire_app. }
        split.
        { rewrite !concat_app. cbn [concat]. rewrite !app_nil_r, <- !app_assoc. reflexivity. }
        pose proof (fi_len _ _ _ _ _ I) as LF. apply Forall_app in LF as [LF0 LFl].
        apply Forall_app. split; [|assumption]. apply Forall_app. split; [assumption|].
        constructor; [|constructor]. rewrite zlen_app. lia. }
    destruct G as (frags1 & ws1 & GE & GN & GW & GC & GL).
    rewrite GE. cbn [bind].
    destruct (rev frags1) as [|l rl] eqn:ER.
    { exfalso. apply GN. apply (f_equal (@rev (list N))) in ER. now rewrite rev_involutive in ER. }
    apply rev_last in ER.
    set (s1 := mkSender (sd_max s) (sd_counter s + 1)).
    set (rem1 := if (sd_max s - zlen l <=? 0)%Z then sd_max s else (sd_max s - zlen l)%Z).
    assert (I1 : fm_inv s1 (ts ++ [t]) rem1 frags1 ws1).
    { destruct HS as [Hmx _]. constructor; try assumption; cbn [s1 sd_max].
      - unfold rem1. pose proof (zlen_nonneg l). destruct (Z.leb_spec (sd_max s - zlen l) 0); lia.
      - intros Hr. exists (rev rl), l. split; [exact ER|].
        unfold rem1 in *. destruct (Z.leb_spec (sd_max s - zlen l) 0); [contradiction|lia]. }
    destruct (IH s1 (ts ++ [t]) rem1 frags1 ws1) as (frags' & ws' & ts' & E & M & O & P & W & C & L).
    + split; [apply HS|cbn; destruct HS; lia].
    + cbn [s1 sd_counter]. lia.
    + exact Hms'.
    + exact I1.
    + exists frags', ws', (t :: ts').
      cbn [s1 sd_max sd_counter] in *.
      split; [etransitivity; [exact E|]; f_equal; f_equal; f_equal; cbn [length]; lia|].
      split; [cbn [map]; rewrite M; f_equal; unfold t; now apply cut_rem_msg|].
      split; [cbn [map oids_from]; rewrite O; reflexivity|].
      split; [constructor; [unfold t, cut_rem; discriminate|exact P]|].
      split; [exact W|]. split; [|exact L].
      rewrite C. now rewrite <- app_assoc.
Qed.

Theorem fragment_multiple_spec s ms :
  sender_ok s -> (sd_counter s + Z.of_nat (length ms) <= 2 ^ 64)%Z ->
  Forall (fun m => (zlen m < 2 ^ 63)%Z) ms ->
  exists blocks ws ts,
    fragment_multiple s ms =
      Ok (mkSender (sd_max s) (sd_counter s + Z.of_nat (length ms)), blocks) /\
    map t_msg ts = ms /\ map t_oid ts = oids_from (sd_counter s) ms /\
    Forall (fun t => t_pieces t <> []) ts /\
    Forall2 word_wire ws blocks /\ concat ws = concat (map stream ts) /\
    Forall (fun b => (zlen b <= sd_max s + 21)%Z) blocks.
Proof.
  intros HS Hc Hm. unfold fragment_multiple.
  destruct (fragment_multiple_loop_spec ms s [] (sd_max s) [] [] HS Hc Hm) as (f & w & t & H).
  { constructor; try constructor; destruct HS; lia. }
  exists f, w, t. exact H.
Qed.

Lemma oids_from_bound c ms x : In x (oids_from c ms) -> (c <= x < c + Z.of_nat (length ms))%Z.
Proof.
  revert c; induction ms as [|m ms IH]; cbn [oids_from In length]; intros c H; [contradiction|].
  destruct H as [->|H]; [lia|]. apply IH in H. lia.
Qed.

Lemma oids_from_increasing c ms : strictly_increasing (oids_from c ms).
Proof.
  revert c; induction ms as [|m ms IH]; cbn [oids_from strictly_increasing]; intros c; [exact I|].
  split; [|apply IH]. intros y Hy. apply oids_from_bound in Hy. lia.
Qed.

Lemma increasing_nodup l : strictly_increasing l -> NoDup l.
Proof.
  induction l as [|x l IH]; cbn [strictly_increasing]; intros H; constructor.
  - intros Hx. apply H in Hx. lia.
  - now apply IH.
Qed.

Lemma oids_from_app c a b : oids_from c (a ++ b) = oids_from c a ++ oids_from (c + Z.of_nat (length a)) b.
Proof.
  revert c; induction a as [|m a IH]; cbn [app oids_from length]; intros c.
  - now rewrite Z.add_0_r.
  - rewrite IH. cbn [app]. f_equal. f_equal. f_equal. lia.
Qed.

Lemma fragment_msg_none_spec s m :
  sender_ok s -> (sd_counter s < 2 ^ 64)%Z -> (zlen m < 2 ^ 63)%Z ->
  let t := cut_whole s m in
  fragment_msg s m None = Ok (mkSender (sd_max s) (sd_counter s + 1), frag_list t) /\
  t_oid t = sd_counter s /\ t_msg t = m /\
  Forall2 word_wire (map (fun x => [x]) (stream t)) (frag_list t) /\
  (m <> [] -> cut_at (sd_max s) (t_pieces t)) /\
  Forall (fun b => (zlen b <= sd_max s + 21)%Z) (frag_list t).
Proof.
  intros HS Hc Hz t. pose proof HS as [Hm Hc0].
  split; [now apply fragment_msg_none|]. split; [reflexivity|].
  split; [now apply cut_whole_msg|].
  split.
  { unfold stream. rewrite map_map. apply frag_list_words. now apply cut_whole_range. }
  split.
  - intros Hne. unfold t, cut_whole; cbn [t_pieces].
    replace (sd_max s) with (Z.of_nat (Z.to_nat (sd_max s))) at 1 by lia.
    apply chunks_cut_at; [lia|assumption].
  - apply frag_list_lengths. unfold t, cut_whole; cbn [t_pieces].
    eapply Forall_impl; [|apply chunks_small; lia]. cbn. intros p Hp. lia.
Qed.
