(* The property statements of the fragment layer, as lemmas. *)
From Coq Require Import Lia ZifyBool ZifyNat ZifyN Permutation.
From Verif Require Import Base BaseProofs FragModel FragSpec FragProofs FragProofs2 FragProofs3.

Lemma big_endian_acc l : forall acc,
  fold_left (fun acc b => 256 * acc + b)%N l acc = (acc * 256 ^ N.of_nat (length l) + le_val (rev l))%N.
Proof.
  induction l as [|b l IH]; intros acc; cbn [fold_left rev length].
  - change (256 ^ N.of_nat 0)%N with 1%N. cbn [le_val]. lia.
  - rewrite IH. rewrite pow256_succ.
    assert (A : forall x y, le_val (x ++ y) = (le_val x + 256 ^ N.of_nat (length x) * le_val y)%N).
    { induction x as [|c x IHx]; intros y; cbn [app le_val length].
      - change (256 ^ N.of_nat 0)%N with 1%N. lia.
      - rewrite IHx, pow256_succ. lia. }
    rewrite A, rev_length. cbn [le_val]. lia.
Qed.

Lemma big_endian_be_val l : big_endian l = be_val l.
Proof. unfold big_endian. rewrite big_endian_acc. unfold be_val. lia. Qed.

Lemma fragment_roundtrip f rest :
  (0 <= fr_oid f < 2 ^ 64)%Z -> (0 <= fr_id f < 2 ^ 64)%Z -> (zlen (fr_data f) < 2 ^ 32)%Z ->
  exists b, frag_pack f = Ok b /\ frag_unpack (b ++ rest) = Ok (f, rest).
Proof.
  intros H1 H2 H3. exists (frag_bytes f).
  assert (R : frag_range f) by (repeat split; lia).
  split; [now apply frag_pack_ok|now apply frag_unpack_bytes].
Qed.

Lemma fragment_pack_error f e :
  frag_pack f = Err e <->
  e = StructError /\
  ~ ((0 <= fr_oid f < 2 ^ 64)%Z /\ (0 <= fr_id f < 2 ^ 64)%Z /\ (zlen (fr_data f) < 2 ^ 32)%Z).
Proof.
  split.
  - intros H. apply frag_pack_err in H as [H ->]. split; [reflexivity|exact H].
  - intros [-> H]. destruct (frag_pack f) as [b|e'] eqn:E.
    + apply frag_pack_inv in E as [R _]. exfalso. apply H. exact R.
    + apply frag_pack_err in E as [_ ->]. reflexivity.
Qed.

Lemma fragment_layout f b :
  frag_pack f = Ok b ->
  zlen b = (21 + zlen (fr_data f))%Z /\
  Z.of_N (big_endian (firstn 8 b)) = fr_oid f /\
  Z.of_N (big_endian (firstn 8 (skipn 8 b))) = fr_id f /\
  nth_error b 16 = Some (if fr_start f then if fr_end f then 3 else 1
                         else if fr_end f then 2 else 0)%N /\
  Z.of_N (big_endian (firstn 4 (skipn 17 b))) = zlen (fr_data f) /\
  skipn 21 b = fr_data f.
Proof.
  intros H. apply frag_pack_inv in H as ((H1 & H2 & H3) & ->).
  split; [apply frag_bytes_length|]. rewrite !big_endian_be_val.
  unfold frag_bytes.
  set (b1 := be_bytes 8 (Z.to_N (fr_oid f))). set (b2 := be_bytes 8 (Z.to_N (fr_id f))).
  set (b4 := be_bytes 4 (Z.to_N (zlen (fr_data f)))).
  assert (L1 : length b1 = 8) by apply be_bytes_length.
  assert (L2 : length b2 = 8) by apply be_bytes_length.
  assert (L4 : length b4 = 4) by apply be_bytes_length.
  assert (B3 : be_bytes 1 (Z.to_N (frag_flags f)) =
               [if fr_start f then if fr_end f then 3 else 1 else if fr_end f then 2 else 0]%N).
  { unfold frag_flags. destruct (fr_start f), (fr_end f); reflexivity. }
  rewrite B3. set (c := (if fr_start f then if fr_end f then 3 else 1 else if fr_end f then 2 else 0)%N).
  assert (S8 : forall (x y : list N) n, length x = n -> firstn n (x ++ y) = x).
  { intros x y n <-. rewrite firstn_app, Nat.sub_diag, firstn_all. simpl. apply app_nil_r. }
  assert (K8 : forall (x y : list N) n, length x = n -> skipn n (x ++ y) = y).
  { intros x y n <-. rewrite skipn_app, Nat.sub_diag, skipn_all. reflexivity. }
  split.
  { rewrite S8 by assumption. unfold b1. rewrite be_val_be_bytes; [lia|].
    change (256 ^ N.of_nat 8)%N with (2 ^ 64)%N. lia. }
  split.
  { rewrite K8 by assumption. rewrite S8 by assumption. unfold b2. rewrite be_val_be_bytes; [lia|].
    change (256 ^ N.of_nat 8)%N with (2 ^ 64)%N. lia. }
  rewrite (app_assoc b1 b2).
  assert (L12 : length (b1 ++ b2) = 16) by (rewrite app_length; lia).
  split.
  { rewrite nth_error_app2 by lia. rewrite L12. reflexivity. }
  change ([c] ++ b4 ++ fr_data f) with ([c] ++ (b4 ++ fr_data f)). rewrite (app_assoc (b1 ++ b2) [c]).
  assert (L17 : length ((b1 ++ b2) ++ [c]) = 17) by (rewrite app_length, L12; reflexivity).
  split.
  { rewrite K8 by assumption. rewrite S8 by assumption. unfold b4. rewrite be_val_be_bytes.
    - pose proof (zlen_nonneg (fr_data f)). lia.
    - change (256 ^ N.of_nat 4)%N with (2 ^ 32)%N. lia. }
  rewrite (app_assoc ((b1 ++ b2) ++ [c])). apply K8. rewrite app_length, L17. lia.
Qed.

Lemma fragment_unpack_inverse data f rest fl :
  bytes_ok data ->
  nth_error data 16 = Some fl -> (fl < 4)%N ->
  frag_unpack data = Ok (f, rest) ->
  big_endian (firstn 4 (skipn 17 data)) = N.of_nat (length (fr_data f)) ->
  exists b, frag_pack f = Ok b /\ data = b ++ rest.
Proof. intros. eapply frag_unpack_pack; eauto. now rewrite <- big_endian_be_val. Qed.

(* ---- prefixes of one message, split into calls ---- *)
Lemma interleave_prefix_spec ts ws : forall e ss w2,
  NoDup (map t_oid ts) -> Forall2 (suffix_of e) ts ss -> interleave ss (concat ws ++ w2) ->
  exists e' ss', spec_calls e ws = (e', map (fun w => Some (completes w)) ws) /\
                 Forall2 (suffix_of e') ts ss' /\ interleave ss' w2.
Proof.
  induction ws as [|w ws IH]; intros e ss w2 Hn F I.
  - exists e, ss. auto.
  - cbn [concat] in I. rewrite <- app_assoc in I.
    destruct (interleave_app_spec ts w (concat ws ++ w2) e ss Hn F I) as (e1 & ss1 & S & F1 & I1).
    destruct (IH e1 ss1 w2 Hn F1 I1) as (e2 & ss2 & S2 & F2 & I2).
    exists e2, ss2. cbn [spec_calls map]. rewrite S, S2. auto.
Qed.

Lemma Forall2_concat_split {A B} (P : A -> B -> Prop) : forall (calls : list (list B)) l,
  Forall2 P l (concat calls) -> exists lss, concat lss = l /\ Forall2 (Forall2 P) lss calls.
Proof.
  induction calls as [|c calls IH]; cbn [concat]; intros l H.
  - inversion H; subst. exists []. split; [reflexivity|constructor].
  - apply Forall2_app_inv_r in H as (l1 & l2 & H1 & H2 & ->).
    destruct (IH l2 H2) as (lss & <- & F). exists (l1 :: lss). split; [reflexivity|now constructor].
Qed.

Lemma Forall2_word_concat (l : list word) (bs : list bytes) :
  Forall2 word_wire l bs -> word_wire (concat l) (concat bs).
Proof.
  induction 1 as [|w b l bs H F IH]; [apply word_wire_nil|].
  cbn [concat]. now apply word_wire_app.
Qed.

Lemma Forall2_firstn {A B} (P : A -> B -> Prop) n : forall l l',
  Forall2 P l l' -> Forall2 P (firstn n l) (firstn n l').
Proof.
  induction n as [|n IH]; intros l l' H; [constructor|].
  inversion H; subst; cbn [firstn]; constructor; auto.
Qed.

Lemma concat_concat {A} (l : list (list (list A))) : concat (concat l) = concat (map (@concat A) l).
Proof. induction l as [|x l IH]; [reflexivity|]. cbn [concat map]. now rewrite concat_app, IH. Qed.

Lemma in_firstn_seq i : forall j a n, In i (firstn j (seq a n)) -> i < a + j.
Proof.
  induction j as [|j IH]; intros a n H; [contradiction|].
  destruct n as [|n]; [contradiction|]. cbn [seq firstn In] in H.
  destruct H as [->|H]; [lia|]. apply IH in H. lia.
Qed.

Lemma completes_prefix t j :
  t_pieces t <> [] ->
  completes (firstn j (stream t)) = if Nat.ltb j (length (t_pieces t)) then [] else [t_msg t].
Proof.
  intros Hp. destruct (Nat.ltb_spec j (length (t_pieces t))) as [H|H].
  - unfold completes. replace (filter is_last (firstn j (stream t))) with (@nil (transit * nat)); [reflexivity|].
    symmetry. unfold stream. rewrite firstn_map.
    assert (forall l, (forall i, In i l -> S i < length (t_pieces t)) ->
                      filter is_last (map (fun i => (t, i)) l) = []) as A.
    { induction l as [|i l IH]; intros Hl; [reflexivity|]. cbn [map filter]. unfold is_last at 1. cbn [fst snd].
      destruct (Nat.eqb_spec (S i) (length (t_pieces t))) as [E|E].
      - specialize (Hl i (or_introl eq_refl)). lia.
      - apply IH. intros i' Hi'. apply Hl. now right. }
    apply A. intros i Hi.
    apply in_firstn_seq in Hi. lia.
  - rewrite firstn_all2 by (rewrite stream_length; exact H). now apply completes_stream.
Qed.

(* C02 *)
Lemma mapM_Ok_id {A} (l : list A) : mapM (fun x => x) (map (@Ok A) l) = Ok l.
Proof. induction l as [|x l IH]; [reflexivity|]. cbn [map mapM bind]. now rewrite IH. Qed.

Lemma delivered_ok ws : delivered (map (fun w => Ok (completes w)) ws) = Ok (completes (concat ws)).
Proof.
  unfold delivered. rewrite <- (map_map completes (@Ok _)). rewrite mapM_Ok_id. cbn [bind].
  now rewrite completes_concat.
Qed.

Lemma single_message_roundtrip s m :
  (1 <= sd_max s < 2 ^ 32)%Z -> (0 <= sd_counter s < 2 ^ 64)%Z ->
  m <> [] -> (zlen m < 2 ^ 63)%Z ->
  exists blocks pieces,
    fragment_msg s m None = Ok (mkSender (sd_max s) (sd_counter s + 1), blocks) /\
    concat pieces = m /\ cut_at (sd_max s) pieces /\
    mapM (fun i => frag_pack (frag_of (mkTransit (sd_counter s) pieces) i))
         (seq 0 (length pieces)) = Ok blocks /\
    forall r, dict_get Z.eqb (sd_counter s) r = None ->
    forall j calls, concat calls = firstn j blocks ->
      delivered (snd (receive_calls r (map (@concat N) calls))) =
        Ok (if Nat.ltb j (length blocks) then [] else [m]) /\
      (length blocks <= j -> same_table (fst (receive_calls r (map (@concat N) calls))) r).
Proof.
  intros Hmx Hc Hm Hz.
  assert (HS : sender_ok s) by (split; lia).
  destruct (fragment_msg_none_spec s m HS ltac:(lia) Hz) as (E & Eo & Em & W & Cut & _).
  set (t := cut_whole s m) in *.
  exists (frag_list t), (t_pieces t).
  assert (Ht : mkTransit (sd_counter s) (t_pieces t) = t) by reflexivity.
  split; [exact E|]. split; [exact Em|]. split; [now apply Cut|].
  pose proof (cut_whole_range s m HS ltac:(lia) Hz) as RNG. fold t in RNG.
  split.
  { rewrite Ht. clear - RNG. unfold frag_list.
    induction RNG as [|j l Hj Hl IH]; [reflexivity|]. cbn [mapM map].
    rewrite frag_pack_ok by assumption. cbn [bind]. now rewrite IH. }
  intros r Hr j calls Hcalls.
  assert (Hp : t_pieces t <> []).
  { destruct (Cut Hm) as (qs & q & -> & _). destruct qs; discriminate. }
  assert (HL : length (frag_list t) = length (t_pieces t))
    by (unfold frag_list; now rewrite map_length, seq_length).
  pose proof (Forall2_firstn _ j _ _ W) as WF. rewrite <- Hcalls in WF.
  destruct (Forall2_concat_split _ calls _ WF) as (lss & EL & FL).
  set (ws := map (@concat _) lss).
  assert (Wd : Forall2 word_wire ws (map (@concat N) calls)).
  { unfold ws. clear - FL. induction FL as [|l c lss calls H F IH]; cbn [map]; constructor; auto.
    now apply Forall2_word_concat. }
  assert (CW : concat ws = firstn j (stream t)).
  { unfold ws. rewrite <- concat_concat, EL. rewrite firstn_map.
    rewrite (concat_singletons (fun x => x)). apply map_id. }
  assert (Hn : NoDup (map t_oid [t])) by (cbn; constructor; [intros []|constructor]).
  assert (HP : Forall (fun t => t_pieces t <> []) [t]) by (constructor; auto).
  assert (H0 : forall t', In t' [t] -> dict_get Z.eqb (t_oid t') r = None).
  { intros t' [<-|[]]. exact Hr. }
  assert (I : interleave (map stream [t]) (concat ws ++ skipn j (stream t))).
  { rewrite CW, firstn_skipn. cbn [map]. rewrite <- (app_nil_r (stream t)) at 2.
    apply (interleave_seq [stream t]). }
  pose proof (suffix_init [t] HP) as F0.
  destruct (interleave_prefix_spec [t] ws expect0 _ _ Hn F0 I) as (e' & ss' & SC & F' & I').
  assert (WO : Forall (word_over [t]) ws).
  { pose proof (interleave_over [t] _ _ _ Hn F0 I) as HO.
    unfold word_over in HO. apply Forall_app in HO as [HO _].
    clear - HO. induction ws as [|w ws IH]; [constructor|]. cbn [concat] in HO.
    apply Forall_app in HO as [H1 H2]. constructor; [exact H1|now apply IH]. }
  destruct (receive_calls_spec [t] r Hn ws _ expect0 r WO Wd (rel_init [t] r H0)) as (r' & D & R & C).
  rewrite SC in *. cbn [fst snd] in *. rewrite D. cbn [fst snd].
  split.
  - rewrite map_map. cbn [observe]. rewrite delivered_ok, CW, completes_prefix by exact Hp.
    rewrite HL, Em. reflexivity.
  - intros Hj k.
    assert (Z : e' (t_oid t) = 0).
    { rewrite skipn_all2 in I' by (rewrite stream_length; lia).
      destruct (interleave_calls_spec [t] [] e' ss' Hn F' I') as (e2 & E2 & Z2).
      cbn [spec_calls map] in E2. apply pair_inj in E2 as [<- _]. now inversion Z2. }
    destruct (Z.eq_dec k (t_oid t)) as [->|Hk].
    + rewrite Eo, Hr. rewrite <- Eo. apply C; [|now apply clean_init|now left|exact Z].
      apply Forall_forall. intros o Ho. apply in_map_iff in Ho as (w & <- & _). discriminate.
    + apply R. cbn. intros [H|[]]; congruence.
Qed.

(* C05 *)
Lemma multiple_roundtrip s ms :
  (1 <= sd_max s < 2 ^ 32)%Z -> (0 <= sd_counter s)%Z ->
  (sd_counter s + zlen ms <= 2 ^ 64)%Z ->
  Forall (fun m => (zlen m < 2 ^ 63)%Z) ms ->
  exists blocks ts ws,
    fragment_multiple s ms = Ok (mkSender (sd_max s) (sd_counter s + zlen ms), blocks) /\
    map t_msg ts = ms /\
    map t_oid ts = map (fun i => sd_counter s + Z.of_nat i)%Z (seq 0 (length ms)) /\
    Forall2 word_wire ws blocks /\ concat ws = concat (map stream ts) /\
    forall r, (forall k, (sd_counter s <= k < sd_counter s + zlen ms)%Z -> dict_get Z.eqb k r = None) ->
      delivered (snd (receive_calls r blocks)) = Ok ms /\
      same_table (fst (receive_calls r blocks)) r.
Proof.
  intros Hmx Hc Hsum Hms.
  assert (HS : sender_ok s) by (split; lia).
  destruct (fragment_multiple_spec s ms HS Hsum Hms) as (blocks & ws & ts & E & M & O & P & W & C & _).
  exists blocks, ts, ws. split; [exact E|]. split; [exact M|].
  split.
  { rewrite O. clear. generalize (sd_counter s). induction ms as [|m ms IH]; intros c; [reflexivity|].
    cbn [oids_from length seq map]. rewrite Z.add_0_r. f_equal.
    rewrite IH. rewrite <- seq_shift, map_map. apply map_ext. intros i. lia. }
  split; [exact W|]. split; [exact C|].
  intros r Hr.
  assert (Hn : NoDup (map t_oid ts)).
  { rewrite O. apply increasing_nodup, oids_from_increasing. }
  assert (H0 : forall t, In t ts -> dict_get Z.eqb (t_oid t) r = None).
  { intros t Ht. apply Hr. unfold zlen. apply oids_from_bound. rewrite <- O. now apply in_map. }
  assert (I : interleave (map stream ts) (concat ws)) by (rewrite C; apply interleave_seq).
  destruct (interleaved_delivery ts r ws blocks Hn P H0 I W) as (r' & D & T & _).
  rewrite D. cbn [fst snd]. split; [|exact T].
  rewrite delivered_ok, C, completes_streams by exact P. now rewrite M.
Qed.

(* C04 *)
Lemma frag_pack_len f b : frag_pack f = Ok b -> zlen b = (21 + zlen (fr_data f))%Z.
Proof. intros H. apply frag_pack_inv in H as [_ ->]. apply frag_bytes_length. Qed.

Lemma pack_chunks_bound mx : forall cs oid fid st bs,
  pack_chunks oid fid st cs = Ok bs -> Forall (fun c => (zlen (fst c) <= mx)%Z) cs ->
  Forall (fun b => (zlen b <= mx + 21)%Z) bs.
Proof.
  induction cs as [|[d e] cs IH]; intros oid fid st bs H F; cbn [pack_chunks] in H.
  - inversion H; constructor.
  - destruct (frag_pack _) as [b|] eqn:Eb; [|discriminate]. cbn [bind] in H.
    destruct (pack_chunks oid (fid + 1) false cs) as [bs'|] eqn:E; [|discriminate].
    inversion H; subst. inversion F as [|? ? Fd Fc]; subst. cbn [fst] in Fd. constructor.
    + apply frag_pack_len in Eb. cbn [fr_data] in Eb. lia.
    + eapply IH; eauto.
Qed.

Lemma byte_iterator_bound d k cs :
  (1 <= k)%Z -> byte_iterator d k = Ok cs -> Forall (fun c => (zlen (fst c) <= k)%Z) cs.
Proof.
  intros Hk H. replace k with (Z.of_nat (Z.to_nat k)) in H by lia.
  rewrite byte_iterator_pos in H by lia. inversion H; subst.
  apply Forall_forall. intros c Hc. apply in_map_iff in Hc as (j & <- & _). cbn [fst].
  pose proof (nchunk_le (Z.to_nat k) d j). unfold zlen. lia.
Qed.

Lemma fragment_msg_bound s m r s' bs :
  (1 <= sd_max s)%Z -> (0 <= r)%Z -> fragment_msg s m (Some r) = Ok (s', bs) ->
  sd_max s' = sd_max s /\
  exists b bs', bs = b :: bs' /\ (zlen b <= r + 21)%Z /\
                Forall (fun x => (zlen x <= sd_max s + 21)%Z) bs'.
Proof.
  intros Hm Hr H. unfold fragment_msg in H.
  destruct (frag_pack _) as [b|] eqn:Eb; [|discriminate]. cbn [bind] in H.
  destruct (byte_iterator _ (sd_max s)) as [cs|] eqn:Ec; [|discriminate]. cbn [bind] in H.
  destruct (pack_chunks _ 1 false cs) as [bs'|] eqn:Ep; [|discriminate]. cbn [bind app] in H.
  apply Ok_pair_inj in H as [<- <-]. split; [reflexivity|].
  exists b, bs'. split; [reflexivity|]. split.
  - apply frag_pack_len in Eb. cbn [fr_data] in Eb. rewrite slice_to_nonneg in Eb by lia.
    unfold zlen in *. rewrite firstn_length in Eb. lia.
  - eapply pack_chunks_bound; eauto. eapply byte_iterator_bound; eauto.
Qed.

Lemma fragment_msg_none_bound s m s' bs :
  (1 <= sd_max s)%Z -> fragment_msg s m None = Ok (s', bs) ->
  sd_max s' = sd_max s /\ Forall (fun x => (zlen x <= sd_max s + 21)%Z) bs.
Proof.
  intros Hm H. unfold fragment_msg in H. cbn [bind] in H.
  destruct (byte_iterator _ (sd_max s)) as [cs|] eqn:Ec; [|discriminate]. cbn [bind] in H.
  destruct (pack_chunks _ 0 true cs) as [bs'|] eqn:Ep; [|discriminate]. cbn [bind app] in H.
  apply Ok_pair_inj in H as [<- <-]. split; [reflexivity|].
  eapply pack_chunks_bound; eauto. eapply byte_iterator_bound; eauto.
Qed.

Lemma fm_loop_bound : forall ms s rem frags s' bs,
  (1 <= sd_max s)%Z -> (0 <= rem <= sd_max s)%Z ->
  Forall (fun x => (zlen x <= sd_max s + 21)%Z) frags ->
  (rem <> sd_max s -> exists f0 l, frags = f0 ++ [l] /\ (zlen l + rem = sd_max s)%Z) ->
  fragment_multiple_loop s ms rem frags = Ok (s', bs) ->
  sd_max s' = sd_max s /\ Forall (fun x => (zlen x <= sd_max s + 21)%Z) bs.
Proof.
  induction ms as [|m ms IH]; intros s rem frags s' bs Hm Hr F Hl H; cbn [fragment_multiple_loop] in H.
  - apply Ok_pair_inj in H as [<- <-]. auto.
  - destruct (fragment_msg s m (Some rem)) as [[s1 bf]|] eqn:E; [|discriminate]. cbn [bind] in H.
    destruct (fragment_msg_bound s m rem s1 bf Hm ltac:(lia) E) as (E1 & b & bf' & -> & Hb & Fb).
    destruct (if negb (rem =? sd_max s)%Z && negb (Nat.eqb (length frags) 0)
              then _ else _) as [frags'|] eqn:G; [|discriminate]. cbn [bind] in H.
    assert (F' : Forall (fun x => (zlen x <= sd_max s + 21)%Z) frags').
    { destruct (negb (rem =? sd_max s)%Z && negb (Nat.eqb (length frags) 0)) eqn:Q.
      - inversion G; subst frags'. apply andb_prop in Q as [Q1 Q2].
        destruct (Hl ltac:(lia)) as (f0 & l & -> & HL). rewrite append_last_app.
        apply Forall_app in F as [F0 _].
        apply Forall_app. split; [|exact Fb]. apply Forall_app. split; [exact F0|].
        constructor; [|constructor]. rewrite zlen_app. lia.
      - inversion G; subst frags'. apply Forall_app. split; [exact F|].
        constructor; [lia|exact Fb]. }
    destruct (rev frags') as [|l rl] eqn:ER; [discriminate|].
    apply rev_last in ER. pose proof (zlen_nonneg l) as Zl.
    rewrite <- E1.
    eapply (IH s1); [..|exact H]; rewrite ?E1; try assumption.
    + destruct (Z.leb_spec (sd_max s - zlen l) 0); lia.
    + intros Hne. exists (rev rl), l. split; [exact ER|].
      destruct (Z.leb_spec (sd_max s - zlen l) 0); lia.
Qed.

Lemma block_bound s o s' blocks :
  (1 <= sd_max s)%Z -> send_step s o = Ok (s', blocks) ->
  sd_max s' = sd_max s /\ Forall (fun b => (zlen b <= sd_max s + 21)%Z) blocks.
Proof.
  intros Hm H. destruct o as [m|ms]; cbn [send_step] in H.
  - now apply (fragment_msg_none_bound s m).
  - eapply (fm_loop_bound ms s (sd_max s) []); try eassumption; try constructor; lia.
Qed.

Lemma history_bound : forall ops s s' bss,
  (1 <= sd_max s)%Z -> run_sends s ops = Ok (s', bss) ->
  sd_max s' = sd_max s /\ Forall (Forall (fun b => (zlen b <= sd_max s + 21)%Z)) bss.
Proof.
  induction ops as [|o ops IH]; intros s s' bss Hm H; cbn [run_sends] in H.
  - apply Ok_pair_inj in H as [<- <-]. split; [reflexivity|constructor].
  - destruct (send_step s o) as [[s1 bs]|] eqn:E; [|discriminate]. cbn [bind] in H.
    destruct (run_sends s1 ops) as [[s2 bss']|] eqn:E2; [|discriminate]. cbn [bind] in H.
    apply Ok_pair_inj in H as [<- <-].
    apply block_bound in E as [E1 F]; [|exact Hm].
    apply IH in E2 as [E2 F2]; [|lia]. rewrite E1 in *. split; [exact E2|constructor; assumption].
Qed.

Lemma payload_bound payload ops s' bss :
  (22 <= payload)%Z -> run_sends (sender_init payload) ops = Ok (s', bss) ->
  Forall (Forall (fun b => (zlen b <= payload)%Z)) bss.
Proof.
  intros Hp H. apply history_bound in H as [_ F]; cbn [sender_init sd_max] in *; [|lia].
  eapply Forall_impl; [|exact F]. intros l. apply Forall_impl. intros b. lia.
Qed.

Lemma resized_bound s payload ops s' bss :
  (1 <= payload)%Z -> run_sends (session_capability_resize s payload) ops = Ok (s', bss) ->
  Forall (Forall (fun b => (zlen b <= payload + 21)%Z)) bss.
Proof. intros Hp H. now apply history_bound in H as [_ F]. Qed.

(* The bound payload + 21 is reached by every long enough message. *)
Lemma resized_exceeds s payload m :
  (1 <= payload < 2 ^ 32)%Z -> (0 <= sd_counter s < 2 ^ 64)%Z ->
  (payload <= zlen m < 2 ^ 63)%Z ->
  exists s' b bs, send_step (session_capability_resize s payload) (SendOne m) = Ok (s', b :: bs) /\
                  zlen b = (payload + 21)%Z.
Proof.
  intros Hp Hc Hm.
  set (s0 := session_capability_resize s payload).
  assert (HS : sender_ok s0) by (split; cbn; lia).
  cbn [send_step]. rewrite (fragment_msg_none s0 m HS) by (cbn; lia).
  set (t := cut_whole s0 m).
  assert (Cut : cut_at (sd_max s0) (t_pieces t)).
  { apply (fragment_msg_none_spec s0 m HS); [cbn; lia|lia|].
    intros ->. unfold zlen in Hm; cbn [length] in Hm. lia. }
  unfold frag_list.
  destruct (t_pieces t) as [|p ps] eqn:Ep.
  { destruct Cut as (qs & q & E & _). destruct qs; discriminate. }
  cbn [length seq map]. eexists; eexists; eexists. split; [reflexivity|].
  rewrite frag_bytes_length. unfold frag_of; cbn [fr_data]. rewrite Ep. cbn [nth].
  assert (Hmsg : concat (p :: ps) = m).
  { rewrite <- Ep. exact (cut_whole_msg s0 m HS). }
  destruct Cut as (qs & q & E & Fq & Hq). change (sd_max s0) with payload in *.
  destruct qs as [|p' qs].
  - cbn [app] in E. inversion E; subst. cbn [concat] in Hm. rewrite app_nil_r in Hm. lia.
  - cbn [app] in E. inversion E; subst. inversion Fq; subst. lia.
Qed.

(* C08 *)
Lemma pack_names_inv {A} (f : A -> res bytes) l bs : mapM f l = Ok bs -> Forall2 (fun x b => f x = Ok b) l bs.
Proof.
  revert bs; induction l as [|x l IH]; cbn [mapM]; intros bs H.
  - inversion H; constructor.
  - destruct (f x) as [b|] eqn:E; [|discriminate]. cbn [bind] in H.
    destruct (mapM f l) as [bs'|]; [|discriminate]. cbn [bind] in H.
    inversion H; subst. constructor; auto.
Qed.

Lemma history_ids : forall ops s,
  sender_ok s ->
  (sd_counter s + zlen (concat (map op_msgs ops)) <= 2 ^ 64)%Z ->
  Forall (fun m => (zlen m < 2 ^ 63)%Z) (concat (map op_msgs ops)) ->
  exists s' bss ts,
    run_sends s ops = Ok (s', bss) /\
    map t_msg ts = concat (map op_msgs ops) /\
    map t_oid ts = oids_from (sd_counter s) (concat (map op_msgs ops)) /\
    word_wire (concat (map stream ts)) (concat (concat bss)).
Proof.
  induction ops as [|o ops IH]; intros s HS Hc Hm.
  - exists s, [], []. cbn. repeat split. apply word_wire_nil.
  - cbn [map concat] in *. rewrite zlen_app in Hc. apply Forall_app in Hm as [Hm1 Hm2].
    pose proof (zlen_nonneg (concat (map op_msgs ops))) as Z1.
    assert (G : exists bs ts1,
       send_step s o = Ok (mkSender (sd_max s) (sd_counter s + zlen (op_msgs o)), bs) /\
       map t_msg ts1 = op_msgs o /\ map t_oid ts1 = oids_from (sd_counter s) (op_msgs o) /\
       word_wire (concat (map stream ts1)) (concat bs)).
    { destruct o as [m|ms]; cbn [send_step op_msgs] in *.
      - inversion Hm1 as [|? ? Hm _]; subst.
        assert (Z : zlen [m] = 1%Z) by reflexivity.
        destruct (fragment_msg_none_spec s m HS ltac:(lia) Hm) as (E & Eo & Em & W & _ & _).
        exists (frag_list (cut_whole s m)), [cut_whole s m]. rewrite Z.
        split; [exact E|]. split; [cbn [map]; now rewrite Em|]. split; [reflexivity|].
        cbn [map concat]. rewrite app_nil_r.
        apply Forall2_word_concat in W. rewrite concat_singletons, map_id in W. exact W.
      - destruct (fragment_multiple_spec s ms HS ltac:(unfold zlen in *; lia) Hm1) as (bl & ws & ts & E & M & O & _ & W & C & _).
        exists bl, ts. split; [exact E|]. split; [exact M|]. split; [exact O|].
        rewrite <- C. now apply Forall2_word_concat. }
    destruct G as (bs & ts1 & E1 & M1 & O1 & W1).
    destruct (IH (mkSender (sd_max s) (sd_counter s + zlen (op_msgs o)))) as (s' & bss & ts & E2 & M2 & O2 & W2).
    + destruct HS. pose proof (zlen_nonneg (op_msgs o)). split; cbn; lia.
    + cbn. lia.
    + exact Hm2.
    + exists s', (bs :: bss), (ts1 ++ ts). cbn [run_sends]. rewrite E1. cbn [bind]. rewrite E2. cbn [bind].
      split; [reflexivity|]. rewrite !map_app, M1, M2, O1, O2. split; [reflexivity|].
      split; [cbn [sd_counter]; unfold zlen; now rewrite oids_from_app|].
      cbn [concat]. rewrite !concat_app. now apply word_wire_app.
Qed.

Lemma oids_from_seq c ms : oids_from c ms = map (fun i => c + Z.of_nat i)%Z (seq 0 (length ms)).
Proof.
  revert c; induction ms as [|m ms IH]; intros c; [reflexivity|].
  cbn [oids_from length seq map]. rewrite Z.add_0_r. f_equal.
  rewrite IH. rewrite <- seq_shift, map_map. apply map_ext. intros i. lia.
Qed.

Lemma history_object_ids payload ops :
  (22 <= payload <= 2 ^ 32)%Z ->
  (zlen (concat (map op_msgs ops)) < 2 ^ 63)%Z ->
  Forall (fun m => (zlen m < 2 ^ 63)%Z) (concat (map op_msgs ops)) ->
  exists s' bss ts,
    run_sends (sender_init payload) ops = Ok (s', bss) /\
    map t_msg ts = concat (map op_msgs ops) /\
    word_wire (concat (map stream ts)) (concat (concat bss)) /\
    map t_oid ts = map (fun i => 1 + Z.of_nat i)%Z (seq 0 (length ts)) /\
    strictly_increasing (map t_oid ts).
Proof.
  intros Hp Hc Hm.
  destruct (history_ids ops (sender_init payload)) as (s' & bss & ts & E & M & O & W).
  - split; cbn; lia.
  - cbn [sender_init sd_counter]. lia.
  - exact Hm.
  - exists s', bss, ts. split; [exact E|]. split; [exact M|]. split; [exact W|].
    assert (L : length ts = length (concat (map op_msgs ops))) by (rewrite <- M; now rewrite map_length).
    rewrite O. cbn [sender_init sd_counter]. split; [|apply oids_from_increasing].
    rewrite oids_from_seq, L. reflexivity.
Qed.

(* C06 *)
Lemma faulty_channel ts r0 ws datas :
  NoDup (map t_oid ts) ->
  (forall t, In t ts -> dict_get Z.eqb (t_oid t) r0 = None) ->
  Forall (word_over ts) ws -> Forall2 word_wire ws datas ->
  Forall2 (fun w o => o = Err FragmentError \/ o = Ok (completes w)) ws
          (snd (receive_calls r0 datas)).
Proof.
  intros Hn H0 Hw Hd. rewrite (receive_refines ts r0 ws datas Hn H0 Hw Hd).
  pose proof (spec_calls_originals ws expect0) as H. clear Hw Hd.
  induction H as [|w o ws' os H F IH]; cbn [map]; constructor; auto.
  destruct H as [->| ->]; [now left|now right].
Qed.
