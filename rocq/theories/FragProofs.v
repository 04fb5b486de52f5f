(* Proofs about the fragment layer. *)
From Coq Require Import Lia ZifyBool ZifyNat ZifyN Permutation.
From Verif Require Import Base BaseProofs FragModel FragSpec.
Ltac Zify.zify_post_hook ::= Z.div_mod_to_equations.

(* ------------------------------------------------------------------ *)
(* The codec *)

Definition frag_range (f : fragment) : Prop :=
  (0 <= fr_oid f < 2 ^ 64)%Z /\ (0 <= fr_id f < 2 ^ 64)%Z /\
  (zlen (fr_data f) < 2 ^ 32)%Z.

Definition frag_flags (f : fragment) : Z :=
  ((if fr_start f then 1 else 0) + (if fr_end f then 2 else 0))%Z.

Definition frag_bytes (f : fragment) : bytes :=
  be_bytes 8 (Z.to_N (fr_oid f)) ++ be_bytes 8 (Z.to_N (fr_id f)) ++
  be_bytes 1 (Z.to_N (frag_flags f)) ++ be_bytes 4 (Z.to_N (zlen (fr_data f))) ++
  fr_data f.

Lemma pow256_8 : (256 ^ Z.of_nat 8 = 2 ^ 64)%Z. Proof. reflexivity. Qed.
Lemma pow256_4 : (256 ^ Z.of_nat 4 = 2 ^ 32)%Z. Proof. reflexivity. Qed.
Lemma pow256_1 : (256 ^ Z.of_nat 1 = 256)%Z. Proof. reflexivity. Qed.

Lemma frag_flags_range f : (0 <= frag_flags f < 4)%Z.
Proof. unfold frag_flags. destruct (fr_start f), (fr_end f); lia. Qed.

Lemma frag_pack_ok f : frag_range f -> frag_pack f = Ok (frag_bytes f).
Proof.
  intros (H1 & H2 & H3). unfold frag_pack. fold (frag_flags f).
  rewrite (proj2 (struct_pack_be_ok 8 (fr_oid f) _) (conj H1 eq_refl)). cbn [bind].
  rewrite (proj2 (struct_pack_be_ok 8 (fr_id f) _) (conj H2 eq_refl)). cbn [bind].
  pose proof (frag_flags_range f) as Hf.
  assert (Hf' : (0 <= frag_flags f < 256 ^ Z.of_nat 1)%Z) by (rewrite pow256_1; lia).
  rewrite (proj2 (struct_pack_be_ok 1 (frag_flags f) _) (conj Hf' eq_refl)). cbn [bind].
  pose proof (zlen_nonneg (fr_data f)) as Hz.
  rewrite (proj2 (struct_pack_be_ok 4 (zlen (fr_data f)) _)
                 (conj (conj Hz H3) eq_refl)). cbn [bind].
  reflexivity.
Qed.

Lemma frag_pack_inv f b : frag_pack f = Ok b -> frag_range f /\ b = frag_bytes f.
Proof.
  intros H. unfold frag_pack in H. fold (frag_flags f) in H.
  destruct (struct_pack_be 8 (fr_oid f)) as [b1|] eqn:E1; [|discriminate].
  destruct (struct_pack_be 8 (fr_id f)) as [b2|] eqn:E2; [|discriminate].
  destruct (struct_pack_be 1 (frag_flags f)) as [b3|] eqn:E3; [|discriminate].
  destruct (struct_pack_be 4 (zlen (fr_data f))) as [b4|] eqn:E4; [|discriminate].
  apply struct_pack_be_ok in E1 as [R1 ->]. apply struct_pack_be_ok in E2 as [R2 ->].
  apply struct_pack_be_ok in E3 as [R3 ->]. apply struct_pack_be_ok in E4 as [R4 ->].
  cbn [bind] in H. split; [|inversion H; reflexivity].
  rewrite pow256_8 in *. rewrite pow256_4 in *. repeat split; lia.
Qed.

Lemma frag_pack_err f e : frag_pack f = Err e -> ~ frag_range f /\ e = StructError.
Proof.
  intros H. split.
  - intros R. rewrite (frag_pack_ok f R) in H. discriminate.
  - unfold frag_pack in H.
    assert (G : forall w v e', struct_pack_be w v = Err e' -> e' = StructError).
    { intros w v e' E. now apply struct_pack_be_err in E. }
    repeat match type of H with
           | bind ?x _ = _ => let E := fresh "E" in
                              destruct x eqn:E; cbn [bind] in H;
                              [|inversion H; subst; now apply G in E]
           end.
    discriminate.
Qed.

Lemma frag_bytes_length f : zlen (frag_bytes f) = (21 + zlen (fr_data f))%Z.
Proof.
  unfold frag_bytes. rewrite !zlen_app. unfold zlen at 1 2 3 4.
  rewrite !be_bytes_length. lia.
Qed.

Lemma flags_decode f :
  N.eqb (N.land (Z.to_N (frag_flags f)) 1) 1 = fr_start f /\
  N.eqb (N.land (Z.to_N (frag_flags f)) 2) 2 = fr_end f.
Proof. unfold frag_flags. destruct (fr_start f), (fr_end f); split; reflexivity. Qed.

Lemma frag_unpack_bytes f rest :
  frag_range f -> frag_unpack (frag_bytes f ++ rest) = Ok (f, rest).
Proof.
  intros (H1 & H2 & H3). unfold frag_unpack.
  set (b1 := be_bytes 8 (Z.to_N (fr_oid f))).
  set (b2 := be_bytes 8 (Z.to_N (fr_id f))).
  set (b3 := be_bytes 1 (Z.to_N (frag_flags f))).
  set (b4 := be_bytes 4 (Z.to_N (zlen (fr_data f)))).
  assert (L1 : zlen b1 = 8%Z) by (unfold zlen, b1; rewrite be_bytes_length; reflexivity).
  assert (L2 : zlen b2 = 8%Z) by (unfold zlen, b2; rewrite be_bytes_length; reflexivity).
  assert (L3 : zlen b3 = 1%Z) by (unfold zlen, b3; rewrite be_bytes_length; reflexivity).
  assert (L4 : zlen b4 = 4%Z) by (unfold zlen, b4; rewrite be_bytes_length; reflexivity).
  assert (EQ : frag_bytes f ++ rest = b1 ++ b2 ++ b3 ++ b4 ++ fr_data f ++ rest).
  { unfold frag_bytes. fold b1 b2 b3 b4. now rewrite <- !app_assoc. }
  rewrite EQ.
  rewrite (py_slice_app0 b1) by lia.
  unfold b1 at 1. rewrite struct_unpack_be_pack by (rewrite pow256_8; lia). cbn [bind].
  rewrite (py_slice_app_l b1 b2) by lia.
  unfold b2 at 1. rewrite struct_unpack_be_pack by (rewrite pow256_8; lia). cbn [bind].
  replace (b1 ++ b2 ++ b3 ++ b4 ++ fr_data f ++ rest)
    with ((b1 ++ b2) ++ b3 ++ b4 ++ fr_data f ++ rest) by (now rewrite <- !app_assoc).
  rewrite (py_slice_app_l (b1 ++ b2) b3) by (rewrite zlen_app; lia).
  pose proof (frag_flags_range f) as Hf.
  unfold b3 at 1. rewrite struct_unpack_be_pack by (rewrite pow256_1; lia). cbn [bind].
  replace ((b1 ++ b2) ++ b3 ++ b4 ++ fr_data f ++ rest)
    with ((b1 ++ b2 ++ b3) ++ b4 ++ fr_data f ++ rest) by (now rewrite <- !app_assoc).
  rewrite (py_slice_app_l (b1 ++ b2 ++ b3) b4) by (rewrite !zlen_app; lia).
  pose proof (zlen_nonneg (fr_data f)) as Hz.
  unfold b4 at 1. rewrite struct_unpack_be_pack by (rewrite pow256_4; lia). cbn [bind].
  replace ((b1 ++ b2 ++ b3) ++ b4 ++ fr_data f ++ rest)
    with ((b1 ++ b2 ++ b3 ++ b4) ++ fr_data f ++ rest) by (now rewrite <- !app_assoc).
  rewrite (py_slice_app_l (b1 ++ b2 ++ b3 ++ b4) (fr_data f)) by (rewrite !zlen_app; lia).
  replace ((b1 ++ b2 ++ b3 ++ b4) ++ fr_data f ++ rest)
    with ((b1 ++ b2 ++ b3 ++ b4 ++ fr_data f) ++ rest) by (now rewrite <- !app_assoc).
  rewrite slice_from_app by (rewrite !zlen_app, L1, L2, L3, L4; lia).
  destruct (flags_decode f) as [-> ->].
  rewrite !Z2N.id by lia.
  destruct f as [o i d s e]; reflexivity.
Qed.

Lemma frag_unpack_short data f rest :
  frag_unpack data = Ok (f, rest) -> (21 <= length data) /\ (length rest + 21 <= length data).
Proof.
  intros H. unfold frag_unpack in H.
  destruct (struct_unpack_be 8 (py_slice data 0 8)) as [a|]; [|discriminate].
  destruct (struct_unpack_be 8 (py_slice data 8 16)) as [b|]; [|discriminate].
  destruct (struct_unpack_be 1 (py_slice data 16 17)) as [c|]; [|discriminate].
  cbn [bind] in H.
  destruct (struct_unpack_be 4 (py_slice data 17 21)) as [l|] eqn:E; [|discriminate].
  cbn [bind] in H. apply Ok_pair_inj in H as [_ Hr]. rewrite <- Hr. clear Hr.
  unfold struct_unpack_be in E. destruct (Nat.eqb_spec (length (py_slice data 17 21)) 4) as [E4|]; [|discriminate].
  rewrite py_slice_nonneg in E4 by lia.
  rewrite firstn_length, skipn_length in E4.
  split; [lia|].
  rewrite slice_from_nonneg by lia. rewrite skipn_length. lia.
Qed.

(* Whatever is accepted with its full payload and only the defined flag bits
   is the wire image of the fragment returned. *)
Lemma land_flags fl : (fl < 4)%N ->
  fl = Z.to_N ((if N.eqb (N.land fl 1) 1 then 1 else 0) + (if N.eqb (N.land fl 2) 2 then 2 else 0)).
Proof.
  intros H. assert (C : (fl = 0 \/ fl = 1 \/ fl = 2 \/ fl = 3)%N) by lia.
  destruct C as [->|[->|[->| ->]]]; reflexivity.
Qed.

Lemma firstn_skipn_cut {A} a b (l : list A) :
  skipn a l = firstn b (skipn a l) ++ skipn (b + a) l.
Proof. rewrite <- skipn_skipn. symmetry. apply firstn_skipn. Qed.

Lemma Forall_firstn {A} (P : A -> Prop) n l : Forall P l -> Forall P (firstn n l).
Proof.
  intros H. revert n. induction H as [|x l Hx Hl IH]; intros [|n]; simpl; constructor; auto.
Qed.

Lemma Forall_skipn {A} (P : A -> Prop) n l : Forall P l -> Forall P (skipn n l).
Proof.
  intros H. revert n. induction H as [|x l Hx Hl IH]; intros [|n]; simpl; auto.
Qed.

Lemma frag_unpack_pack data f rest fl :
  bytes_ok data ->
  nth_error data 16 = Some fl -> (fl < 4)%N ->
  frag_unpack data = Ok (f, rest) ->
  (be_val (firstn 4 (skipn 17 data)) = N.of_nat (length (fr_data f))) ->
  exists b, frag_pack f = Ok b /\ data = b ++ rest.
Proof.
  intros Hb Hfl Hlt H Hlen.
  pose proof (frag_unpack_short data f rest H) as [HL _].
  unfold frag_unpack in H.
  rewrite (py_slice_nonneg data 0 8), (py_slice_nonneg data 8 16), (py_slice_nonneg data 16 17),
    (py_slice_nonneg data 17 21) in H by lia.
  replace (Z.to_nat 8 - Z.to_nat 0) with 8 in H by reflexivity.
  replace (Z.to_nat 16 - Z.to_nat 8) with 8 in H by reflexivity.
  replace (Z.to_nat 17 - Z.to_nat 16) with 1 in H by reflexivity.
  replace (Z.to_nat 21 - Z.to_nat 17) with 4 in H by reflexivity.
  replace (Z.to_nat 0) with 0 in H by reflexivity.
  replace (Z.to_nat 8) with 8 in H by reflexivity.
  replace (Z.to_nat 16) with 16 in H by reflexivity.
  replace (Z.to_nat 17) with 17 in H by reflexivity.
  set (x1 := firstn 8 (skipn 0 data)) in *. set (x2 := firstn 8 (skipn 8 data)) in *.
  set (x3 := firstn 1 (skipn 16 data)) in *. set (x4 := firstn 4 (skipn 17 data)) in *.
  assert (L1 : length x1 = 8) by (unfold x1; rewrite firstn_length, skipn_length; lia).
  assert (L2 : length x2 = 8) by (unfold x2; rewrite firstn_length, skipn_length; lia).
  assert (L3 : length x3 = 1) by (unfold x3; rewrite firstn_length, skipn_length; lia).
  assert (L4 : length x4 = 4) by (unfold x4; rewrite firstn_length, skipn_length; lia).
  unfold struct_unpack_be in H. rewrite L1, L2, L3, L4 in H. cbn [Nat.eqb bind] in H.
  assert (O1 : bytes_ok x1) by (apply Forall_firstn, Forall_skipn, Hb).
  assert (O2 : bytes_ok x2) by (apply Forall_firstn, Forall_skipn, Hb).
  assert (O4 : bytes_ok x4) by (apply Forall_firstn, Forall_skipn, Hb).
  assert (X3 : x3 = [fl]).
  { unfold x3. apply nth_error_split in Hfl as (p & q & -> & Hp).
    rewrite <- Hp. rewrite skipn_app, skipn_all, Nat.sub_diag. reflexivity. }
  rewrite X3 in H. apply Ok_pair_inj in H as [Hf Hr].
  assert (D : data = x1 ++ x2 ++ x3 ++ x4 ++ skipn 21 data).
  { unfold x1, x2, x3, x4.
    rewrite <- (firstn_skipn_cut 17 4). rewrite <- (firstn_skipn_cut 16 1).
    rewrite <- (firstn_skipn_cut 8 8). now rewrite <- (firstn_skipn_cut 0 8). }
  assert (E4 : be_val x4 = N.of_nat (length (fr_data f))) by exact Hlen.
  rewrite <- Hf in E4; cbn [fr_data] in E4.
  rewrite py_slice_nonneg in Hf, E4 by lia.
  rewrite <- Hf.
  set (n := Z.to_nat (Z.of_N (be_val x4) + 21) - Z.to_nat 21) in *.
  change (Z.to_nat 21) with 21 in *.
  assert (Ln : length (firstn n (skipn 21 data)) = n) by (subst n; lia).
  pose proof (be_val_bound x1 O1) as B1. pose proof (be_val_bound x2 O2) as B2.
  pose proof (be_val_bound x4 O4) as B4. rewrite L1 in B1. rewrite L2 in B2. rewrite L4 in B4.
  change (256 ^ N.of_nat 8)%N with (2 ^ 64)%N in *. change (256 ^ N.of_nat 4)%N with (2 ^ 32)%N in *.
  eexists. split.
  - apply frag_pack_ok. unfold frag_range; cbn [fr_oid fr_id fr_data]. unfold zlen. rewrite Ln.
    repeat split; try lia.
  - unfold frag_bytes, frag_flags; cbn [fr_oid fr_id fr_data fr_start fr_end].
    replace (be_val [fl]) with fl by (unfold be_val; cbn [rev app le_val]; lia).
    rewrite <- (land_flags fl Hlt).
    rewrite !N2Z.id. unfold zlen. rewrite Ln.
    rewrite <- Hr. rewrite slice_from_nonneg by lia.
    replace (Z.to_N (Z.of_nat n)) with (be_val x4) by (subst n; lia).
    rewrite <- L1 at 1. rewrite be_bytes_be_val by assumption.
    rewrite <- L2 at 1. rewrite be_bytes_be_val by assumption.
    rewrite <- L4 at 1. rewrite be_bytes_be_val by assumption.
    replace (be_bytes 1 fl) with [fl].
    2:{ unfold be_bytes. cbn [le_bytes rev app]. rewrite N.mod_small by lia. reflexivity. }
    rewrite <- X3. rewrite <- !app_assoc.
    replace (Z.to_nat (21 + Z.of_N (be_val x4))) with (n + 21) by (subst n; lia).
    rewrite <- skipn_skipn. rewrite firstn_skipn. exact D.
Qed.
