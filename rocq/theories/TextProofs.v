(* Proofs about the text layer: base64, hexadecimal, UTF-16, padding. *)
From Coq Require Import Lia ZifyBool ZifyNat ZifyN.
From Verif Require Import Base BaseProofs TextModel TextSpec.
Ltac Zify.zify_post_hook ::= Z.div_mod_to_equations.

(* ---- base64 ---- *)
Lemma list_ind3 {A} (P : list A -> Prop) :
  P [] -> (forall x, P [x]) -> (forall x y, P [x; y]) ->
  (forall x y z l, P l -> P (x :: y :: z :: l)) -> forall l, P l.
Proof.
  intros H0 H1 H2 H3.
  assert (G : forall n l, length l <= n -> P l).
  { induction n as [|n IH]; intros l Hl.
    - destruct l; [exact H0|simpl in Hl; lia].
    - destruct l as [|x [|y [|z l]]]; auto. apply H3. apply IH. simpl in Hl. lia. }
  intros l. now apply (G (length l)).
Qed.

Lemma list_ind2 {A} (P : list A -> Prop) :
  P [] -> (forall x, P [x]) ->
  (forall x y l, P l -> P (x :: y :: l)) -> forall l, P l.
Proof.
  intros H0 H1 H2.
  assert (G : forall n l, length l <= n -> P l).
  { induction n as [|n IH]; intros l Hl.
    - destruct l; [exact H0|simpl in Hl; lia].
    - destruct l as [|x [|y l]]; auto. apply H2. apply IH. simpl in Hl. lia. }
  intros l. now apply (G (length l)).
Qed.

Lemma b64_value_char v : (v < 64)%N -> b64_value (b64_char v) = Some v.
Proof.
  intros H. unfold b64_char.
  destruct (N.ltb_spec v 26); [|destruct (N.ltb_spec v 52); [|destruct (N.ltb_spec v 62); [|destruct (N.eqb_spec v 62)]]];
    unfold b64_value.
  - replace (_ && _)%bool with true by lia. f_equal; lia.
  - replace (_ && _)%bool with false by lia. replace (_ && _)%bool with true by lia. f_equal; lia.
  - replace (_ && _)%bool with false by lia. replace (_ && _)%bool with false by lia.
    replace (_ && _)%bool with true by lia. f_equal; lia.
  - subst. reflexivity.
  - assert (v = 63%N) by lia. subst. reflexivity.
Qed.

Lemma b64_char_alphabet v : (v < 64)%N -> b64_alphabet (b64_char v).
Proof.
  intros H. unfold b64_char, b64_alphabet.
  destruct (N.ltb_spec v 26); [lia|]. destruct (N.ltb_spec v 52); [lia|].
  destruct (N.ltb_spec v 62); [lia|]. destruct (N.eqb_spec v 62); lia.
Qed.

Lemma b64_value_pad : b64_value 61 = None.
Proof. reflexivity. Qed.

Lemma b64_scan_data q left pads v s : (v < 64)%N ->
  b64_scan q left pads (b64_char v :: s) =
  match q with
  | O => b64_scan 1 v 0 s
  | S O => do r <- b64_scan 2 (v mod 16) 0 s; Ok ((left * 4 + v / 16)%N :: r)
  | S (S O) => do r <- b64_scan 3 (v mod 4) 0 s; Ok ((left * 16 + v / 4)%N :: r)
  | _ => do r <- b64_scan 0 0 0 s; Ok ((left * 64 + v)%N :: r)
  end.
Proof.
  intros H. cbn [b64_scan]. rewrite (b64_value_char v H).
  pose proof (b64_char_alphabet v H) as A. unfold b64_alphabet in A. replace (N.eqb (b64_char v) 61) with false by lia. reflexivity.
Qed.

Lemma b64_scan_encoded b : bytes_ok b -> b64_scan 0 0 0 (b64encode b) = Ok b.
Proof.
  induction b as [|x|x y|x y z b IH] using list_ind3; intros H.
  - reflexivity.
  - inversion H as [|? ? Hx _]; subst. cbn [b64encode].
    rewrite !b64_scan_data by lia. cbn [b64_scan N.eqb Pos.eqb Nat.leb Nat.add bind].
    f_equal. f_equal. lia.
  - inversion H as [|? ? Hx H1]; subst. inversion H1 as [|? ? Hy _]; subst.
    cbn [b64encode]. rewrite !b64_scan_data by lia. cbn [b64_scan N.eqb Pos.eqb Nat.leb Nat.add bind].
    f_equal. f_equal; [lia|f_equal; lia].
  - inversion H as [|? ? Hx H1]; subst. inversion H1 as [|? ? Hy H2]; subst.
    inversion H2 as [|? ? Hz H3]; subst.
    cbn [b64encode app]. rewrite !b64_scan_data by lia. rewrite (IH H3). cbn [bind].
    f_equal. f_equal; [lia|f_equal; [lia|f_equal; lia]].
Qed.

Lemma b64_encode_ascii b : bytes_ok b -> forallb (fun c => N.ltb c 128) (b64encode b) = true.
Proof.
  assert (A : forall v, (v < 64)%N -> N.ltb (b64_char v) 128 = true).
  { intros v H. pose proof (b64_char_alphabet v H) as A. unfold b64_alphabet in A. lia. }
  induction b as [|x|x y|x y z b IH] using list_ind3; intros H.
  - reflexivity.
  - inversion H as [|? ? Hx _]; subst. cbn [b64encode forallb]. rewrite !A by lia. reflexivity.
  - inversion H as [|? ? Hx H1]; subst. inversion H1 as [|? ? Hy _]; subst. cbn [b64encode forallb]. rewrite !A by lia. reflexivity.
  - inversion H as [|? ? Hx H1]; subst. inversion H1 as [|? ? Hy H2]; subst. inversion H2 as [|? ? Hz H3]; subst.
    cbn [b64encode app forallb]. rewrite !A by lia. cbn [andb]. exact (IH H3).
Qed.

Lemma b64_roundtrip b : bytes_ok b -> b64decode (b64encode b) = Ok b.
Proof. intros H. unfold b64decode. rewrite (b64_encode_ascii b H). exact (b64_scan_encoded b H). Qed.

(* characters outside the alphabet change nothing *)
Lemma b64_scan_skips s : forall q left pads, 
  b64_scan q left pads s = b64_scan q left pads (filter (fun c => (N.eqb c 61 || match b64_value c with Some _ => true | None => false end)%bool) s).
Proof.
  induction s as [|c s IH]; intros q left pads; [reflexivity|]. cbn [filter]. destruct (N.eqb c 61) eqn:P; cbn [orb].
  - cbn [b64_scan]. rewrite P. destruct (Nat.leb 2 q); [destruct (Nat.leb 4 (q + S pads)); [reflexivity|]|]; apply IH.
  - destruct (b64_value c) as [v|] eqn:V.
    + cbn [b64_scan]. rewrite P, V. destruct q as [|[|[|q]]]; rewrite IH; reflexivity.
    + cbn [b64_scan]. rewrite P, V. apply IH.
Qed.
Lemma b64_value_alphabet c : (N.eqb c 61 || match b64_value c with Some _ => true | None => false end)%bool = true <-> c = 61%N \/ b64_alphabet c.
Proof.
  unfold b64_value, b64_alphabet. destruct (N.leb 65 c && N.leb c 90)%bool eqn:A; [lia|].
  destruct (N.leb 97 c && N.leb c 122)%bool eqn:B; [lia|]. destruct (N.leb 48 c && N.leb c 57)%bool eqn:C; [lia|].
  destruct (N.eqb c 43) eqn:D; [lia|]. destruct (N.eqb c 47) eqn:E; lia.
Qed.
Lemma b64_sprinkled b t : bytes_ok b -> sprinkled (b64encode b) t -> b64decode t = Ok b.
Proof.
  intros H S. unfold b64decode.
  assert (A : forallb (fun c => N.ltb c 128) t = true).
  { pose proof (b64_encode_ascii b H) as A. revert A. clear H. induction S as [|c s t S IH|c s t L P Q S IH]; intros A; [reflexivity| |].
    - cbn [forallb] in *. apply andb_prop in A. destruct A as [A1 A2]. rewrite A1. exact (IH A2).
    - cbn [forallb]. rewrite (IH A). replace (N.ltb c 128) with true by lia. reflexivity. }
  rewrite A. rewrite b64_scan_skips.
  assert (F : filter (fun c => (N.eqb c 61 || match b64_value c with Some _ => true | None => false end)%bool) t =
              filter (fun c => (N.eqb c 61 || match b64_value c with Some _ => true | None => false end)%bool) (b64encode b)).
  { clear A H. induction S as [|c s t S IH|c s t L P Q S IH]; [reflexivity| |].
    - cbn [filter]. rewrite IH. reflexivity.
    - cbn [filter]. destruct (N.eqb c 61 || match b64_value c with Some _ => true | None => false end)%bool eqn:K; [|exact IH].
      apply b64_value_alphabet in K. destruct K as [K|K]; contradiction. }
  rewrite F, <- b64_scan_skips. exact (b64_scan_encoded b H).
Qed.

Lemma b64_length b : zlen (b64encode b) = (4 * ((zlen b + 2) / 3))%Z.
Proof.
  induction b as [|x|x y|x y z b IH] using list_ind3; try reflexivity.
  cbn [b64encode]. rewrite zlen_app, IH. rewrite !zlen_cons.
  change (zlen [_; _; _; _]) with 4%Z || idtac.
  replace (zlen [] : Z) with 0%Z by reflexivity. 
  pose proof (zlen_nonneg b). lia.
Qed.

Lemma b64_chars b : bytes_ok b -> 
  exists body pad, b64encode b = body ++ pad /\ Forall b64_alphabet body /\
                   (pad = [] \/ pad = [61%N] \/ pad = [61; 61]%N).
Proof.
  induction b as [|x|x y|x y z b IH] using list_ind3; intros H.
  - exists [], []. repeat split; auto.
  - inversion H as [|? ? Hx _]; subst.
    exists [b64_char (x / 4); b64_char (x mod 4 * 16)], [61; 61]%N.
    split; [reflexivity|]. split; [|auto].
    repeat (apply Forall_cons; [apply b64_char_alphabet; lia|]); apply Forall_nil.
  - inversion H as [|? ? Hx H1]; subst. inversion H1 as [|? ? Hy _]; subst.
    exists [b64_char (x / 4); b64_char (x mod 4 * 16 + y / 16); b64_char (y mod 16 * 4)], [61]%N.
    split; [reflexivity|]. split; [|auto].
    repeat (apply Forall_cons; [apply b64_char_alphabet; lia|]); apply Forall_nil.
  - inversion H as [|? ? Hx H1]; subst. inversion H1 as [|? ? Hy H2]; subst.
    inversion H2 as [|? ? Hz H3]; subst.
    destruct (IH H3) as (body & pad & E & F & P).
    exists ([b64_char (x / 4); b64_char (x mod 4 * 16 + y / 16);
             b64_char (y mod 16 * 4 + z / 64); b64_char (z mod 64)] ++ body), pad.
    split; [cbn [b64encode]; rewrite E, app_assoc; reflexivity|].
    split; [|exact P]. apply Forall_app. split; [|exact F].
    repeat (apply Forall_cons; [apply b64_char_alphabet; lia|]); apply Forall_nil.
Qed.

(* ---- hexadecimal ---- *)
Lemma hex_value_digit d : (d < 16)%N -> hex_value (hex_digit d) = Some d.
Proof.
  intros H. unfold hex_digit. destruct (N.ltb_spec d 10); unfold hex_value.
  - replace (_ && _)%bool with true by lia. f_equal; lia.
  - replace (_ && _)%bool with false by lia. replace (_ && _)%bool with true by lia. f_equal; lia.
Qed.

Lemma hex_digit_upper d : (d < 16)%N -> upper_hex (hex_digit d).
Proof. intros H. unfold hex_digit, upper_hex. destruct (N.ltb_spec d 10); lia. Qed.

Lemma upper_hex_word c : upper_hex c -> is_word_byte c = true.
Proof. unfold upper_hex, is_word_byte. lia. Qed.

Lemma hex_byte_roundtrip b r s :
  (b < 256)%N -> unhexlify s = Ok r -> unhexlify (hex_of_byte b ++ s) = Ok (b :: r).
Proof.
  intros Hb Hs. unfold hex_of_byte. cbn [app unhexlify].
  rewrite !hex_value_digit by lia. rewrite Hs. cbn [bind]. f_equal. f_equal. lia.
Qed.

Lemma unhexlify_hexlify b : bytes_ok b -> unhexlify (hexlify_upper b) = Ok b.
Proof.
  induction 1 as [|x b Hx Hb IH]; [reflexivity|].
  unfold hexlify_upper. cbn [flat_map]. now apply hex_byte_roundtrip.
Qed.

(* ---- UTF-16 ---- *)
Definition unit_ok (u : N) : Prop := (u < 65536)%N.

Lemma units_of_be_enc us : Forall unit_ok us -> units_of_be (flat_map unit_be us) = Ok us.
Proof.
  induction 1 as [|u us Hu Hus IH]; [reflexivity|].
  cbn [flat_map unit_be app units_of_be]. unfold unit_ok in Hu.
  rewrite IH. cbn [bind]. f_equal. f_equal. lia.
Qed.

Lemma units_of_le_enc us : Forall unit_ok us -> units_of_le (flat_map unit_le us) = Ok us.
Proof.
  induction 1 as [|u us Hu Hus IH]; [reflexivity|].
  cbn [flat_map unit_le app units_of_le]. unfold unit_ok in Hu.
  rewrite IH. cbn [bind]. f_equal. f_equal. lia.
Qed.

Lemma scalar_not_surrogate c : scalar c -> is_surrogate c = false.
Proof. unfold scalar, is_surrogate. lia. Qed.

Definition units_of_char (c : N) : list N :=
  if N.ltb c 65536 then [c]
  else [55296 + (c - 65536) / 1024; 56320 + (c - 65536) mod 1024]%N.

Lemma utf16_units_of_scalar c : scalar c -> utf16_units_of c = Ok (units_of_char c).
Proof.
  intros H. unfold utf16_units_of, units_of_char. rewrite (scalar_not_surrogate c H).
  destruct (N.ltb c 65536); reflexivity.
Qed.

Lemma utf16_units_scalars s : scalars s -> utf16_units s = Ok (flat_map units_of_char s).
Proof.
  intros H. unfold utf16_units.
  assert (G : mapM utf16_units_of s = Ok (map units_of_char s)).
  { induction H as [|c s Hc Hs IH]; [reflexivity|]. cbn [mapM map].
    rewrite (utf16_units_of_scalar c Hc). cbn [bind]. rewrite IH. reflexivity. }
  rewrite G. cbn [bind]. now rewrite flat_map_concat_map.
Qed.

Lemma units_of_char_ok c : scalar c -> Forall unit_ok (units_of_char c).
Proof.
  unfold scalar, units_of_char, unit_ok. intros H.
  destruct (N.ltb_spec c 65536); repeat constructor; lia.
Qed.

Lemma flat_map_units_ok s : scalars s -> Forall unit_ok (flat_map units_of_char s).
Proof.
  induction 1 as [|c s Hc Hs IH]; [constructor|]. cbn [flat_map].
  apply Forall_app. split; [now apply units_of_char_ok|exact IH].
Qed.

Lemma decode_units_of s : scalars s -> utf16_decode_units (flat_map units_of_char s) = Ok s.
Proof.
  induction 1 as [|c s Hc Hs IH]; [reflexivity|].
  cbn [flat_map]. unfold units_of_char at 1. unfold scalar in Hc.
  destruct (N.ltb_spec c 65536) as [Hlt|Hge].
  - cbn [app utf16_decode_units].
    replace (is_high c) with false by (unfold is_high; lia).
    replace (is_low c) with false by (unfold is_low; lia).
    rewrite IH. reflexivity.
  - cbn [app utf16_decode_units].
    replace (is_high (55296 + (c - 65536) / 1024)) with true by (unfold is_high; lia).
    replace (is_low (56320 + (c - 65536) mod 1024)) with true by (unfold is_low; lia).
    rewrite IH. cbn [bind]. f_equal. f_equal. lia.
Qed.

Lemma utf16be_encode_scalars s :
  scalars s -> utf16be_encode s = Ok (flat_map unit_be (flat_map units_of_char s)).
Proof. intros H. unfold utf16be_encode. rewrite (utf16_units_scalars s H). reflexivity. Qed.

Lemma utf16le_encode_scalars s :
  scalars s -> utf16le_encode s = Ok (flat_map unit_le (flat_map units_of_char s)).
Proof. intros H. unfold utf16le_encode. rewrite (utf16_units_scalars s H). reflexivity. Qed.

Lemma utf16be_decode_scalars s :
  scalars s -> utf16be_decode (flat_map unit_be (flat_map units_of_char s)) = Ok s.
Proof.
  intros H. unfold utf16be_decode. rewrite units_of_be_enc by now apply flat_map_units_ok.
  cbn [bind]. now apply decode_units_of.
Qed.

Lemma utf16le_decode_scalars s :
  scalars s -> utf16le_decode (flat_map unit_le (flat_map units_of_char s)) = Ok s.
Proof.
  intros H. unfold utf16le_decode. rewrite units_of_le_enc by now apply flat_map_units_ok.
  cbn [bind]. now apply decode_units_of.
Qed.

Lemma flat_map_unit_be_ok us : Forall unit_ok us -> bytes_ok (flat_map unit_be us).
Proof.
  induction 1 as [|u us Hu Hus IH]; [constructor|]. cbn [flat_map]. apply bytes_ok_app. split; [|exact IH].
  unfold unit_ok in Hu. repeat constructor; lia.
Qed.
Lemma flat_map_unit_le_ok us : Forall unit_ok us -> bytes_ok (flat_map unit_le us).
Proof.
  induction 1 as [|u us Hu Hus IH]; [constructor|]. cbn [flat_map]. apply bytes_ok_app. split; [|exact IH].
  unfold unit_ok in Hu. repeat constructor; lia.
Qed.

(* ---- PKCS7 ---- *)
Lemma rev_repeat {A} (x : A) n : rev (repeat x n) = repeat x n.
Proof.
  induction n as [|n IH]; [reflexivity|]. cbn [repeat rev]. rewrite IH.
  clear IH. induction n as [|n IH]; [reflexivity|]. cbn [repeat app]. now rewrite IH.
Qed.

Lemma forallb_repeat n k : forallb (N.eqb n) (repeat n k) = true.
Proof. induction k as [|k IH]; [reflexivity|]. cbn [repeat forallb]. now rewrite N.eqb_refl, IH. Qed.

Lemma pkcs7_roundtrip bs d :
  (0 < bs)%N -> pkcs7_unpad bs (pkcs7_pad bs d) = Ok d.
Proof.
  intros Hbs. unfold pkcs7_pad. set (n := (bs - N.of_nat (length d) mod bs)%N).
  assert (Hmod : (N.of_nat (length d) mod bs < bs)%N) by (apply N.mod_lt; lia).
  assert (Hn : (0 < n <= bs)%N) by (subst n; lia).
  unfold pkcs7_unpad.
  assert (Hrev : exists l', rev (d ++ repeat n (N.to_nat n)) = n :: l').
  { rewrite rev_app_distr, rev_repeat. destruct (N.to_nat n) as [|k] eqn:Ek; [lia|].
    eexists. reflexivity. }
  destruct Hrev as [l' ->].
  set (p := repeat n (N.to_nat n)).
  assert (Ep : p = repeat n (N.to_nat n)) by reflexivity.
  assert (Lp : length p = N.to_nat n) by (rewrite Ep, repeat_length; reflexivity).
  assert (L : length (d ++ p) = length d + N.to_nat n) by (rewrite app_length; lia).
  cbv zeta. rewrite L.
  replace (length d + N.to_nat n - N.to_nat n) with (length d) by lia.
  rewrite skipn_app, skipn_all, Nat.sub_diag. cbn [app skipn].
  rewrite firstn_app, firstn_all, Nat.sub_diag. cbn [firstn]. rewrite app_nil_r.
  assert (M : (N.of_nat (length d + N.to_nat n) mod bs = 0)%N).
  { rewrite Nat2N.inj_add, N2Nat.id. subst n.
    pose proof (N.div_mod (N.of_nat (length d)) bs ltac:(lia)) as DM.
    replace (N.of_nat (length d) + (bs - N.of_nat (length d) mod bs))%N
      with ((N.of_nat (length d) / bs + 1) * bs)%N by lia.
    apply N.mod_mul. lia. }
  rewrite M. rewrite Ep, forallb_repeat.
  replace (0 <? n)%N with true by lia. replace (n <=? bs)%N with true by lia.
  replace (N.to_nat n <=? length d + N.to_nat n) with true by lia. reflexivity.
Qed.

Lemma pkcs7_pad_multiple bs d :
  (0 < bs)%N -> exists k, (N.of_nat (length (pkcs7_pad bs d)) = bs * N.of_nat (S k))%N.
Proof.
  intros Hbs. unfold pkcs7_pad. rewrite app_length, repeat_length.
  set (n := (bs - N.of_nat (length d) mod bs)%N).
  assert (Hmod : (N.of_nat (length d) mod bs < bs)%N) by (apply N.mod_lt; lia).
  pose proof (N.div_mod (N.of_nat (length d)) bs ltac:(lia)) as DM.
  exists (N.to_nat (N.of_nat (length d) / bs)). subst n.
  rewrite Nat2N.inj_add, N2Nat.id, Nat2N.inj_succ, N2Nat.id. lia.
Qed.

(* ---- secure strings ---- *)
Lemma secure_roundtrip c s :
  (0 < ci_block c)%N ->
  (forall d k, bytes_ok d -> N.of_nat (length d) = (ci_block c * N.of_nat (S k))%N ->
               bytes_ok (ci_enc c d) /\ ci_dec c (ci_enc c d) = d) ->
  (ci_block c < 256)%N ->
  scalars s ->
  exists t, serialize_secure_string (Some c) s = Ok t /\
            deserialize_secure_string (Some c) (Some t) = Ok (Plain s).
Proof.
  intros Hb Hc Hb' Hs. unfold serialize_secure_string.
  rewrite (utf16le_encode_scalars s Hs). cbn [bind].
  set (d := flat_map unit_le (flat_map units_of_char s)).
  eexists. split; [reflexivity|].
  destruct (pkcs7_pad_multiple (ci_block c) d Hb) as [k Hk].
  assert (Hd : bytes_ok (pkcs7_pad (ci_block c) d)).
  { unfold pkcs7_pad. apply bytes_ok_app. split.
    - apply flat_map_unit_le_ok, flat_map_units_ok, Hs.
    - apply Forall_forall. intros x Hx. apply repeat_spec in Hx. subst x. lia. }
  destruct (Hc _ k Hd Hk) as [Hok Hinv].
  unfold deserialize_secure_string. rewrite b64_roundtrip by exact Hok. cbn [bind].
  rewrite Hinv, (pkcs7_roundtrip _ d Hb). cbn [bind].
  unfold d. rewrite (utf16le_decode_scalars s Hs). reflexivity.
Qed.
