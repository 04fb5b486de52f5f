(* Proofs about the message envelope. *)
From Coq Require Import Lia ZifyBool ZifyNat ZifyN.
From Verif Require Import Base BaseProofs Lit TextModel TextSpec TextProofs TextProofs2 Utf8Model Utf8Proofs MsgModel MsgSpec.
Ltac Zify.zify_post_hook ::= Z.div_mod_to_equations.

Ltac explode g H :=
  do 16 (destruct g as [|?b g]; [discriminate H|]); destruct g; [|discriminate H].

Lemma hexl_length b : length (hexlify b) = 2 * length b.
Proof. induction b as [|x b IH]; [reflexivity|]. unfold hexlify in *. cbn [flat_map app length]. lia. Qed.

Lemma hexl_app a b : hexlify (a ++ b) = hexlify a ++ hexlify b.
Proof. unfold hexlify. apply flat_map_app. Qed.

Definition lower_hex (c : N) : Prop := (48 <= c <= 57 \/ 97 <= c <= 102)%N.

Lemma hexl_lower b : bytes_ok b -> Forall lower_hex (hexlify b).
Proof.
  induction 1 as [|x b Hx Hb IH]; [constructor|]. unfold hexlify in *. cbn [flat_map app].
  apply Forall_cons; [|apply Forall_cons; [|exact IH]]; unfold lower_hex, hex_digit_lower;
    match goal with |- context [N.ltb ?a ?b] => destruct (N.ltb_spec a b) end; lia.
Qed.

Lemma hexl_unhex b : bytes_ok b -> unhexlify (hexlify b) = Ok b.
Proof.
  induction 1 as [|x b Hx Hb IH]; [reflexivity|]. unfold hexlify in *. cbn [flat_map app unhexlify].
  assert (V : forall d, (d < 16)%N -> hex_value (hex_digit_lower d) = Some d).
  { intros d Hd. unfold hex_digit_lower. destruct (N.ltb_spec d 10); unfold hex_value.
    - replace (_ && _)%bool with true by lia. f_equal; lia.
    - replace (_ && _)%bool with false by lia. replace (_ && _)%bool with false by lia.
      replace (_ && _)%bool with true by lia. f_equal; lia. }
  rewrite !V by lia. rewrite IH. cbn [bind]. f_equal. f_equal. lia.
Qed.

Lemma lstrip_brace_id c s : is_brace c = false -> lstrip_brace (c :: s) = c :: s.
Proof. intros H. cbn [lstrip_brace]. now rewrite H. Qed.

Lemma strip_braces_id s : Forall (fun c => is_brace c = false) s -> strip_braces s = s.
Proof.
  intros H. unfold strip_braces.
  assert (L : forall t, Forall (fun c => is_brace c = false) t -> lstrip_brace t = t).
  { intros t Ht. destruct Ht; [reflexivity|]. now apply lstrip_brace_id. }
  rewrite (L s H). rewrite L; [apply rev_involutive|]. apply Forall_rev. exact H.
Qed.

Lemma lower_hex_not_brace s : Forall lower_hex s -> Forall (fun c => is_brace c = false) s.
Proof. apply Forall_impl. intros c. unfold lower_hex, is_brace. lia. Qed.

Lemma filter_lower s : Forall lower_hex s -> filter (fun c => negb (N.eqb c 45)) s = s.
Proof.
  induction 1 as [|c s Hc Hs IH]; [reflexivity|]. cbn [filter]. unfold lower_hex in Hc.
  replace (negb (N.eqb c 45)) with true by lia. now rewrite IH.
Qed.

Lemma guid_parse_str g : is_guid g -> guid_parse (guid_str g) = Ok g.
Proof.
  intros [L B]. unfold guid_parse, guid_str.
  assert (P1 := B). 
  set (p1 := firstn 4 g). set (p2 := firstn 2 (skipn 4 g)). set (p3 := firstn 2 (skipn 6 g)).
  set (p4 := firstn 2 (skipn 8 g)). set (p5 := skipn 10 g).
  assert (E : g = p1 ++ p2 ++ p3 ++ p4 ++ p5).
  { unfold p1, p2, p3, p4, p5. do 16 (destruct g as [|? g]; [discriminate L|]). destruct g; [reflexivity|discriminate L]. }
  clearbody p1 p2 p3 p4 p5. subst g. clear P1.
  repeat rewrite bytes_ok_app in B. destruct B as (B1 & B2 & B3 & B4 & B5).
  apply hexl_lower in B1 as H1. apply hexl_lower in B2 as H2. apply hexl_lower in B3 as H3.
  apply hexl_lower in B4 as H4. apply hexl_lower in B5 as H5.
  rewrite strip_braces_id.
  2:{ repeat (apply Forall_app; split); try (apply lower_hex_not_brace; assumption);
      (apply Forall_cons; [reflexivity|apply Forall_nil]). }
  rewrite !filter_app, (filter_lower _ H1), (filter_lower _ H2), (filter_lower _ H3), (filter_lower _ H4), (filter_lower _ H5). cbn [filter N.eqb Pos.eqb negb app].
  rewrite <- !hexl_app.
  replace (length (hexlify _)) with 32 by (rewrite hexl_length; lia).
  cbn [Nat.eqb]. rewrite hexl_unhex; [reflexivity|].
  repeat (apply bytes_ok_app; split); assumption.
Qed.

Lemma swap_le_involutive b : swap_le (swap_le b) = b.
Proof. do 8 (destruct b as [|? b]; [reflexivity|]). reflexivity. Qed.

Lemma swap_le_length b : length (swap_le b) = length b.
Proof. do 8 (destruct b as [|? b]; [reflexivity|]). reflexivity. Qed.

Lemma swap_le_stored g : length g = 16 -> guid_bytes_le g = stored_guid g.
Proof. intros L. do 16 (destruct g as [|? g]; [discriminate L|]). destruct g; [reflexivity|discriminate L]. Qed.

Lemma swap_le_ok b : bytes_ok b -> bytes_ok (swap_le b).
Proof.
  intros H. unfold bytes_ok in *. rewrite Forall_forall in *. intros x Hx. apply H.
  do 8 (destruct b as [|? b]; [exact Hx|]). cbn [swap_le In] in *. tauto.
Qed.

Lemma guid_of_le g : length g = 16 -> guid_of_bytes_le (guid_bytes_le g) = Ok g.
Proof.
  intros L. unfold guid_of_bytes_le, guid_bytes_le. rewrite swap_le_length, L. cbn [Nat.eqb].
  now rewrite swap_le_involutive.
Qed.

Lemma little_endian_le_val l : little_endian l = le_val l.
Proof. induction l as [|b l IH]; [reflexivity|]. cbn [little_endian le_val]. now rewrite IH. Qed.

Lemma struct_pack_le_ok w v b : struct_pack_le w v = Ok b ->
  (0 <= v < 256 ^ Z.of_nat w)%Z /\ length b = w /\ bytes_ok b /\ Z.of_N (le_val b) = v.
Proof.
  unfold struct_pack_le. destruct ((0 <=? v)%Z && (v <? 256 ^ Z.of_nat w)%Z)%bool eqn:E; [|discriminate].
  intros H. apply Ok_inj in H. subst b.
  split; [lia|]. split; [apply le_bytes_length|]. split; [apply le_bytes_ok|].
  rewrite le_val_le_bytes.
  - lia.
  - apply N2Z.inj_lt. rewrite N_of_Z_pow256. lia.
Qed.

(* the wire form read back *)
Lemma utf8_bom_start t b : utf8_encode t = Ok b -> no_bom t -> str_eqb (firstn 3 b) [239; 187; 191]%N = false.
Proof.
  intros E Hn. destruct (str_eqb (firstn 3 b) [239; 187; 191]%N) eqn:K; [|reflexivity]. exfalso.
  apply str_eqb_spec in K.
  destruct (utf8_decode_encode t b E) as [_ D].
  do 3 (destruct b as [|?x b]; [discriminate K|]). cbn [firstn] in K.
  apply cons_inj in K. destruct K as [-> K]. apply cons_inj in K. destruct K as [-> K].
  apply cons_inj in K. destruct K as [-> _].
  cbn [utf8_decode] in D. change ((239 <? 128)%N) with false in D. change ((239 <? 192)%N) with false in D.
  change ((239 <? 224)%N) with false in D. change ((239 <? 240)%N) with true in D. cbv iota zeta in D.
  change (_ && _)%bool with true in D. cbv iota in D.
  destruct (utf8_decode b) as [r|]; [|discriminate]. cbn [bind] in D. apply Ok_inj in D. subst t.
  apply Hn. reflexivity.
Qed.

Lemma slices_of_header (d t r p body : list N) :
  length d = 4 -> length t = 4 -> length r = 16 -> length p = 16 ->
  let data := d ++ t ++ r ++ p ++ body in
  py_slice data 0 4 = d /\ py_slice data 4 8 = t /\ py_slice data 8 24 = r /\ py_slice data 24 40 = p /\
  py_slice data 40 43 = firstn 3 body /\ slice_from data 40 = body /\ slice_from data 43 = skipn 3 body.
Proof.
  intros Ld Lt Lr Lp data. unfold data.
  assert (Zd : zlen d = 4%Z) by (unfold zlen; lia). assert (Zt : zlen t = 4%Z) by (unfold zlen; lia).
  assert (Zr : zlen r = 16%Z) by (unfold zlen; lia). assert (Zp : zlen p = 16%Z) by (unfold zlen; lia).
  split; [apply py_slice_app0; lia|].
  split; [apply py_slice_app_l; lia|].
  split; [rewrite (app_assoc d); apply py_slice_app_l; rewrite ?zlen_app; lia|].
  split; [rewrite (app_assoc d), (app_assoc (d ++ t)); apply py_slice_app_l; rewrite ?zlen_app; lia|].
  assert (E : d ++ t ++ r ++ p ++ body = (d ++ t ++ r ++ p) ++ body) by now rewrite !app_assoc.
  assert (L : length (d ++ t ++ r ++ p) = 40) by (rewrite !app_length; lia).
  rewrite E. generalize dependent (d ++ t ++ r ++ p). intros h _ L.
  split; [|split].
  - rewrite py_slice_nonneg by lia. change (Z.to_nat 43 - Z.to_nat 40) with 3. change (Z.to_nat 40) with 40.
    rewrite skipn_app, L, skipn_all2 by lia. reflexivity.
  - apply slice_from_app. unfold zlen. lia.
  - rewrite slice_from_nonneg by lia. change (Z.to_nat 43) with 43.
    rewrite skipn_app, L, skipn_all2 by lia. reflexivity.
Qed.

(* reading any well-formed header *)
Lemma unpack_header_gen d t r p body :
  length d = 4 -> length t = 4 -> length r = 16 -> length p = 16 ->
  unpack_header (d ++ t ++ r ++ p ++ body) =
  do text <- (if str_eqb (firstn 3 body) [239; 187; 191]%N
              then utf8_decode (skipn 3 body) else utf8_decode body);
  Ok (mkHeader (Z.of_N (le_val d)) (Z.of_N (le_val t)) (guid_str (swap_le r)) (guid_str (swap_le p)) text).
Proof.
  intros Ld Lt Lr Lp. destruct (slices_of_header d t r p body Ld Lt Lr Lp) as (S1 & S2 & S3 & S4 & S5 & S6 & S7).
  unfold unpack_header. rewrite S1, S2, S3, S4, S5, S6, S7.
  unfold struct_unpack_le, guid_of_bytes_le. rewrite Ld, Lt, Lr, Lp. reflexivity.
Qed.

Lemma unpack_header_text d t r p text b :
  length d = 4 -> length t = 4 -> length r = 16 -> length p = 16 ->
  utf8_encode text = Ok b -> no_bom text ->
  unpack_header (d ++ t ++ r ++ p ++ b) =
  Ok (mkHeader (Z.of_N (le_val d)) (Z.of_N (le_val t)) (guid_str (swap_le r)) (guid_str (swap_le p)) text).
Proof.
  intros Ld Lt Lr Lp E Hn. rewrite unpack_header_gen by assumption.
  rewrite (utf8_bom_start text b E Hn). destruct (utf8_decode_encode text b E) as [_ ->]. reflexivity.
Qed.

Lemma unpack_header_bom d t r p text b :
  length d = 4 -> length t = 4 -> length r = 16 -> length p = 16 ->
  utf8_encode text = Ok b ->
  unpack_header (d ++ t ++ r ++ p ++ [239; 187; 191]%N ++ b) =
  Ok (mkHeader (Z.of_N (le_val d)) (Z.of_N (le_val t)) (guid_str (swap_le r)) (guid_str (swap_le p)) text).
Proof.
  intros Ld Lt Lr Lp E. rewrite unpack_header_gen by assumption.
  cbn [app firstn skipn]. change (str_eqb [239; 187; 191]%N [239; 187; 191]%N) with true. cbv iota.
  destruct (utf8_decode_encode text b E) as [_ ->]. reflexivity.
Qed.

Lemma ser_text_carries {Obj} (cd : codec Obj) o b :
  ser_text cd o = Ok b -> exists t, serialized cd o t /\ utf8_encode t = Ok b.
Proof.
  unfold ser_text. destruct (cd_ser cd o) as [[t|]|] eqn:E; cbn [bind]; intros H; try discriminate.
  - exists t. split; [now left|exact H].
  - exists []. split; [right; auto|exact H].
Qed.

Lemma message_text_carries {Obj} (cd : codec Obj) d b :
  (forall o, d <> DObj PUBLIC_KEY_REQUEST o) ->
  message_text cd (data_type d) d = Ok b -> exists t, carries cd d t /\ utf8_encode t = Ok b.
Proof.
  intros Hd H. destruct d as [|o|o|ty o]; cbn [data_type] in H.
  - exists empty_s. split; [constructor|exact H].
  - apply ser_text_carries in H. destruct H as (t & S & E). exists t. split; [now constructor|exact E].
  - apply ser_text_carries in H. destruct H as (t & S & E). exists t. split; [now constructor|exact E].
  - unfold message_text in H. destruct (Z.eqb_spec ty PUBLIC_KEY_REQUEST) as [->|Hk]; [now destruct (Hd o)|].
    destruct (Z.eqb_spec ty END_OF_PIPELINE_INPUT) as [->|He].
    { exists []. split; [constructor|exact H]. }
    destruct (Z.eqb_spec ty CONNECT_RUNSPACEPOOL) as [->|Hc]; cbn [andb] in H.
    + destruct (cd_limits cd o) as [[mn|] [mx|]] eqn:El; cbn [fst snd is_none andb] in H;
        try (apply ser_text_carries in H; destruct H as (t & S & E); exists t; split; [|exact E];
             apply ca_obj; auto; intros [_ K]; rewrite El in K; discriminate).
      exists empty_s. split; [now constructor|exact H].
    + apply ser_text_carries in H. destruct H as (t & S & E). exists t. split; [|exact E].
      apply ca_obj; auto. intros [K _]. contradiction.
Qed.

(* the wire layout *)
Lemma message_pack_layout {Obj} (cd : codec Obj) m b :
  m_type m = data_type (m_data m) -> (forall o, m_data m <> DObj PUBLIC_KEY_REQUEST o) ->
  length (m_rpid m) = 16 -> length (m_pid m) = 16 ->
  message_pack cd m = Ok b ->
  exists d t body text,
    b = d ++ t ++ stored_guid (m_rpid m) ++ stored_guid (m_pid m) ++ body /\
    length d = 4 /\ length t = 4 /\
    Z.of_N (little_endian d) = m_dest m /\ Z.of_N (little_endian t) = m_type m /\
    carries cd (m_data m) text /\ utf8_encode text = Ok body.
Proof.
  intros Ht Hd Lr Lp H. unfold message_pack in H.
  apply bind_ok in H. destruct H as (body & Hb & H). apply bind_ok in H. destruct H as (d & Hdd & H).
  apply bind_ok in H. destruct H as (t & Htt & H). apply Ok_inj in H. subst b.
  apply struct_pack_le_ok in Hdd. apply struct_pack_le_ok in Htt.
  rewrite Ht in Hb. apply message_text_carries in Hb; [|exact Hd]. destruct Hb as (text & C & E).
  exists d, t, body, text. rewrite !little_endian_le_val.
  rewrite !swap_le_stored by assumption. repeat split; try tauto.
Qed.

Lemma message_pack_total {Obj} (cd : codec Obj) m :
  (forall b, message_pack cd m = Ok b ->
     (0 <= m_dest m < 2 ^ 32)%Z /\ (0 <= m_type m < 2 ^ 32)%Z).
Proof.
  intros b H. unfold message_pack in H.
  apply bind_ok in H. destruct H as (body & Hb & H). apply bind_ok in H. destruct H as (d & Hdd & H).
  apply bind_ok in H. destruct H as (t & Htt & H).
  apply struct_pack_le_ok in Hdd. apply struct_pack_le_ok in Htt.
  change (256 ^ Z.of_nat 4)%Z with (2 ^ 32)%Z in *. tauto.
Qed.

Lemma header_roundtrip {Obj} (cd : codec Obj) m b :
  m_type m = data_type (m_data m) -> (forall o, m_data m <> DObj PUBLIC_KEY_REQUEST o) ->
  is_guid (m_rpid m) -> is_guid (m_pid m) ->
  message_pack cd m = Ok b ->
  exists text, carries cd (m_data m) text /\
    (no_bom text ->
     unpack_header b = Ok (mkHeader (m_dest m) (m_type m) (guid_str (m_rpid m)) (guid_str (m_pid m)) text)).
Proof.
  intros Ht Hd [Lr Br] [Lp Bp] H.
  destruct (message_pack_layout cd m b Ht Hd Lr Lp H) as (d & t & body & text & -> & Ld & Lt & Vd & Vt & C & E).
  exists text. split; [exact C|]. intros Hn.
  rewrite <- !swap_le_stored by assumption. unfold guid_bytes_le.
  rewrite (unpack_header_text d t _ _ text body) by (rewrite ?swap_le_length; assumption).
  rewrite !swap_le_involutive, <- (little_endian_le_val d), <- (little_endian_le_val t), Vd, Vt. reflexivity.
Qed.

Lemma carries_end {Obj} (cd : codec Obj) o t : carries cd (DObj END_OF_PIPELINE_INPUT o) t -> t = [].
Proof. intros H. inversion H; subst; congruence. Qed.

Lemma message_roundtrip {Obj} (cd : codec Obj) m b :
  m_type m = data_type (m_data m) ->
  In (m_type m) known_types ->
  (forall ty o, m_data m = DObj ty o ->
     ~ In ty [PUBLIC_KEY_REQUEST; PIPELINE_INPUT; PIPELINE_OUTPUT; END_OF_PIPELINE_INPUT] /\
     ~ (ty = CONNECT_RUNSPACEPOOL /\ cd_limits cd o = (None, None))) ->
  is_guid (m_rpid m) -> is_guid (m_pid m) ->
  inverts cd (m_data m) ->
  (forall t, carries cd (m_data m) t -> no_bom t) ->
  message_pack cd m = Ok b -> message_unpack cd b = Ok m.
Proof.
  intros Ht Hk Hd Gr Gp Hi Hb H.
  assert (Hd' : forall o, m_data m <> DObj PUBLIC_KEY_REQUEST o).
  { intros o E. destruct (Hd _ _ E) as [K _]. apply K. now left. }
  destruct (header_roundtrip cd m b Ht Hd' Gr Gp H) as (text & C & E). specialize (E (Hb text C)).
  unfold message_unpack. rewrite E. cbn [bind h_dest h_type h_rpid h_pid h_text].
  assert (U : unpack_data cd (m_type m) text = Ok (m_data m)).
  { unfold unpack_data.
    replace (existsb (Z.eqb (m_type m)) known_types) with true
      by (symmetry; apply existsb_exists; exists (m_type m); split; [exact Hk|apply Z.eqb_refl]).
    cbn [negb]. rewrite Ht. destruct (m_data m) as [|o|o|ty o]; cbn [data_type inverts] in *.
    - reflexivity.
    - assert (S : serialized cd o text) by (inversion C; assumption). cbn [Z.eqb Pos.eqb]. 
      change (PIPELINE_INPUT =? PIPELINE_OUTPUT)%Z with false. cbv iota. rewrite Z.eqb_refl.
      rewrite (Hi text S). reflexivity.
    - assert (S : serialized cd o text) by (inversion C; assumption). rewrite Z.eqb_refl.
      rewrite (Hi text S). reflexivity.
    - destruct (Hd ty o eq_refl) as [K1 K2]. cbn [In] in K1.
      destruct (Z.eqb_spec ty PIPELINE_OUTPUT) as [->|]; [exfalso; apply K1; auto 6|].
      destruct (Z.eqb_spec ty PIPELINE_INPUT) as [->|]; [exfalso; apply K1; auto 6|].
      destruct (Z.eqb_spec ty PUBLIC_KEY_REQUEST) as [->|]; [exfalso; apply K1; auto 6|].
      destruct Hi as [Hty Hi].
      assert (S : serialized cd o text) by (inversion C; subst; [exfalso; apply K1; auto 6|exfalso; apply K2; auto|assumption]).
      rewrite (Hi text S). cbn [bind]. rewrite Hty. reflexivity. }
  rewrite U. cbn [bind]. unfold message_new. rewrite !guid_parse_str by assumption. cbn [bind].
  rewrite <- Ht. destruct m. reflexivity.
Qed.

Lemma message_new_missing {Obj} (d : mdata Obj) dest rpid m :
  message_new dest rpid None d = Ok m -> m_pid m = repeat 0%N 16 /\ m_dest m = dest /\ m_data m = d /\ m_type m = data_type d.
Proof.
  unfold message_new. intros H. apply bind_ok in H. destruct H as (r & _ & H). cbn [bind] in H.
  apply Ok_inj in H. subst m. auto.
Qed.

(* what is not a message *)
Lemma short_message {Obj} (cd : codec Obj) data :
  length data < 40 -> exists e, message_unpack cd data = Err e /\
    (length data < 8 -> e = StructError) /\ (8 <= length data -> e = ValueError).
Proof.
  intros L. unfold message_unpack, unpack_header.
  assert (S : forall a b, (0 <= a <= b)%Z -> length (py_slice data a b) = Nat.min (Z.to_nat b - Z.to_nat a) (length data - Z.to_nat a)).
  { intros a b Hab. rewrite py_slice_nonneg by lia. now rewrite firstn_length, skipn_length. }
  unfold struct_unpack_le, guid_of_bytes_le. rewrite !S by lia.
  change (Z.to_nat 0) with 0. change (Z.to_nat 4) with 4. change (Z.to_nat 8) with 8.
  change (Z.to_nat 24) with 24. change (Z.to_nat 40) with 40.
  destruct (Nat.eqb_spec (Nat.min (4 - 0) (length data - 0)) 4) as [E1|E1]; cbn [bind].
  2:{ exists StructError. repeat split; auto. lia. }
  destruct (Nat.eqb_spec (Nat.min (8 - 4) (length data - 4)) 4) as [E2|E2]; cbn [bind].
  2:{ exists StructError. repeat split; auto. lia. }
  destruct (Nat.eqb_spec (Nat.min (24 - 8) (length data - 8)) 16) as [E3|E3]; cbn [bind].
  2:{ exists ValueError. repeat split; auto. lia. }
  destruct (Nat.eqb_spec (Nat.min (40 - 24) (length data - 24)) 16) as [E4|E4]; cbn [bind].
  - lia.
  - exists ValueError. repeat split; auto. lia.
Qed.

Lemma unknown_type {Obj} (cd : codec Obj) data h :
  unpack_header data = Ok h -> ~ In (h_type h) known_types -> message_unpack cd data = Err KeyError.
Proof.
  intros E Hn. unfold message_unpack. rewrite E. cbn [bind]. unfold unpack_data.
  destruct (existsb (Z.eqb (h_type h)) known_types) eqn:K; [|reflexivity].
  exfalso. apply existsb_exists in K. destruct K as (x & Hx & Ex). apply Z.eqb_eq in Ex. now subst x.
Qed.

(* every known type is read back as that type *)
Lemma unpack_type {Obj} (cd : codec Obj) data m :
  (forall ty t o, cd_deser_class cd ty t = Ok o -> cd_type cd o = None \/ cd_type cd o = Some ty) ->
  message_unpack cd data = Ok m ->
  exists h, unpack_header data = Ok h /\ m_dest m = h_dest h /\ m_type m = h_type h /\
            guid_parse (h_rpid h) = Ok (m_rpid m) /\ guid_parse (h_pid h) = Ok (m_pid m) /\
            In (m_type m) known_types.
Proof.
  intros Hc H. unfold message_unpack in H. apply bind_ok in H. destruct H as (h & Hh & H).
  apply bind_ok in H. destruct H as (d & Hd & H). exists h. split; [exact Hh|].
  unfold message_new in H. apply bind_ok in H. destruct H as (r & Hr & H).
  apply bind_ok in H. destruct H as (p & Hp & H). apply Ok_inj in H. subst m. cbn [m_dest m_type m_rpid m_pid].
  split; [reflexivity|].
  assert (T : data_type d = h_type h /\ In (h_type h) known_types).
  { unfold unpack_data in Hd.
    destruct (existsb (Z.eqb (h_type h)) known_types) eqn:K; cbn [negb] in Hd; [|discriminate].
    split.
    2:{ apply existsb_exists in K. destruct K as (x & Hx & Ex). apply Z.eqb_eq in Ex. now subst x. }
    destruct (Z.eqb_spec (h_type h) PIPELINE_OUTPUT) as [->|].
    { destruct (cd_deser cd (h_text h)) as [o|[]]; try discriminate Hd; try (apply Ok_inj in Hd; subst d; reflexivity).
      apply bind_ok in Hd. destruct Hd as (o & _ & Hd). apply Ok_inj in Hd. subst d. reflexivity. }
    destruct (Z.eqb_spec (h_type h) PIPELINE_INPUT) as [->|].
    { apply bind_ok in Hd. destruct Hd as (o & _ & Hd). apply Ok_inj in Hd. subst d. reflexivity. }
    destruct (Z.eqb_spec (h_type h) PUBLIC_KEY_REQUEST) as [->|].
    { apply Ok_inj in Hd. subst d. reflexivity. }
    apply bind_ok in Hd. destruct Hd as (o & Ho & Hd). apply Hc in Ho.
    destruct Ho as [Ho|Ho]; rewrite Ho in Hd; [discriminate|]. apply Ok_inj in Hd. subst d. reflexivity. }
  destruct T as [T1 T2]. rewrite T1. auto.
Qed.

Lemma carries_obj {Obj} (cd : codec Obj) ty o t :
  carries cd (DObj ty o) t -> t = [] \/ t = lit "<S />" \/ serialized cd o t.
Proof. intros H. inversion H; subst; auto. Qed.
