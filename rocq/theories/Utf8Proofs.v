(* Proofs about the UTF-8 codec. *)
From Coq Require Import Lia ZifyBool ZifyNat ZifyN.
From Verif Require Import Base BaseProofs TextSpec Utf8Model.
Ltac Zify.zify_post_hook ::= Z.div_mod_to_equations.

Lemma utf8_enc1_ok c : scalar c -> exists b, utf8_enc1 c = Ok b /\ bytes_ok b /\ b <> [] /\
  forall rest, utf8_decode (b ++ rest) = do s <- utf8_decode rest; Ok (c :: s).
Proof.
  unfold scalar, utf8_enc1. intros H.
  destruct (N.ltb_spec c 128).
  { eexists. split; [reflexivity|]. split; [repeat constructor; lia|]. split; [discriminate|].
    intros rest. cbn [app utf8_decode]. now replace (c <? 128)%N with true by lia. }
  destruct (N.ltb_spec c 2048).
  { eexists. split; [reflexivity|]. split; [repeat constructor; lia|]. split; [discriminate|].
    intros rest. cbn [app utf8_decode].
    replace (192 + c / 64 <? 128)%N with false by lia.
    replace (192 + c / 64 <? 192)%N with false by lia.
    replace (192 + c / 64 <? 224)%N with true by lia. cbv zeta.
    replace ((192 + c / 64 - 192) * 64 + (128 + c mod 64 - 128))%N with c by lia.
    unfold is_cont. replace (_ && _ && _)%bool with true by lia. reflexivity. }
  destruct (N.ltb_spec c 65536).
  { replace ((55296 <=? c)%N && (c <=? 57343)%N)%bool with false by lia.
    eexists. split; [reflexivity|]. split; [repeat constructor; lia|]. split; [discriminate|].
    intros rest. cbn [app utf8_decode].
    replace (224 + c / 4096 <? 128)%N with false by lia.
    replace (224 + c / 4096 <? 192)%N with false by lia.
    replace (224 + c / 4096 <? 224)%N with false by lia.
    replace (224 + c / 4096 <? 240)%N with true by lia. cbv zeta.
    replace ((224 + c / 4096 - 224) * 4096 + (128 + c / 64 mod 64 - 128) * 64 + (128 + c mod 64 - 128))%N with c by lia.
    unfold is_cont.
    replace ((128 <=? 128 + c / 64 mod 64)%N && (128 + c / 64 mod 64 <=? 191)%N)%bool with true by lia.
    replace ((128 <=? 128 + c mod 64)%N && (128 + c mod 64 <=? 191)%N)%bool with true by lia.
    cbn [andb]. replace (_ && _)%bool with true by lia. reflexivity. }
  replace (c <? 1114112)%N with true by lia.
  eexists. split; [reflexivity|]. split; [repeat constructor; lia|]. split; [discriminate|].
  intros rest. cbn [app utf8_decode].
  replace (240 + c / 262144 <? 128)%N with false by lia.
  replace (240 + c / 262144 <? 192)%N with false by lia.
  replace (240 + c / 262144 <? 224)%N with false by lia.
  replace (240 + c / 262144 <? 240)%N with false by lia.
  replace (240 + c / 262144 <? 248)%N with true by lia. cbv zeta.
  replace ((240 + c / 262144 - 240) * 262144 + (128 + c / 4096 mod 64 - 128) * 4096
           + (128 + c / 64 mod 64 - 128) * 64 + (128 + c mod 64 - 128))%N with c by lia.
  unfold is_cont.
  replace ((128 <=? 128 + c / 4096 mod 64)%N && (128 + c / 4096 mod 64 <=? 191)%N)%bool with true by lia.
  replace ((128 <=? 128 + c / 64 mod 64)%N && (128 + c / 64 mod 64 <=? 191)%N)%bool with true by lia.
  replace ((128 <=? 128 + c mod 64)%N && (128 + c mod 64 <=? 191)%N)%bool with true by lia.
  cbn [andb]. replace (_ && _)%bool with true by lia. reflexivity.
Qed.

Lemma utf8_roundtrip s : scalars s ->
  exists b, utf8_encode s = Ok b /\ bytes_ok b /\ utf8_decode b = Ok s.
Proof.
  induction 1 as [|c s Hc Hs IH].
  - exists []. repeat split; constructor.
  - destruct IH as (r & E & Ok' & D). destruct (utf8_enc1_ok c Hc) as (b & Eb & Okb & _ & Db).
    exists (b ++ r). cbn [utf8_encode]. rewrite Eb, E. cbn [bind]. split; [reflexivity|].
    split; [apply bytes_ok_app; auto|]. rewrite Db, D. reflexivity.
Qed.

Lemma utf8_encode_scalars s b : utf8_encode s = Ok b -> scalars s.
Proof.
  revert b. induction s as [|c s IH]; intros b H; [constructor|].
  cbn [utf8_encode] in H. destruct (utf8_enc1 c) as [x|] eqn:E; [|discriminate].
  cbn [bind] in H. destruct (utf8_encode s) as [r|]; [|discriminate].
  constructor; [|now apply (IH r)].
  unfold utf8_enc1 in E. unfold scalar.
  destruct (N.ltb_spec c 128); [lia|]. destruct (N.ltb_spec c 2048); [lia|].
  destruct (N.ltb_spec c 65536).
  - destruct ((55296 <=? c)%N && (c <=? 57343)%N)%bool eqn:E2; [discriminate|]. lia.
  - destruct (N.ltb_spec c 1114112); [lia|discriminate].
Qed.

Lemma utf8_decode_encode s b : utf8_encode s = Ok b -> bytes_ok b /\ utf8_decode b = Ok s.
Proof.
  intros H. destruct (utf8_roundtrip s (utf8_encode_scalars s b H)) as (b' & E & O & D).
  rewrite E in H. apply Ok_inj in H. subst. auto.
Qed.

(* what decodes was the encoding of what it decodes to *)
Lemma utf8_encode_decode b : bytes_ok b -> forall s, utf8_decode b = Ok s -> utf8_encode s = Ok b.
Proof.
  remember (length b) as n eqn:Hn. assert (Hl : length b <= n) by lia. clear Hn. revert b Hl.
  induction n as [n IH] using lt_wf_ind. intros b Hl Hb s H.
  destruct b as [|x b1]; [apply Ok_inj in H; subst; reflexivity|].
  cbn [length] in Hl.
  pose proof (Forall_inv Hb) as Hx. pose proof (Forall_inv_tail Hb) as Hb1. cbv beta in Hx.
  cbn [utf8_decode] in H.
  destruct (N.ltb_spec x 128).
  { destruct (utf8_decode b1) as [s1|] eqn:E; [|discriminate]. cbn [bind] in H. apply Ok_inj in H. subst s.
    cbn [utf8_encode]. unfold utf8_enc1. replace (x <? 128)%N with true by lia. cbn [bind].
    rewrite (IH (length b1) ltac:(lia) b1 ltac:(lia) Hb1 s1 E). reflexivity. }
  destruct (N.ltb_spec x 192); [discriminate|].
  destruct (N.ltb_spec x 224).
  { destruct b1 as [|y b2]; [discriminate|]. cbn [length] in Hl.
    pose proof (Forall_inv_tail Hb1) as Hb2. cbv zeta in H.
    set (c := ((x - 192) * 64 + (y - 128))%N) in *.
    destruct (is_cont y && (128 <=? c)%N)%bool eqn:G; [|discriminate].
    destruct (utf8_decode b2) as [s1|] eqn:E; [|discriminate]. cbn [bind] in H. apply Ok_inj in H. subst s.
    cbn [utf8_encode]. rewrite (IH (length b2) ltac:(lia) b2 ltac:(lia) Hb2 s1 E).
    unfold is_cont in G. unfold utf8_enc1.
    replace (c <? 128)%N with false by lia. replace (c <? 2048)%N with true by lia. cbn [bind].
    cbn [app]. f_equal. f_equal; [lia|f_equal; lia]. }
  destruct (N.ltb_spec x 240).
  { destruct b1 as [|y [|z b3]]; try discriminate. cbn [length] in Hl.
    pose proof (Forall_inv_tail (Forall_inv_tail Hb1)) as Hb2. cbv zeta in H.
    set (c := ((x - 224) * 4096 + (y - 128) * 64 + (z - 128))%N) in *.
    destruct (is_cont y && is_cont z && (2048 <=? c)%N && negb ((55296 <=? c)%N && (c <=? 57343)%N))%bool eqn:G; [|discriminate].
    destruct (utf8_decode b3) as [s1|] eqn:E; [|discriminate]. cbn [bind] in H. apply Ok_inj in H. subst s.
    cbn [utf8_encode]. rewrite (IH (length b3) ltac:(lia) b3 ltac:(lia) Hb2 s1 E).
    unfold is_cont in G. unfold utf8_enc1.
    replace (c <? 128)%N with false by lia. replace (c <? 2048)%N with false by lia.
    replace (c <? 65536)%N with true by lia.
    replace ((55296 <=? c)%N && (c <=? 57343)%N)%bool with false by lia. cbn [bind].
    assert (c / 64 = (x - 224) * 64 + (y - 128))%N by lia.
    cbn [app]. f_equal. f_equal; [lia|f_equal; [lia|f_equal; lia]]. }
  destruct (N.ltb_spec x 248); [|discriminate].
  destruct b1 as [|y [|z [|w b4]]]; try discriminate. cbn [length] in Hl.
  pose proof (Forall_inv_tail (Forall_inv_tail (Forall_inv_tail Hb1))) as Hb2. cbv zeta in H.
  set (c := ((x - 240) * 262144 + (y - 128) * 4096 + (z - 128) * 64 + (w - 128))%N) in *.
  destruct (is_cont y && is_cont z && is_cont w && (65536 <=? c)%N && (c <? 1114112)%N)%bool eqn:G; [|discriminate].
  destruct (utf8_decode b4) as [s1|] eqn:E; [|discriminate]. cbn [bind] in H. apply Ok_inj in H. subst s.
  cbn [utf8_encode]. rewrite (IH (length b4) ltac:(lia) b4 ltac:(lia) Hb2 s1 E).
  unfold is_cont in G. unfold utf8_enc1.
  replace (c <? 128)%N with false by lia. replace (c <? 2048)%N with false by lia.
  replace (c <? 65536)%N with false by lia. replace (c <? 1114112)%N with true by lia. cbn [bind].
  assert (c / 64 = (x - 240) * 4096 + (y - 128) * 64 + (z - 128))%N by lia.
  assert (c / 4096 = (x - 240) * 64 + (y - 128))%N by lia.
  cbn [app]. f_equal. f_equal; [lia|f_equal; [lia|f_equal; [lia|f_equal; lia]]].
Qed.

Lemma utf8_encode_app a b : utf8_encode (a ++ b) =
  do x <- utf8_encode a; do y <- utf8_encode b; Ok (x ++ y).
Proof.
  induction a as [|c a IH].
  - cbn [app utf8_encode bind]. destruct (utf8_encode b); reflexivity.
  - cbn [app utf8_encode]. destruct (utf8_enc1 c) as [z|]; [|reflexivity]. cbn [bind]. rewrite IH.
    destruct (utf8_encode a) as [x|]; [|reflexivity]. cbn [bind].
    destruct (utf8_encode b) as [y|]; [|reflexivity]. cbn [bind]. now rewrite app_assoc.
Qed.
