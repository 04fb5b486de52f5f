(* What the client writes are bytes: the texts of ids, packed messages and the
   fragments of messages that are bytes. *)
From Verif Require Import Base BaseProofs Lit NumModel TextModel Utf8Model Utf8Proofs FragModel FragSpec MsgModel MsgProofs.
Require Import Lia ZifyBool ZifyNat ZifyN.

Lemma hex_value_bound c x : hex_value c = Some x -> (x < 16)%N.
Proof.
  unfold hex_value. intros H.
  destruct (N.leb 48 c && N.leb c 57)%bool eqn:A; [apply Some_inj in H; lia|].
  destruct (N.leb 65 c && N.leb c 70)%bool eqn:B; [apply Some_inj in H; lia|].
  destruct (N.leb 97 c && N.leb c 102)%bool eqn:D; [apply Some_inj in H; lia|discriminate H].
Qed.
Lemma unhexlify_bytes : forall n s b, length s <= n -> unhexlify s = Ok b -> bytes_ok b.
Proof.
  induction n as [|n IH]; intros s b L H.
  - destruct s; [|cbn in L; lia]. apply Ok_inj in H. subst b. constructor.
  - destruct s as [|x [|y s]]; cbn [unhexlify] in H; [apply Ok_inj in H; subst b; constructor|discriminate H|].
    destruct (hex_value x) eqn:X; [|discriminate H]. destruct (hex_value y) eqn:Y; [|discriminate H].
    apply hex_value_bound in X, Y. apply bind_ok in H as (r & R & H). apply Ok_inj in H. subst b.
    constructor; [cbn beta; lia|]. apply (IH s r); [cbn [length] in L; lia|exact R].
Qed.
Lemma guid_parse_bytes s g : guid_parse s = Ok g -> bytes_ok g.
Proof.
  unfold guid_parse. destruct (Nat.eqb _ 32); [|discriminate]. intros H. exact (unhexlify_bytes _ _ _ (le_n _) H).
Qed.
Lemma pack_le_bytes w v b : struct_pack_le w v = Ok b -> bytes_ok b.
Proof. unfold struct_pack_le. destruct (_ && _)%bool; intros H; [apply Ok_inj in H; subst b; apply le_bytes_ok|discriminate H]. Qed.
Lemma pack_be_bytes w v b : struct_pack_be w v = Ok b -> bytes_ok b.
Proof. unfold struct_pack_be. destruct (_ && _)%bool; intros H; [apply Ok_inj in H; subst b; apply be_bytes_ok|discriminate H]. Qed.
Lemma encode_bytes s b : utf8_encode s = Ok b -> bytes_ok b.
Proof. intros H. exact (proj1 (utf8_decode_encode s b H)). Qed.
Lemma ser_text_bytes {Obj} (cd : codec Obj) o b : ser_text cd o = Ok b -> bytes_ok b.
Proof. unfold ser_text. intros H. apply bind_ok in H as ([t|] & T & H); [exact (encode_bytes t b H)|apply Ok_inj in H; subst b; constructor]. Qed.
Lemma message_text_bytes {Obj} (cd : codec Obj) ty d b : message_text cd ty d = Ok b -> bytes_ok b.
Proof.
  unfold message_text. destruct (Z.eqb ty PUBLIC_KEY_REQUEST); [apply encode_bytes|]. destruct (Z.eqb ty END_OF_PIPELINE_INPUT); [intros H; apply Ok_inj in H; subst b; constructor|].
  destruct d; try apply ser_text_bytes; try apply encode_bytes. destruct (_ && _)%bool; [apply encode_bytes|apply ser_text_bytes].
Qed.
Lemma zero_bytes : bytes_ok guid_zero.
Proof. unfold guid_zero, bytes_ok. apply Forall_forall. intros x H. apply repeat_spec in H. subst x. reflexivity. Qed.
Lemma message_new_bytes {Obj} dest r p (d : mdata Obj) m : message_new dest r p d = Ok m -> bytes_ok (m_rpid m) /\ bytes_ok (m_pid m).
Proof.
  unfold message_new. intros H. apply bind_ok in H as (g & G & H). apply bind_ok in H as (i & I & H). apply Ok_inj in H. subst m. cbn [m_rpid m_pid]. split.
  - destruct r; [exact (guid_parse_bytes _ _ G)|apply Ok_inj in G; subst g; exact zero_bytes].
  - destruct p; [exact (guid_parse_bytes _ _ I)|apply Ok_inj in I; subst i; exact zero_bytes].
Qed.
Lemma message_pack_bytes {Obj} (cd : codec Obj) m b : bytes_ok (m_rpid m) -> bytes_ok (m_pid m) -> message_pack cd m = Ok b -> bytes_ok b.
Proof.
  unfold message_pack. intros R P H. apply bind_ok in H as (t & T & H). apply bind_ok in H as (d & D & H). apply bind_ok in H as (y & Y & H). apply Ok_inj in H. subst b.
  apply bytes_ok_app. split; [exact (pack_le_bytes _ _ _ D)|]. apply bytes_ok_app. split; [exact (pack_le_bytes _ _ _ Y)|].
  apply bytes_ok_app. split; [exact (swap_le_ok _ R)|]. apply bytes_ok_app. split; [exact (swap_le_ok _ P)|exact (message_text_bytes _ _ _ _ T)].
Qed.

(* ---- fragments ---- *)
Lemma slice_bytes l a b : bytes_ok l -> bytes_ok (py_slice l a b).
Proof.
  intros H. unfold py_slice, bytes_ok in *. rewrite Forall_forall in *. intros x X. apply H.
  rewrite <- (firstn_skipn (Z.to_nat (slice_index (zlen l) a)) l). apply in_or_app. right.
  set (k := skipn _ l) in *. rewrite <- (firstn_skipn (Z.to_nat (slice_index (zlen l) b - slice_index (zlen l) a)) k). apply in_or_app. left. exact X.
Qed.
Lemma frag_pack_bytes f b : bytes_ok (fr_data f) -> frag_pack f = Ok b -> bytes_ok b.
Proof.
  unfold frag_pack. intros D H. apply bind_ok in H as (b1 & H1 & H). apply bind_ok in H as (b2 & H2 & H). apply bind_ok in H as (b3 & H3 & H). apply bind_ok in H as (b4 & H4 & H).
  apply Ok_inj in H. subst b. repeat (apply bytes_ok_app; split); try (eapply pack_be_bytes; eassumption). exact D.
Qed.
Lemma pack_chunks_bytes cs : forall oid fid start bs, Forall (fun c => bytes_ok (fst c)) cs -> pack_chunks oid fid start cs = Ok bs -> Forall bytes_ok bs.
Proof.
  induction cs as [|[d e] cs IH]; intros oid fid start bs F H; cbn [pack_chunks] in H; [apply Ok_inj in H; subst bs; constructor|].
  apply bind_ok in H as (b & B & H). apply bind_ok in H as (r & R & H). apply Ok_inj in H. subst bs.
  constructor; [refine (frag_pack_bytes _ _ _ B); exact (Forall_inv F)|exact (IH _ _ _ _ (Forall_inv_tail F) R)].
Qed.
Lemma byte_iterator_bytes d n cs : bytes_ok d -> byte_iterator d n = Ok cs -> Forall (fun c => bytes_ok (fst c)) cs.
Proof.
  unfold byte_iterator. intros D H. apply bind_ok in H as (i & I & H). apply Ok_inj in H. subst cs. apply Forall_forall. intros c C.
  apply in_map_iff in C as (x & <- & _). cbn [fst]. apply slice_bytes, D.
Qed.
Lemma fragment_msg_bytes s d r s' bs : bytes_ok d -> fragment_msg s d r = Ok (s', bs) -> Forall bytes_ok bs.
Proof.
  unfold fragment_msg. intros D H. apply bind_ok in H as ([[[first rest] fid] start] & A & H).
  assert (K : Forall bytes_ok first /\ bytes_ok rest).
  { destruct r as [r|]; [|apply Ok_inj in A; apply pair_inj in A as (A & _); apply pair_inj in A as (A & _); apply pair_inj in A as (<- & <-); split; [constructor|exact D]].
    apply bind_ok in A as (b & B & A). apply Ok_inj in A. apply pair_inj in A as (A & _). apply pair_inj in A as (A & _). apply pair_inj in A as (<- & <-). split.
    - constructor; [|constructor]. refine (frag_pack_bytes _ _ _ B). apply slice_bytes, D.
    - apply slice_bytes, D. }
  destruct K as (K1 & K2). apply bind_ok in H as (cs & C & H). apply bind_ok in H as (x & X & H). apply Ok_inj in H. apply pair_inj in H as (_ & <-).
  apply Forall_app. split; [exact K1|]. exact (pack_chunks_bytes _ _ _ _ _ (byte_iterator_bytes _ _ _ K2 C) X).
Qed.
Lemma append_last_bytes l x : Forall bytes_ok l -> bytes_ok x -> Forall bytes_ok (append_last l x).
Proof.
  intros F X. induction l as [|y [|z l] IH]; cbn [append_last]; [constructor| |].
  - constructor; [|constructor]. apply bytes_ok_app. split; [exact (Forall_inv F)|exact X].
  - constructor; [exact (Forall_inv F)|exact (IH (Forall_inv_tail F))].
Qed.
Lemma fragment_loop_bytes bs : forall s rem fs s' fs', Forall bytes_ok bs -> Forall bytes_ok fs -> fragment_multiple_loop s bs rem fs = Ok (s', fs') -> Forall bytes_ok fs'.
Proof.
  induction bs as [|b bs IH]; intros s rem fs s' fs' B F H; cbn [fragment_multiple_loop] in H; [apply Ok_inj in H; apply pair_inj in H as (_ & <-); exact F|].
  apply bind_ok in H as ([s1 bf] & M & H). pose proof (fragment_msg_bytes _ _ _ _ _ (Forall_inv B) M) as K. apply bind_ok in H as (f1 & F1 & H).
  assert (K1 : Forall bytes_ok f1).
  { destruct (_ && _)%bool; [|apply Ok_inj in F1; subst f1; apply Forall_app; split; assumption]. destruct bf as [|x bf]; [discriminate F1|]. apply Ok_inj in F1. subst f1.
    apply Forall_app. split; [apply append_last_bytes; [exact F|exact (Forall_inv K)]|exact (Forall_inv_tail K)]. }
  destruct (rev f1) as [|l r]; [discriminate H|]. exact (IH _ _ _ _ _ (Forall_inv_tail B) K1 H).
Qed.
Lemma fragment_multiple_bytes s bs s' fs : Forall bytes_ok bs -> fragment_multiple s bs = Ok (s', fs) -> Forall bytes_ok fs.
Proof. intros B H. exact (fragment_loop_bytes _ _ _ _ _ _ B (Forall_nil _) H). Qed.
Lemma run_sends_bytes ops : forall s s' bss, Forall bytes_ok (concat (map op_msgs ops)) -> run_sends s ops = Ok (s', bss) -> Forall bytes_ok (concat bss).
Proof.
  induction ops as [|o ops IH]; intros s s' bss B H; cbn [run_sends] in H; [apply Ok_inj in H; apply pair_inj in H as (_ & <-); constructor|].
  cbn [map concat] in B. apply Forall_app in B as (B1 & B2). apply bind_ok in H as ([s1 x] & X & H). apply bind_ok in H as ([s2 y] & Y & H). apply Ok_inj in H. apply pair_inj in H as (_ & <-).
  cbn [concat]. apply Forall_app. split; [|exact (IH _ _ _ B2 Y)].
  destruct o as [m|ms]; cbn [op_msgs send_step] in *; [exact (fragment_msg_bytes _ _ _ _ _ (Forall_inv B1) X)|exact (fragment_multiple_bytes _ _ _ _ B1 X)].
Qed.
