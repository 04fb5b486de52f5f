(* C31: the texts of a process. *)
From Verif Require Import Base BaseProofs Lit NumModel TextModel Utf8Model Utf8Proofs XmlModel WsmanModel ShellModel CodeModel CodeSpec.
Require Import Lia ZifyN ZifyBool.
Local Open Scope list_scope.

Lemma table_ok : forallb (fun p => (N.leb 128 (snd p) && N.ltb (snd p) 256 && N.eqb (cp437 (snd p)) (fst p))%bool) ibm437 = true.
Proof. vm_compute. reflexivity. Qed.
Lemma table_full : forallb (fun i => existsb (fun p => N.eqb (snd p) (N.of_nat i)) ibm437) (seq 128 128) = true.
Proof. vm_compute. reflexivity. Qed.
Lemma upper_decoded c x : In (c, x) ibm437 -> (128 <= x < 256)%N /\ cp437 x = c.
Proof.
  intros H. pose proof table_ok as T. rewrite forallb_forall in T. specialize (T _ H). cbn [fst snd] in T. repeat rewrite andb_true_iff in T. destruct T as ((T1 & T2) & T3).
  apply N.leb_le in T1. apply N.ltb_lt in T2. apply N.eqb_eq in T3. auto.
Qed.
Lemma written_decoded text b : written437 text b -> map cp437 b = text /\ bytes_ok b.
Proof.
  induction 1 as [|c x text b H _ (IH1 & IH2)]; [split; [reflexivity|constructor]|]. cbn [map]. rewrite IH1. destruct H as [(-> & L)|H].
  - unfold cp437. apply N.ltb_lt in L as L'. rewrite L'. split; [reflexivity|]. constructor; [lia|exact IH2].
  - destruct (upper_decoded c x H) as (L & ->). split; [reflexivity|]. constructor; [lia|exact IH2].
Qed.
Lemma bytes_written b : bytes_ok b -> written437 (map cp437 b) b.
Proof.
  induction 1 as [|x b H _ IH]; [constructor|]. cbn [map]. constructor; [|exact IH]. destruct (N.ltb_spec x 128) as [L|L].
  - left. unfold cp437. apply N.ltb_lt in L as L'. rewrite L'. split; [reflexivity|exact L].
  - right. pose proof table_full as T. rewrite forallb_forall in T. specialize (T (N.to_nat x)). rewrite in_seq in T. specialize (T ltac:(lia)). apply existsb_exists in T. destruct T as ((c, y) & T1 & T2).
    cbn [snd] in T2. apply N.eqb_eq in T2. rewrite N2Nat.id in T2. subst y. destruct (upper_decoded c x T1) as (_ & ->). exact T1.
Qed.
Lemma text_decoded other encoding text b : console_text encoding text b -> decoded other encoding b = Ok text.
Proof.
  intros [(-> & H)|(-> & H)].
  - change (Ok (map cp437 b) = Ok text). rewrite (proj1 (written_decoded text b H)). reflexivity.
  - change (utf8_decode b = Ok text). exact (proj2 (utf8_decode_encode text b H)).
Qed.
(* and only that is decoded *)
Lemma decoded_text other encoding text b : bytes_ok b -> encoding = lit "437" \/ encoding = lit "utf-8" -> decoded other encoding b = Ok text -> console_text encoding text b.
Proof.
  intros B [-> | ->] H.
  - left. split; [reflexivity|]. change (Ok (map cp437 b) = Ok text) in H. apply Ok_inj in H. subst text. exact (bytes_written b B).
  - right. split; [reflexivity|]. exact (utf8_encode_decode b B text H).
Qed.
Lemma text_result srv other fuel command encoding env h o e rc h' : execute_cmd_text srv other fuel command encoding env h = (Ret (o, e, rc), h') ->
  exists bo be, execute_cmd srv fuel command env h = (Ret (bo, be, rc), h') /\ decoded other encoding bo = Ok o /\ decoded other encoding be = Ok e.
Proof.
  unfold execute_cmd_text. destruct (execute_cmd srv fuel command env h) as [[[[bo be] rc0]|x] h0]; [|discriminate].
  destruct (decoded other encoding bo) as [o'|x] eqn:Eo; [|discriminate]. destruct (decoded other encoding be) as [e'|x] eqn:Ee; [|discriminate].
  intros H. apply pair_inj in H. destruct H as (H & <-). assert (o' = o /\ e' = e /\ rc0 = rc) as (-> & -> & ->) by (split; [|split]; congruence).
  exists bo, be. auto.
Qed.
