(* C31: the texts of a process, in the encoding of its console. *)
From Verif Require Import Base BaseProofs Lit NumModel TextModel Utf8Model XmlModel WsmanModel WsmanSpec ShellModel ShellSpec ShellProofs2 ShellProps CodeModel CodeSpec CodeProofs.
Local Open Scope list_scope.

(* What execute_cmd returns is the texts that the process wrote, wherever the
   answers cut them, in characters too. *)
Theorem C31_text : forall srv other fuel command encoding env h o e rc h',
  execute_cmd_text srv other fuel command encoding env h = (Ret (o, e, rc), h') ->
  exists create cmd poll answers signal delete,
    h' = h ++ [create; cmd] ++ map (fun r => (poll, r)) answers ++ [signal; delete] /\
    created create /\ q_op (fst cmd) = OpCommand /\ q_op poll = OpReceive /\ q_op (fst signal) = OpSignal /\ deleted delete /\
    forall ms, Forall2 says answers ms ->
      (forall text, console_text encoding text (collected (lit "stdout") ms) -> o = text) /\
      (forall text, console_text encoding text (collected (lit "stderr") ms) -> e = text) /\
      (encoding = lit "437" \/ encoding = lit "utf-8" -> bytes_ok (collected (lit "stdout") ms) -> console_text encoding o (collected (lit "stdout") ms)) /\
      (encoding = lit "437" \/ encoding = lit "utf-8" -> bytes_ok (collected (lit "stderr") ms) -> console_text encoding e (collected (lit "stderr") ms)) /\
      exists before final, ms = before ++ [final] /\ finishes final /\ Forall (fun m => ~ finishes m) before /\
        rc = match rc_of final None with Some z => z | None => (-1)%Z end.
Proof.
  intros srv other fuel command encoding env h o e rc h' H. destruct (text_result _ _ _ _ _ _ _ _ _ _ _ H) as (bo & be & E & Do & De).
  destruct (cmd_result _ _ _ _ _ _ _ _ _ E) as (create & cmd & poll & answers & signal & delete & H1 & H2 & H3 & H4 & H5 & H6 & K).
  exists create, cmd, poll, answers, signal, delete. do 6 (split; [assumption|]). intros ms M. destruct (K ms M) as (-> & -> & F).
  split; [intros text T; rewrite (text_decoded other _ _ _ T) in Do; apply Ok_inj in Do; symmetry; exact Do|].
  split; [intros text T; rewrite (text_decoded other _ _ _ T) in De; apply Ok_inj in De; symmetry; exact De|].
  split; [intros C B; exact (decoded_text other _ _ _ B C Do)|]. split; [intros C B; exact (decoded_text other _ _ _ B C De)|exact F].
Qed.
Print Assumptions C31_text.

(* It does return them: texts in the encoding never raise, and any bytes are a text
   in the default encoding, exactly one. *)
Theorem C31_text_returned : forall srv other fuel command encoding env h o e rc h' to te,
  execute_cmd srv fuel command env h = (Ret (o, e, rc), h') -> console_text encoding to o -> console_text encoding te e ->
  execute_cmd_text srv other fuel command encoding env h = (Ret (to, te, rc), h').
Proof.
  intros srv other fuel command encoding env h o e rc h' to te E To Te. unfold execute_cmd_text. rewrite E, (text_decoded other _ _ _ To), (text_decoded other _ _ _ Te). reflexivity.
Qed.
Print Assumptions C31_text_returned.
Theorem C31_default_total : forall b, bytes_ok b -> exists text, written437 text b /\ forall text', written437 text' b -> text' = text.
Proof.
  intros b B. exists (map cp437 b). split; [exact (bytes_written b B)|]. intros text' H. symmetry. exact (proj1 (written_decoded text' b H)).
Qed.
Print Assumptions C31_default_total.

(* What is not in the encoding raises, the shell being deleted all the same. *)
Theorem C31_text_refused : forall srv other fuel command env h o e rc h',
  execute_cmd srv fuel command env h = (Ret (o, e, rc), h') -> bytes_ok o -> (forall text, utf8_encode text <> Ok o) ->
  exists x, execute_cmd_text srv other fuel command (lit "utf-8") env h = (Raise (XExn x), h') /\ exists h0 delete, h' = h0 ++ [delete] /\ deleted delete.
Proof.
  intros srv other fuel command env h o e rc h' E B Nt. unfold execute_cmd_text. rewrite E. destruct (decoded other (lit "utf-8") o) as [t|x] eqn:D.
  - exfalso. apply (Nt t). destruct (decoded_text other _ _ _ B (or_intror eq_refl) D) as [(Q & _)|(_ & Q)]; [discriminate Q|exact Q].
  - exists x. split; [reflexivity|]. destruct (cmd_result _ _ _ _ _ _ _ _ _ E) as (create & cmd & poll & answers & signal & delete & H1 & _ & _ & _ & _ & H6 & _).
    exists (h ++ [create; cmd] ++ map (fun r => (poll, r)) answers ++ [signal]), delete. split; [rewrite H1, <- !app_assoc; reflexivity|exact H6].
Qed.
Print Assumptions C31_text_refused.

(* ---- cases: e with an acute accent and a corner, and a character of three bytes cut
   in two answers ---- *)
Definition cut_srv (a b : bytes) := toy_srv [late_answer; late_answer; toy_output [(lit "stdout", a)] (Some running) None; late_answer; toy_output [(lit "stdout", b)] (Some done_state) (Some 0%Z)].
Example C31_text_case :
  fst (execute_cmd_text (cut_srv [130%N] [191%N; 65%N]) (fun _ _ => Err OtherError) 9 (lit "dir") (lit "437") None []) = Ret ([233; 9488; 65]%N, [], 0%Z) /\
  fst (execute_cmd_text (cut_srv [226; 130]%N [172%N]) (fun _ _ => Err OtherError) 9 (lit "dir") (lit "utf-8") None []) = Ret ([8364%N], [], 0%Z) /\
  console_text (lit "437") [233; 9488; 65]%N [130; 191; 65]%N /\ console_text (lit "utf-8") [8364%N] [226; 130; 172]%N /\
  fst (execute_cmd_text (cut_srv [226; 130]%N []) (fun _ _ => Err OtherError) 9 (lit "dir") (lit "utf-8") None []) = Raise (XExn ValueError) /\
  (forall text, utf8_encode text <> Ok [226; 130]%N).
Proof.
  split; [vm_compute; reflexivity|]. split; [vm_compute; reflexivity|]. split.
  { left. split; [reflexivity|]. constructor; [right; vm_compute; tauto|]. constructor; [right; vm_compute; tauto|]. constructor; [left; split; reflexivity|constructor]. }
  split; [right; split; [reflexivity|vm_compute; reflexivity]|]. split; [vm_compute; reflexivity|].
  intros text H. apply Utf8Proofs.utf8_decode_encode in H. destruct H as (_ & H). vm_compute in H. discriminate H.
Qed.
