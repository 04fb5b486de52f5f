(* The small world of PoolToy answers with XML texts and has writable settings. *)
From Verif Require Import Base BaseProofs Lit NumModel TextSpec TextModel Utf8Model XmlModel XtModel XtSpec XtProofs XtProofs3 WsmanModel WsmanSpec ShellModel ShellSpec FragModel FragSpec MsgModel
  UtilModel TransModel PoolModel PoolSpec PoolToy EnvModel EnvSpec EnvProofs EnvProofs2 HomeSpec HomeProofs2 JobProofs.
Local Open Scope list_scope.

(* decided *)
Fixpoint spokenb (x : xml) : bool :=
  match x with
  | Elem _ a txt kids =>
      forallb (fun kv : list N * list N => forallb is_char (snd kv)) a && match txt with Some t => forallb is_char t | None => true end && forallb spokenb kids
  end.
Lemma spokenb_ok x : spokenb x = true -> spoken x.
Proof.
  induction x as [t a txt kids IH] using xml_induction. cbn [spokenb spoken]. intros H. apply andb_prop in H as (H & K). apply andb_prop in H as (A & T). split; [|split].
  - apply Forall_forall. intros kv I. rewrite forallb_forall in A. exact (fit_lit _ (A kv I)).
  - destruct txt; [exact (fit_lit _ T)|exact Logic.I].
  - clear A T. induction kids as [|y l IHl]; [exact Logic.I|]. cbn [forallb] in K. apply andb_prop in K as (K1 & K2). split; [exact (Forall_inv IH K1)|exact (IHl (Forall_inv_tail IH) K2)].
Qed.
Definition some_server : bool -> history -> sreq -> wresult := scripted [opened_msgs].
Lemma some_server_speaks b : speaks (some_server b).
Proof.
  intros h q x. unfold some_server, scripted.
  assert (P : forall r, r = said_ok \/ r = said_created \/ r = said_command \/ r = said_late \/ r = opened_msgs -> r = WBody (Some x) -> spoken x).
  { intros r H. assert (K : match r with WBody (Some y) => spokenb y | _ => true end = true) by (destruct H as [->|[->|[->|[->| ->]]]]; vm_compute; reflexivity).
    intros ->. apply spokenb_ok, K. }
  destruct (q_op q); try (apply P; now auto). apply P. destruct (length _) as [|[|n]]; cbn [nth]; auto.
Qed.
Lemma new_world_fit p : fit_world (new_world p).
Proof.
  split; [|split; [apply fit_lit; reflexivity|constructor]]. split.
  - unfold fit_shell. cbn [new_world w_pool new_pool rp_shell]. repeat (split; [first [exact I|apply fit_lit; vm_compute; reflexivity]|]). exact I.
  - exists None. split; [reflexivity|exact I].
Qed.
Lemma fit_sender {Obj Cmd HS RK} (s : sender) (w : world Obj Cmd HS RK) : fit_world w -> fit_world (set_w_pool (set_rp_sender s (w_pool w)) w).
Proof. intros (A & B & C). split; [exact A|]. split; [exact B|exact C]. Qed.
