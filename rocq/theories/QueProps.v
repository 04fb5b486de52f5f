(* C76: queues and stacks that are sent. *)
From Verif Require Import Base BaseProofs Lit NumModel TextModel TextSpec MsgModel MsgSpec XmlModel SerModel SerSpec SerSpec2 SerClasses SendClasses SerProofs5 ClsSpec ClsProofs3 QueModel QueSpec QueProofs.
Local Open Scope list_scope.

(* A queue of scalars of one sort, with or without None among them, can be sent, and
   whoever reads it has a queue of the same values in the same order. *)
Theorem C76_queue_partial : forall ci show xml_text float_of classes heap said raw l fuel h, alike ci float_of said raw l ->
  exists x, serialize ci show classes heap (S (S fuel)) (VQueue l) any_meta = Ok (Some x) /\
    deserialize ci xml_text float_of classes h (reparse x) any_meta = Ok (VQueue l, h).
Proof.
  intros ci show xml_text float_of classes heap said raw l fuel h A. destruct (queue_ser ci show float_of classes heap said raw l fuel A) as (xs & E & F).
  eexists. split; [exact E|exact (queue_des ci xml_text float_of classes said raw xs l h F)].
Qed.
Print Assumptions C76_queue_partial.

(* A stack, a list with the metadata for stacks, is written from its top, the end of
   the list; whoever reads it has a list that begins with the top. *)
Theorem C76_stack_partial : forall ci show xml_text float_of classes heap said raw l fuel h, alike ci float_of said raw (rev l) ->
  exists x, serialize ci show classes heap (S (S fuel)) (VList l) (stack_meta None false) = Ok (Some x) /\
    deserialize ci xml_text float_of classes h (reparse x) any_meta = Ok (VList (rev l), h).
Proof.
  intros ci show xml_text float_of classes heap said raw l fuel h A. destruct (stack_ser ci show float_of classes heap said raw l fuel A) as (xs & E & F).
  eexists. split; [exact E|exact (stack_des ci xml_text float_of classes said raw xs (rev l) h F)].
Qed.
Print Assumptions C76_stack_partial.

(* What is sent is taken out: nothing is left in the caller's queue or stack, and if a
   value cannot be sent, it and those before it are gone. *)
Theorem C76_taken : forall rec m vs st,
  fst (take_all rec m vs st) = ser_entries rec false m vs st /\
  match ser_entries rec false m vs st with
  | Ok _ => snd (take_all rec m vs st) = []
  | Err _ => exists l v, vs = l ++ v :: snd (take_all rec m vs st)
  end.
Proof. intros rec m vs st. split; [apply taken_sent|]. rewrite <- taken_sent. apply taken_left. Qed.
Print Assumptions C76_taken.

Definition send (v : value) (m : meta) : res (value * list hobj) :=
  do x <- serialize None (fun _ => []) sending [] 9 v m;
  match x with Some x => deserialize None (fun _ => []) (fun f => Ok f) sending [] (reparse x) any_meta | None => Err OtherError end.
Example C76_case :
  alike None (fun f => Ok f) (fun _ => True) (fun _ => True) [VStr (lit "a"); VNone; VStr (lit "b")] /\
  send (VQueue [VStr (lit "a"); VNone; VStr (lit "b")]) any_meta = Ok (VQueue [VStr (lit "a"); VNone; VStr (lit "b")], []) /\
  send (VList [VInt 1; VInt 2; VInt 3]) (stack_meta None false) = Ok (VList [VInt 3; VInt 2; VInt 1], []) /\
  snd (take_all (ser None (fun _ => []) sending [] 9) any_meta [VStr (lit "a"); VInt 1; VInt 4] clear_sst) = [VInt 4].
Proof.
  split; [|vm_compute; repeat split].
  assert (B : forall s, forallb (fun c => N.ltb c 128) (lit s) = true -> bears None (fun f => Ok f) (fun _ => True) (fun _ => True) (lit "S") (VStr (lit s))).
  { intros s A. apply be_str; [left; reflexivity|apply ascii_scalars; exact A|apply ascii_kept; exact A|exact I]. }
  apply Forall_cons; [right; exact (B "a"%string eq_refl)|]. apply Forall_cons; [left; reflexivity|]. apply Forall_cons; [right; exact (B "b"%string eq_refl)|]. apply Forall_nil.
Qed.

(* ---- what fails ---- *)
(* The first value says how the rest is written: a text among numbers comes back as a
   number, or cannot be read at all; a number among texts cannot be sent. *)
Theorem C76_mixed_refuted :
  (exists l l', send (VQueue l) any_meta = Ok (VQueue l', []) /\ l <> l') /\
  (exists l, (exists x, serialize None (fun _ => []) sending [] 9 (VQueue l) any_meta = Ok (Some x)) /\ send (VQueue l) any_meta = Err ValueError) /\
  (exists l, serialize None (fun _ => []) sending [] 9 (VQueue l) any_meta = Err AttributeError /\ send (VList l) any_meta = Ok (VList l, [])).
Proof.
  split; [|split].
  - exists [VInt 1; VStr (lit "7")], [VInt 1; VInt 7]. split; [vm_compute; reflexivity|discriminate].
  - exists [VInt 1; VStr (lit "a")]. split; [eexists; vm_compute; reflexivity|vm_compute; reflexivity].
  - exists [VStr (lit "a"); VInt 1]. split; vm_compute; reflexivity.
Qed.
Print Assumptions C76_mixed_refuted.
(* A stack that is read and sent on is turned over. *)
Theorem C76_stack_refuted : exists l l', send (VList l) (stack_meta None false) = Ok (VList l', []) /\ l <> l'.
Proof. exists [VInt 1; VInt 2], [VInt 2; VInt 1]. split; [vm_compute; reflexivity|discriminate]. Qed.
Print Assumptions C76_stack_refuted.
(* A queue that is sent twice is empty the second time. *)
Theorem C76_again_refuted : exists l, let left := snd (take_all (ser None (fun _ => []) sending [] 9) any_meta l clear_sst) in
  send (VQueue l) any_meta = Ok (VQueue l, []) /\ send (VQueue left) any_meta = Ok (VQueue [], []) /\ l <> [].
Proof. exists [VInt 1]. split; [vm_compute; reflexivity|]. split; [vm_compute; reflexivity|discriminate]. Qed.
Print Assumptions C76_again_refuted.
(* A list given the tag for stacks without the metadata cannot be sent. *)
Theorem C76_tagged_refuted : exists l, serialize None (fun _ => []) sending [] 9 (VTagged (lit "STK") (VList l)) any_meta = Err AttributeError.
Proof. exists [VInt 1]. vm_compute. reflexivity. Qed.
Print Assumptions C76_tagged_refuted.
