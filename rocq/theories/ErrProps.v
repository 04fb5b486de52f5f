(* C75: what the errors say. *)
From Verif Require Import Base BaseProofs Lit NumModel TextModel XmlModel WsmanModel ShellModel FragModel MsgModel UtilModel TransModel PoolModel PoolSpec PoolToy ErrModel ErrSpec ErrProofs.

(* ---- transport errors: the text tells the code and the content ---- *)
Theorem C75_transport : forall c t c' t', transport_message c t = transport_message c' t' -> c = c' /\ t = t'.
Proof. exact transport_told. Qed.
Print Assumptions C75_transport.
Example C75_transport_case : transport_message 503 (lit "busy') Code: 1") = lit "Bad HTTP response returned from the server. Code: 503, Content: 'busy') Code: 1'".
Proof. reflexivity. Qed.

(* ---- faults: each detail is there; without commas in them the text tells all ---- *)
Theorem C75_fault : forall f,
  (forall label t x, In (label, t) (told_by f) -> given t = Some x -> within (label ++ x) (fault_message f)) /\
  ((forall label t, In (label, t) (told_by f) -> given t = None) -> fault_message f = lit "Received a WSManFault message. (No details returned by the server)").
Proof. exact (fun f => conj (fault_tells f) (fault_empty f)). Qed.
Print Assumptions C75_fault.
Theorem C75_fault_told_partial : forall f f',
  (forall label x, In (label, Some x) (told_by f) -> ~ In 44%N x) -> (forall label x, In (label, Some x) (told_by f') -> ~ In 44%N x) ->
  fault_message f = fault_message f' ->
  map (fun p => (fst p, given (snd p))) (told_by f) = map (fun p => (fst p, given (snd p))) (told_by f').
Proof. exact fault_determined. Qed.
Print Assumptions C75_fault_told_partial.
Example C75_fault_case :
  let f := {| f_code := CInt 5; f_machine := Some (lit "h"); f_reason := Some (lit "no"); f_provider := None; f_path := None; f_pfault := Some [] |} in
  fault_message f = lit "Received a WSManFault message. (Code: 5, Machine: h, Reason: no)" /\
  forall label x, In (label, Some x) (told_by f) -> ~ In 44%N x.
Proof.
  split; [reflexivity|]. intros label x H. unfold told_by in H. cbn [In] in H.
  repeat (destruct H as [H|H]; [apply (f_equal snd) in H; cbn [snd] in H; first [discriminate H | apply Some_inj in H; subst x; vm_compute; intuition discriminate]|]). destruct H.
Qed.
(* with commas it does not: a reason may read as a reason and a provider *)
Theorem C75_fault_told_refuted : exists f f', fault_message f = fault_message f' /\ f_provider f <> f_provider f'.
Proof.
  exists {| f_code := CNone; f_machine := None; f_reason := Some (lit "denied, Provider: x"); f_provider := None; f_path := None; f_pfault := None |},
         {| f_code := CNone; f_machine := None; f_reason := Some (lit "denied"); f_provider := Some (lit "x"); f_path := None; f_pfault := None |}.
  split; [vm_compute; reflexivity|discriminate].
Qed.
Print Assumptions C75_fault_told_refuted.

(* ---- states: the numbers and the names are those of the protocol ---- *)
Theorem C75_numbers :
  [rs_before_open; rs_opening; rs_opened; rs_closed; rs_closing; rs_broken; rs_negotiation_sent; rs_negotiation_succeeded; rs_connecting; rs_disconnected] = map Z.of_nat (seq 0 10) /\
  [pl_not_started; pl_running; pl_stopping; pl_stopped; pl_completed; pl_failed; pl_disconnected] = map Z.of_nat (seq 0 7).
Proof. split; reflexivity. Qed.
Print Assumptions C75_numbers.
Theorem C75_names : forall z,
  state_text pool_texts z = match z with Zneg _ => Err KeyError | _ => match nth_error pool_state_names (Z.to_nat z) with Some s => Ok (lit s) | None => Err KeyError end end /\
  state_text pipeline_texts z = match z with Zneg _ => Err KeyError | _ => match nth_error pipeline_state_names (Z.to_nat z) with Some s => Ok (lit s) | None => Err KeyError end end.
Proof. exact names_told. Qed.
Print Assumptions C75_names.

(* An operation that is refused for the state that a pool or a pipeline is in says so
   in a text that names the action, the state and the states it could be done in:
   in none of those would it have been refused.  No other state, states or action
   give the text. *)
Theorem C75_refusal : forall Obj Cmd HS RK (E : env Obj Cmd HS RK) k r w e a name,
  refusal k (current k r w) = Some (e, a) -> state_text (texts_of k) (current k r w) = Ok name ->
  refused E k r w /\ ~ In (current k r w) e /\ (forall s, In s e -> refusal k s = None) /\
  exists m, state_message (texts_of k) (current k r w) e a = Ok m /\ within (quoted a) m /\ within (quoted name) m /\
    forall s t, In s e -> state_text (texts_of k) s = Ok t -> within t m.
Proof.
  exact (fun _ _ _ _ E k r w e a name H N1 => conj (refusal_refused E k r w (e, a) H) (conj (proj1 (expected_accepted k _ e a H))
    (conj (proj2 (expected_accepted k _ e a H)) (refusal_message k _ e a name H N1)))).
Qed.
Print Assumptions C75_refusal.
Theorem C75_state_told : forall texts c e a c' e' a' m, texts = pool_texts \/ texts = pipeline_texts -> ~ In 39%N a -> ~ In 39%N a' ->
  state_message texts c e a = Ok m -> state_message texts c' e' a' = Ok m -> c = c' /\ e = e' /\ a = a'.
Proof. exact state_told. Qed.
Print Assumptions C75_state_told.
(* Where an operation that may have nothing to do is not refused, either it is in a
   state that the refusals name or it does nothing at all. *)
Theorem C75_accepted : forall Obj Cmd HS RK (E : env Obj Cmd HS RK) r (w : world Obj Cmd HS RK) k,
  In k [KOpen; KConnect; KDisconnect; KReset; KStop; KClose] -> refusal k (current k r w) = None ->
  (exists e a st, refusal k st = Some (e, a) /\ In (current k r w) e) \/
  match k with
  | KOpen => forall fuel a, pool_open E fuel a w = (Ret tt, w)
  | KConnect => pool_connect E w = (Ret tt, w)
  | KDisconnect => pool_disconnect E w = (Ret tt, w)
  | KStop => ps_stop E r w = (Ret tt, w)
  | KClose => ps_close E r w = (Ret tt, w)
  | _ => False
  end.
Proof. exact @accepted. Qed.
Print Assumptions C75_accepted.
Example C75_refusal_case :
  let w := toy_run [opened_msgs] 1000 [PoolOpen None; PoolClose] in
  rp_state (w_pool w) = rs_closed /\ refusal KReset rs_closed = Some ([rs_before_open; rs_opened], lit "reset RunspacePool state") /\
  state_message pool_texts rs_closed [rs_before_open; rs_opened] (lit "reset RunspacePool state") =
    Ok (lit "Cannot 'reset RunspacePool state' on the current state 'Closed', expecting state(s): 'BeforeOpen, Opened'").
Proof. vm_compute. repeat split. Qed.

(* A state that the protocol does not have, which a server may say all the same, has
   no name: then asking the error for its text is itself a KeyError. *)
Theorem C75_unknown_state_refuted : exists k st e a, refusal k st = Some (e, a) /\ state_message (texts_of k) st e a = Err KeyError.
Proof. exists KOpen, 10%Z, [rs_before_open], (lit "open a new Runspace Pool"). split; vm_compute; reflexivity. Qed.
Print Assumptions C75_unknown_state_refuted.
