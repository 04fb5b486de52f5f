(* Property theorems C78. *)
From Verif Require Import Base BaseProofs Lit NumModel TextModel XmlModel WsmanModel ShellModel ShellSpec FragModel FragSpec MsgModel UtilModel TransModel PoolModel PoolSpec ApartSpec ApartProofs PoolToy.
Require Import Lia ZifyNat.

(* ---- C78 ---- *)
(* Whatever is called on the pool and on other pipelines, and whatever the server
   answers, a pipeline stays exactly as it was: its state, its output, its
   records, its commands.  Only disconnecting the pool is left out here. *)
Theorem C78_apart : forall Obj Cmd HS RK (E : env Obj Cmd HS RK) l later k w0, rp_pipelines (w_pool w0) = [] ->
  k < length (w_heap (run_ops E l w0)) ->
  (forall a fuel o b, later = a ++ (fuel, o) :: b -> o <> PoolDisconnect /\
     match about o with
     | OfPool => True
     | OfPipeline r => r < length (w_heap (run_ops E (l ++ a) w0)) /\ ps_id (the_ps r (run_ops E (l ++ a) w0)) <> ps_id (the_ps k (run_ops E (l ++ a) w0))
     | OfNew id => id <> ps_id (the_ps k (run_ops E (l ++ a) w0))
     end) ->
  the_ps k (run_ops E (l ++ later) w0) = the_ps k (run_ops E l w0).
Proof. exact @reached_apart. Qed.
Print Assumptions C78_apart.

(* disconnecting the pool changes nothing of a pipeline but its state *)
Theorem C78_disconnect : forall Obj Cmd HS RK (E : env Obj Cmd HS RK) k w,
  the_ps k (snd (pool_disconnect E w)) = the_ps k w \/ the_ps k (snd (pool_disconnect E w)) = set_ps_state pl_disconnected (the_ps k w).
Proof. exact @disconnect_marks. Qed.
Print Assumptions C78_disconnect.

(* A case: two pipelines run; polling, ending and closing the second leaves the
   first running with the output it had. *)
Definition both_begun : list (nat * op (Obj := tobj) (Cmd := N)) :=
  map (fun o => (20, o)) [PoolOpen None; Create pid1; Create pid2; AddCommand 0 65%N; AddCommand 1 66%N; Begin 0 (no_args None); Begin 1 (no_args None); Poll 0 None].
Definition second_used : list (nat * op (Obj := tobj) (Cmd := N)) := map (fun o => (20, o)) [Poll 1 None; End 1; Close 1; Available].
Definition two_answers : list wresult :=
  [opened_msgs; said_data [whole 3 PIPELINE_OUTPUT (lit "first")]; said_data [whole 4 PIPELINE_OUTPUT (lit "second")];
   said_data [whole 5 ERROR_RECORD (lit "bad") ++ whole 6 PIPELINE_STATE [4%N]]; said_data [whole 7 RUNSPACE_AVAILABILITY [1%N; 5%N]]].
Example C78_case : let E := toy_env (scripted two_answers) in let w := run_ops E both_begun (new_world 1000) in
  let w' := run_ops E (both_begun ++ second_used) (new_world 1000) in
  (forall a fuel o b, second_used = a ++ (fuel, o) :: b -> o <> PoolDisconnect /\ elsewhere 0 o (run_ops E (both_begun ++ a) (new_world 1000))) /\
  (map snd (ps_output (the_ps 0 w)) = [lit "first"] /\ ps_state (the_ps 0 w) = pl_running /\ the_ps 0 w' = the_ps 0 w) /\
  (map snd (ps_output (the_ps 1 w')) = [lit "second"] /\ map snd (ps_error (the_ps 1 w')) = [lit "bad"] /\ ps_state (the_ps 1 w') = pl_completed).
Proof.
  split; [|vm_compute; repeat split; reflexivity].
  intros a fuel o b H. unfold second_used in H.
  destruct a as [|x1 a]; [injection H as <- <- <-; split; [discriminate|split; [vm_compute; lia|vm_compute; discriminate]]|].
  destruct a as [|x2 a]; [injection H as <- <- <- <-; split; [discriminate|split; [vm_compute; lia|vm_compute; discriminate]]|].
  destruct a as [|x3 a]; [injection H as <- <- <- <- <-; split; [discriminate|split; [vm_compute; lia|vm_compute; discriminate]]|].
  destruct a as [|x4 a]; [injection H as <- <- <- <- <- <-; split; [discriminate|exact I]|].
  cbn in H. injection H as _ _ _ _ H. destruct a; discriminate H.
Qed.

(* Finding: what a message says of the pipeline it is for is not looked at.  An
   output for the second pipeline that comes with an answer to the poll of the
   first is taken for output of the first. *)
Definition pid2_bytes : list N := repeat 0%N 15 ++ [178%N].
Definition for_second (t : list N) : message tobj := mkMsg dest_client PIPELINE_OUTPUT (repeat 0%N 16) pid2_bytes (DObj PIPELINE_OUTPUT (None, t)).
Definition for_second_block (t : list N) : bytes :=
  match message_pack toy_codec (for_second t) with
  | Ok b => match frag_pack (mkFrag 3 0 b true true) with Ok f => f | Err _ => [] end
  | Err _ => [] end.
Theorem C78_pipeline_id_refuted : exists answers (w w' : world tobj N nat N),
  answers = [opened_msgs; said_data [for_second_block (lit "for the second")]] /\
  guid_str (m_pid (for_second (lit "for the second"))) = ps_id (the_ps 1 w) /\ ps_id (the_ps 0 w) <> ps_id (the_ps 1 w) /\
  w = toy_run answers 1000 [PoolOpen None; Create pid1; Create pid2; AddCommand 0 65%N; AddCommand 1 66%N; Begin 0 (no_args None); Begin 1 (no_args None)] /\
  poll_invoke (toy_env (scripted answers)) 0 None w = (Ret tt, w') /\
  map snd (ps_output (the_ps 0 w')) = [lit "for the second"] /\ ps_output (the_ps 1 w') = [].
Proof.
  set (answers := [opened_msgs; said_data [for_second_block (lit "for the second")]]).
  set (w := toy_run answers 1000 [PoolOpen None; Create pid1; Create pid2; AddCommand 0 65%N; AddCommand 1 66%N; Begin 0 (no_args None); Begin 1 (no_args None)]).
  exists answers, w, (snd (poll_invoke (toy_env (scripted answers)) 0 None w)).
  split; [reflexivity|]. split; [vm_compute; reflexivity|]. split; [vm_compute; discriminate|]. split; [reflexivity|].
  split; [vm_compute; reflexivity|]. split; vm_compute; reflexivity.
Qed.
Print Assumptions C78_pipeline_id_refuted.

(* Finding: a pipeline whose start the server refused stays in the pool's
   registry; disconnecting the pool makes it a disconnected one and it is
   listed, although the server never had it. *)
Definition refusing (answers : list wresult) (d : bool) (h : history) (q : sreq) : wresult :=
  match q_op q with OpCommand => said_late | _ => scripted answers d h q end.
Theorem C78_refused_start_refuted : exists (w w' : world tobj N nat N) f,
  let E := toy_env (refusing [opened_msgs]) in
  begin_invoke E 0 (no_args None) (run_ops E (map (fun o => (20, o)) [PoolOpen None; Create pid1; AddCommand 0 65%N]) (new_world 1000)) = (Raise (XFault f), w) /\
  ps_state (the_ps 0 w) = pl_not_started /\ pool_disconnect E w = (Ret tt, w') /\
  ps_state (the_ps 0 w') = pl_disconnected /\ create_disconnected w' = (Ret [0], w').
Proof.
  set (E := toy_env (refusing [opened_msgs])).
  set (r := begin_invoke E 0 (no_args None) (run_ops E (map (fun o => (20, o)) [PoolOpen None; Create pid1; AddCommand 0 65%N]) (new_world 1000))).
  exists (snd r), (snd (pool_disconnect E (snd r))), {| f_code := CInt 2150858793; f_machine := None; f_reason := None; f_provider := None; f_path := None; f_pfault := None |}. cbn zeta.
  split; [vm_compute; reflexivity|]. split; [vm_compute; reflexivity|]. split; [vm_compute; reflexivity|]. split; [vm_compute; reflexivity|]. vm_compute; reflexivity.
Qed.
Print Assumptions C78_refused_start_refuted.

(* Finding: a pipeline that has completed and was not closed is made a
   disconnected one too; that it had completed is not known any more. *)
Theorem C78_completed_refuted : exists answers (w w' : world tobj N nat N),
  w = toy_run answers 1000 [PoolOpen None; Create pid1; AddCommand 0 65%N; Begin 0 (no_args None); End 0] /\
  ps_state (the_ps 0 w) = pl_completed /\ pool_disconnect (toy_env (scripted answers)) w = (Ret tt, w') /\
  ps_state (the_ps 0 w') = pl_disconnected /\ create_disconnected w' = (Ret [0], w').
Proof.
  set (answers := [opened_msgs; said_data [whole 5 PIPELINE_STATE [4%N]]]).
  set (w := toy_run answers 1000 [PoolOpen None; Create pid1; AddCommand 0 65%N; Begin 0 (no_args None); End 0]).
  exists answers, w, (snd (pool_disconnect (toy_env (scripted answers)) w)).
  split; [reflexivity|]. split; [vm_compute; reflexivity|]. split; [vm_compute; reflexivity|]. split; [vm_compute; reflexivity|]. vm_compute; reflexivity.
Qed.
Print Assumptions C78_completed_refuted.
