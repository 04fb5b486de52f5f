(* Property theorems C23, C24, C25 and C39. *)
From Verif Require Import Base BaseProofs Lit NumModel TextModel XmlModel WsmanModel ShellModel ShellSpec FragModel FragSpec MsgModel UtilModel TransModel PoolModel PoolSpec PoolProofs PoolProofs2 PoolProofs5 PoolProofs6 PoolProofs7 PoolProofs8 PoolProofs9 PoolProofs11 PoolProofs12 PoolToy MsgSpec.
From Coq Require Import Permutation.

(* ---- C23 ---- *)
(* Collecting the output of a running pipeline known to the pool.  Say the
   answers to the receive requests carry, on stdout, the messages [ts] cut into
   fragments that are interleaved in any way and spread over the answers in any
   way; answers that are operation timeouts carry nothing.  Then the pipeline
   has got every message, in the order in which they became complete: the list
   returned is the objects of the output messages, and each stream has grown by
   the records of its kind.  Full claim: without [undisturbed]; see below. *)
Theorem C23_collects_partial : forall Obj Cmd HS RK (E : env Obj Cmd HS RK) fuel r w w' out,
  r < length (w_heap w) -> ps_id (the_ps r w) <> [] ->
  dict_get str_eqb (ps_id (the_ps r w)) (rp_pipelines (w_pool w)) = Some r -> rp_exchange (w_pool w) = None ->
  honest (ev_codec E (rp_cipher (w_pool w))) ->
  end_invoke E fuel r w = (Ret out, w') ->
  exists qs l, requests w w' qs /\ since w w' l /\
    (forall q a, In (q, a) qs -> q_op q = OpReceive -> q_body q = Some (receive_body (lit "stdout") (ps_command_id (the_ps r w)))) /\
    forall ss ts ws,
      undisturbed qs l ->
      Forall2 says (receives qs) ss ->
      NoDup (map t_oid ts) -> Forall (fun t => t_pieces t <> []) ts ->
      (forall t, In t ts -> dict_get Z.eqb (t_oid t) (rp_receiver (w_pool w)) = None) ->
      interleave (map stream ts) (concat ws) -> Forall2 word_wire ws (arrived ss) ->
      Permutation (concat (map completes ws)) (map t_msg ts) /\
      exists ms, mapM (message_unpack (ev_codec E (rp_cipher (w_pool w)))) (concat (map completes ws)) = Ok ms /\
        out = ps_output (the_ps r w) ++ objects PIPELINE_OUTPUT ms /\ ps_output (the_ps r w') = out /\
        attended E (the_ps r w) (the_ps r w') ms /\ ps_state (the_ps r w') <> pl_running.
Proof.
  exact (fun _ _ _ _ E fuel r w w' out L I G X Hc H => end_collects E fuel r w w' out (conj L (conj I (conj G X))) Hc H).
Qed.
Print Assumptions C23_collects_partial.

(* a message over two answers with a timeout between them, one answer with two
   messages *)
Definition C23_script : list wresult :=
  [opened_msgs; said_late; said_data [part1 10 3 PIPELINE_OUTPUT (lit "one")]; said_late;
   said_data [part2 10 3 PIPELINE_OUTPUT (lit "one") ++ whole 4 WARNING_RECORD (lit "w"); whole 5 ERROR_RECORD (lit "e")];
   said_data [whole 6 PIPELINE_OUTPUT (lit "two"); whole 7 PIPELINE_STATE [4%N]]].
Definition C23_begun : world tobj N nat N := toy_run C23_script 1000 [PoolOpen None; Create pid1; AddCommand 0 65%N; Begin 0 (no_args None)].
Example C23_case :
  let w := C23_begun in
  (length (w_heap w) = 1 /\ ps_id (the_ps 0 w) = pid1 /\ dict_get str_eqb pid1 (rp_pipelines (w_pool w)) = Some 0 /\ rp_exchange (w_pool w) = None /\ ps_state (the_ps 0 w) = pl_running) /\
  let '(r, w') := end_invoke (toy_env (scripted C23_script)) 20 0 w in
  r = Ret [(None, lit "one"); (None, lit "two")] /\ ps_warning (the_ps 0 w') = [(Some WARNING_RECORD, lit "w")] /\
  ps_error (the_ps 0 w') = [(Some ERROR_RECORD, lit "e")] /\ ps_state (the_ps 0 w') = pl_completed /\
  length (w_hist w') = length (w_hist w) + 5 /\ forallb (fun e => match q_op (fst e) with OpSend => false | _ => true end) (w_hist w') = true.
Proof. vm_compute. repeat split. Qed.
Example C23_case_honest : honest toy_codec.
Proof. intros ty t o ty' H T. cbn in H, T. assert (o = (Some ty, t)) as -> by congruence. cbn in T. congruence. Qed.

(* Finding: answering a host call can itself end in an operation timeout; it is
   taken for the timeout of the receive, and the output of that answer is lost. *)
Definition deaf (answers : list wresult) (d : bool) (h : history) (q : sreq) : wresult :=
  match q_op q with OpSend => said_late | _ => scripted answers d h q end.
Theorem C23_send_timeout_refuted : exists answers fuel (w w' : world tobj N nat N) qs,
  end_invoke (toy_env (deaf answers)) fuel 0 w = (Ret [], w') /\ requests w w' qs /\
  (exists a b, receives qs = [a; b] /\
     a = said_data [whole 3 PIPELINE_HOST_CALL [1%N; 1%N]; whole 4 PIPELINE_OUTPUT (lit "lost")] /\
     b = said_data [whole 5 PIPELINE_STATE [4%N]]) /\
  w = run_ops (toy_env (deaf answers)) (map (fun o => (20%nat, o)) [PoolOpen None; Create pid1; AddCommand 0 65%N; Begin 0 (no_args None)]) (new_world 1000).
Proof.
  set (answers := [opened_msgs; said_data [whole 3 PIPELINE_HOST_CALL [1%N; 1%N]; whole 4 PIPELINE_OUTPUT (lit "lost")]; said_data [whole 5 PIPELINE_STATE [4%N]]]).
  set (w := run_ops (toy_env (deaf answers)) (map (fun o => (20%nat, o)) [PoolOpen None; Create pid1; AddCommand 0 65%N; Begin 0 (no_args None)]) (new_world 1000)).
  exists answers, 20, w, (snd (end_invoke (toy_env (deaf answers)) 20 0 w)), (skipn (length (w_hist w)) (w_hist (snd (end_invoke (toy_env (deaf answers)) 20 0 w)))).
  split; [vm_compute; reflexivity|]. split; [vm_compute; reflexivity|]. split; [|reflexivity].
  eexists. eexists. split; [vm_compute; reflexivity|]. split; vm_compute; reflexivity.
Qed.
Print Assumptions C23_send_timeout_refuted.

(* ---- C24 ---- *)
Theorem C24_before_opening : forall Obj Cmd HS RK (E : env Obj Cmd HS RK) fuel v w, rp_state (w_pool w) <> rs_opened ->
  set_min_runspaces E fuel v w = (Ret tt, set_w_pool (set_rp_min (VInt v) (w_pool w)) w) /\
  set_max_runspaces E fuel v w = (Ret tt, set_w_pool (set_rp_max (VInt v) (w_pool w)) w).
Proof. exact (fun _ _ _ _ E fuel v w H => conj (min_before E fuel v w H) (max_before E fuel v w H)). Qed.
Print Assumptions C24_before_opening.

Theorem C24_present_value : forall Obj Cmd HS RK (E : env Obj Cmd HS RK) fuel v w, rp_state (w_pool w) = rs_opened ->
  (rp_min (w_pool w) = VInt v -> set_min_runspaces E fuel v w = (Ret tt, w)) /\
  (rp_max (w_pool w) = VInt v -> set_max_runspaces E fuel v w = (Ret tt, w)).
Proof. exact (fun _ _ _ _ E fuel v w H => conj (min_same E fuel v w H) (max_same E fuel v w H)). Qed.
Print Assumptions C24_present_value.

(* On an opened pool: the setter returns only if the server answered this very
   call with true, having sent one such call; a false answer makes it raise
   InvalidPSRPOperation; and when it raises, the value is unchanged unless the
   server sent initial data meanwhile. *)
Theorem C24_min : forall Obj Cmd HS RK (E : env Obj Cmd HS RK) fuel v w,
  rp_state (w_pool w) = rs_opened -> rval_is (rp_min (w_pool w)) v = false ->
  let ci := rp_ci (w_pool w) in
  let '(x, w') := set_min_runspaces E fuel v w in
  exists l, since w w' l /\
    (x = Ret tt -> rp_min (w_pool w') = VInt v /\ (exists l', l = EOut None (OSetMin v ci) :: l' /\ call_ids l' = []) /\ answers_to E ci l = [VBool true]) /\
    (forall e, x = Raise e -> (forall a more, answers_to E ci l = a :: more -> rfalsy a = true -> e = XExn InvalidPSRPOperation) /\
       (rp_min (w_pool w') = rp_min (w_pool w) \/ exists pl m o, In (EMsg pl m) l /\ PoolSpec.carries RUNSPACEPOOL_INIT_DATA m o)).
Proof. exact @min_settled. Qed.
Print Assumptions C24_min.

(* For the maximum also: unless an answer to another call came meanwhile.  Full
   claim: without that exception; see below. *)
Theorem C24_max_partial : forall Obj Cmd HS RK (E : env Obj Cmd HS RK) fuel v w,
  rp_state (w_pool w) = rs_opened -> rval_is (rp_max (w_pool w)) v = false ->
  let ci := rp_ci (w_pool w) in
  let '(x, w') := set_max_runspaces E fuel v w in
  exists l, since w w' l /\
    (x = Ret tt -> rp_max (w_pool w') = VInt v /\ (exists l', l = EOut None (OSetMax v ci) :: l' /\ call_ids l' = []) /\ answers_to E ci l = [VBool true]) /\
    (forall e, x = Raise e -> (forall a more, answers_to E ci l = a :: more -> rfalsy a = true -> e = XExn InvalidPSRPOperation) /\
       (rp_max (w_pool w') = rp_max (w_pool w) \/ (exists pl m o, In (EMsg pl m) l /\ PoolSpec.carries RUNSPACEPOOL_INIT_DATA m o) \/
        exists pl m o, In (EMsg pl m) l /\ PoolSpec.carries RUNSPACE_AVAILABILITY m o /\ fst (ev_availability E o) <> ci)).
Proof. exact @max_settled. Qed.
Print Assumptions C24_max_partial.

(* over every history no call id is used twice *)
Theorem C24_fresh_ids : forall Obj Cmd HS RK (E : env Obj Cmd HS RK) l w,
  exists new, since w (run_ops E l w) new /\ NoDup (call_ids new) /\ forall ci, In ci (call_ids new) -> (rp_ci (w_pool w) <= ci)%Z.
Proof. exact @ids_fresh. Qed.
Print Assumptions C24_fresh_ids.

Example C24_case :
  let answers := [opened_msgs; said_data [whole 3 RUNSPACE_AVAILABILITY [0%N; 1%N]]; said_data [whole 4 RUNSPACE_AVAILABILITY [1%N; 0%N]]; said_data [whole 5 USER_EVENT [1%N]]; said_data [whole 6 RUNSPACE_AVAILABILITY [2%N; 1%N]]] in
  let w := toy_run answers 1000 [SetMax 8%Z; PoolOpen None; SetMin 3%Z; SetMin 3%Z; SetMax 9%Z; SetMax 5%Z] in
  rp_min (w_pool w) = VInt 3 /\ rp_max (w_pool w) = VInt 5 /\ call_ids (w_log w) = [0; 1; 2]%Z /\
  ops_made w = [OpCreate; OpReceive; OpSend; OpReceive; OpSend; OpReceive; OpSend; OpReceive; OpReceive].
Proof. vm_compute. repeat split. Qed.

(* Finding: asking how many runspaces are available sets the maximum to the
   number available. *)
Theorem C24_available_sets_max_refuted : exists answers,
  let w := toy_run answers 1000 [SetMax 8%Z; PoolOpen None] in
  let w' := toy_run answers 1000 [SetMax 8%Z; PoolOpen None; Available] in
  rp_max (w_pool w) = VInt 8 /\ rp_max (w_pool w') = VInt 7.
Proof. exists [opened_msgs; said_data [whole 3 RUNSPACE_AVAILABILITY [0%N; 7%N]]]. vm_compute. split; reflexivity. Qed.
Print Assumptions C24_available_sets_max_refuted.

(* ---- C25 ---- *)
(* over every history the runs of the host are the calls received, in order *)
Theorem C25_runs_once : forall Obj Cmd HS RK (E : env Obj Cmd HS RK) l w,
  exists new, since w (run_ops E l w) new /\ (ev_host E <> None -> ran new = asked E new) /\ (ev_host E = None -> ran new = []).
Proof. exact @hosts_ops. Qed.
Print Assumptions C25_runs_once.

(* one call: one response with its ids for its pool and pipeline when the host
   gives a value, none otherwise *)
Theorem C25_answers_once : forall Obj Cmd HS RK (E : env Obj Cmd HS RK) o pl run ci mi mp w,
  ev_host E = Some run -> ev_host_call E o = (ci, mi, mp) ->
  let pid := match pl with Some r => Some (ps_id (the_ps r w)) | None => None end in
  let '(r, w') := process_host_call E o pl w in
  let '(answer, hs) := run (w_host w) mi mp pid in
  w_host w' = hs /\
  match answer with
  | Ret (Some mr) =>
      let reply := match pl with Some _ => OPipelineResponse ci mi mr | None => OPoolResponse ci mi mr end in
      match packed E (rp_cipher (w_pool w)) (rp_id (w_pool w)) pid reply with
      | Ok b => match fragment_msg (rp_sender (w_pool w)) b None with
                | Ok (_, fs) =>
                    since w w' [EHost mi mp pl (Ret (Some mr)); EOut pid reply] /\
                    exists qs, requests w w' qs /\
                      Forall2 (fun f e => sends_on (lit "pr") f None (fst e)) (firstn (length qs) fs) qs /\
                      (r = Ret tt -> length qs = length fs)
                | Err e => r = Raise (XExn e) /\ since w w' [EHost mi mp pl (Ret (Some mr))] /\ requests w w' []
                end
      | Err e => r = Raise (XExn e) /\ since w w' [EHost mi mp pl (Ret (Some mr))] /\ requests w w' []
      end
  | Ret None => r = Ret tt /\ since w w' [EHost mi mp pl (Ret None)] /\ requests w w' []
  | Raise x => r = Raise x /\ since w w' [EHost mi mp pl (Raise x)] /\ requests w w' []
  end.
Proof. exact @host_call_answered. Qed.
Print Assumptions C25_answers_once.

(* over every history an answer is only ever sent right after the host was run
   for a call with the same ids and gave that value *)
Theorem C25_only_answers : forall Obj Cmd HS RK (E : env Obj Cmd HS RK) l w,
  exists new, since w (run_ops E l w) new /\
    forall l1 pid o l2 ci mi mr, new = l1 ++ EOut pid o :: l2 ->
      match o with OPoolResponse ci mi mr | OPipelineResponse ci mi mr => Some (ci, mi, mr) | _ => None end = Some (ci, mi, mr) ->
      exists l0 pl m c mp, l1 = l0 ++ [EMsg pl m; EHost mi mp (caller pl m) (Ret (Some mr))] /\
        is_host_call pl m = true /\ carried m = Some c /\ ev_host_call E c = (ci, mi, mp) /\
        o = match caller pl m with Some _ => OPipelineResponse ci mi mr | None => OPoolResponse ci mi mr end.
Proof. exact @prompts_ops. Qed.
Print Assumptions C25_only_answers.

Example C25_case :
  let answers := [opened_msgs; said_data [whole 3 RUNSPACEPOOL_HOST_CALL [7%N; 1%N] ++ whole 4 PIPELINE_HOST_CALL [8%N; 2%N]; whole 5 PIPELINE_HOST_CALL [9%N; 3%N]]] in
  let w := toy_run answers 1000 [PoolOpen None; Create pid1; AddCommand 0 65%N; Begin 0 (no_args None); Poll 0 None] in
  map (fun x => let '(mi, _, p) := x in (mi, p)) (ran (w_log w)) = [(1%Z, None); (2%Z, Some 0); (3%Z, Some 0)] /\
  skipn 3 (sent (w_log w)) = [(None, OPoolResponse 7 1 (None, lit "yes")); (Some pid1, OPipelineResponse 9 3 (None, lit "yes"))] /\
  ops_made w = [OpCreate; OpReceive; OpCommand; OpReceive; OpSend; OpSend].
Proof. vm_compute. repeat split. Qed.

(* ---- C39 ---- *)
Theorem C39_key_sent_once : forall Obj Cmd HS RK (E : env Obj Cmd HS RK) l w,
  exists new, since w (run_ops E l w) new /\ length (public_keys new) <= 1 /\
    (rp_exchange (w_pool w) <> None \/ rp_exchanged (w_pool w) = true -> public_keys new = []).
Proof. exact @key_once. Qed.
Print Assumptions C39_key_sent_once.

(* the key sent is the generated one: its bytes in base 64 are the header, the
   exponent and the modulus, both little endian *)
Theorem C39_blob : forall n e b, (n < 2 ^ 2048)%N -> public_blob n e = Ok b ->
  length b = 276 /\ firstn 16 b = blob_header /\ little_endian (firstn 4 (skipn 16 b)) = e /\ little_endian (skipn 20 b) = n.
Proof. exact public_blob_decodes. Qed.
Print Assumptions C39_blob.
Theorem C39_blob_made : forall n e, (e < 2 ^ 32)%N -> exists b, public_blob n e = Ok b.
Proof. exact public_blob_made. Qed.
Print Assumptions C39_blob_made.

Theorem C39_exchange : forall Obj Cmd HS RK (E : env Obj Cmd HS RK) fuel w w',
  rp_exchange (w_pool w) = None -> rp_exchanged (w_pool w) = false -> exchange_keys E fuel w = (Ret tt, w') ->
  rp_exchanged (w_pool w') = true /\
  exists blob l, let k := ev_keygen E (w_hist w) in
    public_blob (ev_modulus E k) (ev_exponent E k) = Ok blob /\
    since w w' (EOut None (OPublicKey (b64encode blob)) :: l) /\ public_keys l = [].
Proof. exact @exchange_done. Qed.
Print Assumptions C39_exchange.

(* the reply gives the pool a cipher with the decrypted key; with a cipher
   secure strings are serialized (see the theorems of C12) *)
Theorem C39_reply : forall Obj Cmd HS RK (E : env Obj Cmd HS RK) pl m o k b d w,
  PoolSpec.carries ENCRYPTED_SESSION_KEY m o -> rp_exchange (w_pool w) = Some k ->
  b64decode (ev_session_key E o) = Ok b -> ev_decrypt E k (rev (slice_from b 12)) = Ok d ->
  length d = 16 \/ length d = 24 \/ length d = 32 ->
  exists w', handle E pl m w = (Ret tt, w') /\ rp_exchanged (w_pool w') = true /\ rp_exchange (w_pool w') = None /\
    rp_cipher (w_pool w') = Some d /\ w_hist w' = w_hist w.
Proof. exact @key_reply. Qed.
Print Assumptions C39_reply.

Example C39_case :
  let key := map N.of_nat (List.seq 1 32) in
  let answers := [opened_msgs; said_data [whole 9 USER_EVENT [1%N]]; said_data [whole 3 ENCRYPTED_SESSION_KEY (b64encode (repeat 0%N 12 ++ key))]] in
  let w := toy_run answers 1000 [PoolOpen None; ExchangeKeys; ExchangeKeys] in
  rp_cipher (w_pool w) = Some (rev key) /\ length (public_keys (w_log w)) = 1 /\
  ops_made w = [OpCreate; OpReceive; OpSend; OpReceive; OpReceive] /\
  match public_blob (12345 * 1000003) 65537 with Ok b => public_keys (w_log w) = [b64encode b] | Err _ => False end.
Proof. vm_compute. repeat split. Qed.

(* Finding: a request of the server for the key is read and nothing is done. *)
Theorem C39_request_ignored_refuted : exists answers,
  let w := toy_run answers 1000 [PoolOpen None] in
  let w' := snd (receive (toy_env (scripted answers)) None None w) in
  (exists m, w_log w' = w_log w ++ [EMsg None m] /\ m_type m = PUBLIC_KEY_REQUEST) /\ rp_exchange (w_pool w') = None /\ public_keys (w_log w') = [].
Proof. exists [opened_msgs; said_data [whole 3 PUBLIC_KEY_REQUEST []]]. vm_compute. split; [eexists; split; reflexivity|]. split; reflexivity. Qed.
Print Assumptions C39_request_ignored_refuted.
