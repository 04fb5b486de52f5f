(* C23, C69: waiting for a pipeline comes back once the server has said that it
   runs no more.  Of calls to the host only those that the host has no answer to:
   the others, and messages of the pool, are the business of C25 and
   C23_collects_partial. *)
From Verif Require Import Base BaseProofs Lit NumModel TextModel Utf8Model MsgModel MsgSpec XmlModel XtModel WsmanModel WsmanSpec ShellModel ShellSpec FragModel FragSpec SerModel SerClasses SendClasses WireModel WireSpec ObjModel StartModel TellModel PoolModel PoolSpec PoolProofs9 PoolToy LibModel RdSpec HearSpec HearProps EndSpec EndProofs2 EndProofs3 TellProps.
From Verif Require XgSpec XgProofs7 WsmanProofs.
From Coq Require Import Permutation.
Local Open Scope list_scope.

(* If the answers carry reports and calls without answer, in whatever pieces, and the last state they
   say is not Running, waiting returns: after at most as many requests as there
   are answers, which it has got one by one, and with the pipeline not running. *)
Theorem C23_returns : forall Obj Cmd HS RK (E : env Obj Cmd HS RK) n r w answers ss ts ws ms,
  r < length (w_heap w) -> ps_id (the_ps r w) <> [] ->
  dict_get str_eqb (ps_id (the_ps r w)) (rp_pipelines (w_pool w)) = Some r -> rp_exchange (w_pool w) = None ->
  in_turn (ev_srv E (w_disabled w)) (w_hist w) (ps_command_id (the_ps r w)) answers ->
  Forall2 says answers ss -> Forall only_stdout ss ->
  NoDup (map t_oid ts) -> Forall (fun t => t_pieces t <> []) ts ->
  (forall t, In t ts -> dict_get Z.eqb (t_oid t) (rp_receiver (w_pool w)) = None) ->
  interleave (map stream ts) (concat ws) -> Forall2 word_wire ws (arrived ss) ->
  mapM (message_unpack (ev_codec E (rp_cipher (w_pool w)))) (concat (map completes ws)) = Ok ms ->
  Forall (asks_nothing E) ms ->
  final_state E (ps_state (the_ps r w)) ms <> pl_running -> length answers <= n ->
  exists k out w' qs, k <= length answers /\ end_invoke E n r w = (Ret out, w') /\ requests w w' qs /\ map snd qs = firstn k answers /\
    Forall (fun e => q_op (fst e) = OpReceive) qs /\ ps_state (the_ps r w') <> pl_running.
Proof.
  intros Obj Cmd HS RK E n r w answers ss ts ws ms L I1 G X T Sa Fo N Np Nr Il Fw Mu Fr Fin Ln.
  destruct (returns E n r w answers ss ts ws ms (conj L (conj I1 (conj G X))) T Sa Fo N Np Nr Il Fw Mu Fr Fin Ln) as (mss & k & out & w' & qs & _ & _ & Lk & He & Q & Ms & Fq & _ & _ & Ns).
  exists k, out, w', qs. auto 10.
Qed.
Print Assumptions C23_returns.

(* If Running is all that is said before the last answer, nothing is left behind:
   every answer is taken, and the pipeline has what every message carries. *)
Theorem C23_ends : forall Obj Cmd HS RK (E : env Obj Cmd HS RK) n r w answers ss state rc cs ts ws wl ms0 ms1,
  r < length (w_heap w) -> ps_id (the_ps r w) <> [] ->
  dict_get str_eqb (ps_id (the_ps r w)) (rp_pipelines (w_pool w)) = Some r -> rp_exchange (w_pool w) = None ->
  honest (ev_codec E (rp_cipher (w_pool w))) -> ps_state (the_ps r w) = pl_running ->
  in_turn (ev_srv E (w_disabled w)) (w_hist w) (ps_command_id (the_ps r w)) answers ->
  Forall2 says answers (ss ++ [Said state rc cs]) -> Forall only_stdout (ss ++ [Said state rc cs]) ->
  NoDup (map t_oid ts) -> Forall (fun t => t_pieces t <> []) ts ->
  (forall t, In t ts -> dict_get Z.eqb (t_oid t) (rp_receiver (w_pool w)) = None) ->
  interleave (map stream ts) (concat (ws ++ [wl])) -> Forall2 word_wire (ws ++ [wl]) (arrived (ss ++ [Said state rc cs])) ->
  mapM (message_unpack (ev_codec E (rp_cipher (w_pool w)))) (concat (map completes ws)) = Ok ms0 ->
  mapM (message_unpack (ev_codec E (rp_cipher (w_pool w)))) (completes wl) = Ok ms1 ->
  Forall (asks_nothing E) (ms0 ++ ms1) ->
  Forall (fun m => forall o, carries PIPELINE_STATE m o -> fst (ev_pipe_state E o) = pl_running) ms0 ->
  final_state E pl_running ms1 <> pl_running -> length answers <= n ->
  exists out w' qs, end_invoke E n r w = (Ret out, w') /\ requests w w' qs /\ map snd qs = answers /\
    (forall q a, In (q, a) qs -> q_op q = OpReceive /\ q_body q = Some (receive_body (lit "stdout") (ps_command_id (the_ps r w)))) /\
    Permutation (concat (map completes (ws ++ [wl]))) (map t_msg ts) /\
    out = ps_output (the_ps r w) ++ objects PIPELINE_OUTPUT (ms0 ++ ms1) /\ ps_output (the_ps r w') = out /\
    attended E (the_ps r w) (the_ps r w') (ms0 ++ ms1).
Proof.
  intros Obj Cmd HS RK E n r w answers ss state rc cs ts ws wl ms0 ms1 L I1 G X Hc Sr T Sa Fo N Np Nr Il Fw M0 M1 Fr Fs Fin Ln.
  destruct (ends E n r w answers ss state rc cs ts ws wl ms0 ms1 (conj L (conj I1 (conj G X))) Hc Sr T Sa Fo N Np Nr Il Fw M0 M1 Fr Fs Fin Ln) as (out & w' & qs & l & He & Q & _ & Ms & _ & _ & A & B & C & D & F).
  exists out, w', qs. auto 12.
Qed.
Print Assumptions C23_ends.

(* The same with the library's own reading, from the characters of the messages: the
   pipeline comes back with what the server said, and in the state it said last. *)
Theorem C69_ends_partial : forall HS RK (x : outside HS RK) fuel heap hs n r (w : world graph (command value) HS RK) answers ss state rc cs ts ws wl items0 items1 zs0 zs1,
  let E := library_env x fuel heap hs in
  let ci := option_map (x_cipher x) (rp_cipher (w_pool w)) in
  let items := items0 ++ items1 in
  r < length (w_heap w) -> ps_id (the_ps r w) <> [] ->
  dict_get str_eqb (ps_id (the_ps r w)) (rp_pipelines (w_pool w)) = Some r -> rp_exchange (w_pool w) = None ->
  ps_state (the_ps r w) = pl_running ->
  in_turn (x_srv x (w_disabled w)) (w_hist w) (ps_command_id (the_ps r w)) answers ->
  Forall2 says answers (ss ++ [Said state rc cs]) -> Forall only_stdout (ss ++ [Said state rc cs]) ->
  NoDup (map t_oid ts) -> Forall (fun t => t_pieces t <> []) ts ->
  (forall t, In t ts -> dict_get Z.eqb (t_oid t) (rp_receiver (w_pool w)) = None) ->
  interleave (map stream ts) (concat (ws ++ [wl])) -> Forall2 word_wire (ws ++ [wl]) (arrived (ss ++ [Said state rc cs])) ->
  Forall2 written items0 (concat (map completes ws)) -> Forall2 written items1 (completes wl) ->
  Forall (fit ci (x_float x)) items -> Forall (fun e => In (fst e) reports_of_a_pipeline) items ->
  Forall2 (fun e => says_state (snd e)) (of_type PIPELINE_STATE items0) zs0 -> Forall (fun z => z = pl_running) zs0 ->
  Forall2 (fun e => says_state (snd e)) (of_type PIPELINE_STATE items1) zs1 -> last zs1 pl_running <> pl_running ->
  length answers <= n ->
  exists out w' qs, end_invoke E n r w = (Ret out, w') /\ requests w w' qs /\ map snd qs = answers /\
    (forall q a, In (q, a) qs -> q_op q = OpReceive /\ q_body q = Some (receive_body (lit "stdout") (ps_command_id (the_ps r w)))) /\
    Permutation (concat (map completes (ws ++ [wl]))) (map t_msg ts) /\
    let p := the_ps r w in let p' := the_ps r w' in
    ps_output p' = out /\ gained ci (x_float x) PIPELINE_OUTPUT items (ps_output p) out /\
    gained_errors ci (x_float x) items (ps_error p) (ps_error p') /\
    gained ci (x_float x) DEBUG_RECORD items (ps_debug p) (ps_debug p') /\
    gained ci (x_float x) VERBOSE_RECORD items (ps_verbose p) (ps_verbose p') /\
    gained ci (x_float x) WARNING_RECORD items (ps_warning p) (ps_warning p') /\
    gained ci (x_float x) PROGRESS_RECORD items (ps_progress p) (ps_progress p') /\
    gained ci (x_float x) INFORMATION_RECORD items (ps_information p) (ps_information p') /\
    ps_state p' = last zs1 pl_running /\ ps_had_errors p' = (ps_had_errors p || existsb (Z.eqb pl_failed) zs1)%bool.
Proof. intros HS RK x. exact (ended_with x). Qed.
Print Assumptions C69_ends_partial.

(* ---- a case: the server of C69_case, whose second answer is a timeout ---- *)
Definition h_answers : list wresult := [PoolToy.said_data [nth 0 h_chunks []]; said_late; PoolToy.said_data [nth 1 h_chunks []]].
Lemma scripted_receives all h cid answers : skipn (length (filter (fun e => match q_op (fst e) with OpReceive => true | _ => false end) h)) all = answers ->
  in_turn (scripted all false) h cid answers.
Proof.
  intros Es qs q a F _ O _ Nt. unfold scripted. rewrite O, filter_app, app_length.
  replace (length (filter (fun e => match q_op (fst e) with OpReceive => true | _ => false end) qs)) with (length qs).
  2: { clear -F. induction F as [|e qs H F IH]; [reflexivity|]. cbn [filter]. rewrite H. cbn [length]. f_equal. exact IH. }
  rewrite <- Es in Nt. assert (K : forall k (l : list wresult), nth_error (skipn k l) (length qs) = Some a -> nth (k + length qs) l said_late = a).
  { clear. induction k as [|k IH]; intros l H; [exact (nth_error_nth l (length qs) said_late H)|]. destruct l as [|b l]; [destruct (length qs); discriminate H|]. exact (IH l H). }
  apply K. exact Nt.
Qed.
Example C69_ends_case :
  let w := h_begun in
  (0 < length (w_heap w) /\ ps_id (the_ps 0 w) <> [] /\ dict_get str_eqb (ps_id (the_ps 0 w)) (rp_pipelines (w_pool w)) = Some 0 /\ rp_exchange (w_pool w) = None /\ rp_cipher (w_pool w) = None /\ ps_state (the_ps 0 w) = pl_running) /\
  in_turn (x_srv h_outside (w_disabled w)) (w_hist w) (ps_command_id (the_ps 0 w)) h_answers /\
  (exists ss state rc cs, h_said = ss ++ [Said state rc cs]) /\ Forall2 says h_answers h_said /\ Forall only_stdout h_said /\
  (exists ws wl, h_words = ws ++ [wl] /\ Forall2 written [] (concat (map completes ws)) /\ Forall2 written h_items (completes wl)) /\
  (NoDup (map t_oid h_transits) /\ Forall (fun t => t_pieces t <> []) h_transits /\ (forall t, In t h_transits -> dict_get Z.eqb (t_oid t) (rp_receiver (w_pool w)) = None) /\
   interleave (map stream h_transits) (concat h_words) /\ Forall2 word_wire h_words (arrived h_said)) /\
  (Forall (fit None (fun s => Ok s)) h_items /\ Forall (fun e => In (fst e) reports_of_a_pipeline) h_items /\ Forall2 (fun e => says_state (snd e)) (of_type PIPELINE_STATE h_items) [5%Z] /\ last [5%Z] pl_running <> pl_running) /\
  length h_answers <= 3 /\ (exists out w', end_invoke h_env 3 0 w = (Ret out, w') /\ length out = 1 /\ ps_state (the_ps 0 w') = 5%Z).
Proof.
  cbv zeta. destruct C69_case as ((A1 & A2 & A3 & A4 & A5) & _ & _ & B & C1 & C2 & C3). cbv zeta in *.
  split; [split; [exact A1|]; split; [exact A2|]; split; [exact A3|]; split; [exact A4|]; split; [exact A5|]; vm_compute; reflexivity|].
  split. { change (w_disabled h_begun) with false. change (x_srv h_outside) with (scripted h_script). apply scripted_receives. vm_compute. reflexivity. }
  split. { exists [Said None None [(lit "stdout", nth 0 h_chunks [])]; SaidNothing], None, None, [(lit "stdout", nth 1 h_chunks [])]. reflexivity. }
  split. { unfold h_answers, h_said. constructor; [apply h_spoken, bytes_computed; vm_compute; reflexivity|]. constructor; [eexists; split; reflexivity|]. constructor; [apply h_spoken, bytes_computed; vm_compute; reflexivity|constructor]. }
  split. { unfold h_said. constructor; [constructor; [reflexivity|constructor]|]. constructor; [exact Logic.I|]. constructor; [constructor; [reflexivity|constructor]|constructor]. }
  split. { exists [nth 0 h_words []], (nth 1 h_words []). split; [reflexivity|]. split; [constructor|].
    replace (completes (nth 1 h_words [])) with (map h_bytes h_items) by (vm_compute; reflexivity). cbn [map h_items]. constructor; [apply h_written; left; reflexivity|]. constructor; [apply h_written; right; left; reflexivity|constructor]. }
  split; [exact B|]. split. { split; [exact C2|]. split; [repeat constructor; cbn; tauto|]. split; [exact C3|discriminate]. }
  split; [cbn; repeat constructor|]. eexists. eexists. split; [vm_compute; reflexivity|]. split; vm_compute; reflexivity.
Qed.

(* ---- a case for the first two: output cut in two over two answers, a call of a host
   method that has no answer, the state, and a timeout between ---- *)
Definition et_transits : list transit := Eval vm_compute in
  let c := srv_msg PIPELINE_OUTPUT (lit "some output") in [mkTransit 3 [firstn 20 c; skipn 20 c]; mkTransit 4 [srv_msg PIPELINE_HOST_CALL [7; 2]%N]; mkTransit 5 [srv_msg PIPELINE_STATE [4%N]]].
Definition et_a := nth 0 et_transits (mkTransit 0 []).
Definition et_b := nth 1 et_transits (mkTransit 0 []).
Definition et_c := nth 2 et_transits (mkTransit 0 []).
Definition et_first : list word := [[(et_a, 0)]].
Definition et_last : word := [(et_a, 1); (et_b, 0); (et_c, 0)].
Definition et_chunks : list bytes := Eval vm_compute in map h_wire (et_first ++ [et_last]).
Definition et_answers : list wresult := [PoolToy.said_data [nth 0 et_chunks []]; said_late; PoolToy.said_data [nth 1 et_chunks []]].
Definition et_said : list said := [Said None None [(lit "stdout", nth 0 et_chunks [])]; SaidNothing].
Definition et_env : env tobj N nat N := toy_env (scripted (opened_msgs :: et_answers)).
Definition et_begun : world tobj N nat N := Eval vm_compute in toy_run (opened_msgs :: et_answers) 1000 [PoolOpen None; Create pid1; AddCommand 0 7%N; Begin 0 (no_args None)].
Example C23_ends_case :
  let w := et_begun in
  (0 < length (w_heap w) /\ ps_id (the_ps 0 w) <> [] /\ dict_get str_eqb (ps_id (the_ps 0 w)) (rp_pipelines (w_pool w)) = Some 0 /\ rp_exchange (w_pool w) = None /\ ps_state (the_ps 0 w) = pl_running) /\
  in_turn (ev_srv et_env (w_disabled w)) (w_hist w) (ps_command_id (the_ps 0 w)) et_answers /\
  Forall2 says et_answers (et_said ++ [Said None None [(lit "stdout", nth 1 et_chunks [])]]) /\ Forall only_stdout (et_said ++ [Said None None [(lit "stdout", nth 1 et_chunks [])]]) /\
  NoDup (map t_oid et_transits) /\ Forall (fun t => t_pieces t <> []) et_transits /\ (forall t, In t et_transits -> dict_get Z.eqb (t_oid t) (rp_receiver (w_pool w)) = None) /\
  interleave (map stream et_transits) (concat (et_first ++ [et_last])) /\ Forall2 word_wire (et_first ++ [et_last]) (arrived (et_said ++ [Said None None [(lit "stdout", nth 1 et_chunks [])]])) /\
  (exists ms1, mapM (message_unpack toy_codec) (concat (map completes et_first)) = Ok [] /\ mapM (message_unpack toy_codec) (completes et_last) = Ok ms1 /\ length ms1 = 3 /\
     Forall (asks_nothing et_env) ms1 /\ final_state et_env pl_running ms1 <> pl_running) /\
  (exists out w', end_invoke et_env 3 0 w = (Ret out, w') /\ length out = 1 /\ ps_state (the_ps 0 w') = 4%Z).
Proof.
  cbv zeta. split; [split; [apply Nat.ltb_lt; vm_compute; reflexivity|]; split; [discriminate|]; repeat split; vm_compute; reflexivity|].
  split. { change (w_disabled et_begun) with false. change (ev_srv et_env) with (scripted (opened_msgs :: et_answers)). apply scripted_receives. vm_compute. reflexivity. }
  split. { unfold et_answers, et_said. cbn [app]. constructor; [apply h_spoken, bytes_computed; vm_compute; reflexivity|]. constructor; [eexists; split; reflexivity|]. constructor; [apply h_spoken, bytes_computed; vm_compute; reflexivity|constructor]. }
  split. { unfold et_said. cbn [app]. constructor; [constructor; [reflexivity|constructor]|]. constructor; [exact Logic.I|]. constructor; [constructor; [reflexivity|constructor]|constructor]. }
  split. { cbn [map et_transits t_oid]. constructor; [intros [H|[H|[]]]; discriminate H|]. constructor; [intros [H|[]]; discriminate H|]. constructor; [intros []|constructor]. }
  split. { constructor; [discriminate|]. constructor; [discriminate|]. constructor; [discriminate|constructor]. }
  split. { intros t [<-|[<-|[<-|[]]]]; vm_compute; reflexivity. }
  split. { change (map stream et_transits) with [[(et_a, 0); (et_a, 1)]; [(et_b, 0)]; [(et_c, 0)]]. change (concat (et_first ++ [et_last])) with [(et_a, 0); (et_a, 1); (et_b, 0); (et_c, 0)].
    apply (il_cons []). apply (il_cons []). apply (il_cons [[]]). apply (il_cons [[]; []]). constructor. repeat constructor. }
  split. { change (arrived (et_said ++ [Said None None [(lit "stdout", nth 1 et_chunks [])]])) with [nth 0 et_chunks [] ++ []; nth 1 et_chunks [] ++ []].
    unfold et_first. cbn [app]. constructor; [|constructor; [|constructor]]; (eexists; split; [vm_compute; reflexivity|]); vm_compute; reflexivity. }
  split. { eexists. split; [vm_compute; reflexivity|]. split; [vm_compute; reflexivity|]. split; [reflexivity|]. split; [|vm_compute; discriminate].
    constructor; [left; left; reflexivity|]. constructor; [|constructor; [left; right; left; reflexivity|constructor]].
    right. split; [reflexivity|]. intros o H. cbn in H. apply Some_inj in H. subst o. do 3 eexists. split; [vm_compute; reflexivity|]. intros st pid. reflexivity. }
  eexists. eexists. split; [vm_compute; reflexivity|]. split; vm_compute; reflexivity.
Qed.
