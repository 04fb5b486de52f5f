(* C73: what the pool waits for, it gets: opening, a change of a limit, a reset and the
   question for free runspaces come back
   once the server has answered.  The world [w1] is the one in which the request was
   taken and the waiting begins: the call with no fuel to wait ends there. *)
From Verif Require Import Base BaseProofs Lit NumModel TextModel MsgModel MsgSpec XmlModel WsmanModel WsmanSpec ShellModel ShellSpec FragModel FragSpec UtilModel UtilSpec TransModel PoolModel PoolSpec PoolToy HearProps EndSpec EndProps WaitSpec WaitProofs.
Require Import Lia ZifyBool ZifyNat ZifyN.
Local Open Scope list_scope.

(* Opening returns once a state was said that is not NegotiationSent, after at most
   as many requests as there are answers, and the pool has the state said last in
   what it has heard. *)
Theorem C73_open_partial : forall Obj Cmd HS RK (E : env Obj Cmd HS RK) n a w w1 answers ss ts ws ms,
  rp_state (w_pool w) = rs_before_open -> pool_open E 0 a w = (Raise (XExn OutOfFuel), w1) -> rp_state (w_pool w1) = rs_negotiation_sent ->
  in_turn (ev_srv E (w_disabled w1)) (w_hist w1) None answers ->
  Forall2 says answers ss -> Forall only_stdout ss -> Forall not_late ss ->
  NoDup (map t_oid ts) -> Forall (fun t => t_pieces t <> []) ts ->
  (forall t, In t ts -> dict_get Z.eqb (t_oid t) (rp_receiver (w_pool w1)) = None) ->
  interleave (map stream ts) (concat ws) -> Forall2 word_wire ws (arrived ss) ->
  mapM (message_unpack (ev_codec E (rp_cipher (w_pool w1)))) (concat (map completes ws)) = Ok ms ->
  Forall (greets E) ms -> pool_said E rs_negotiation_sent ms <> rs_negotiation_sent -> length answers <= n ->
  exists k w' qs heard rest, k <= length answers /\ pool_open E n a w = (Ret tt, w') /\ requests w1 w' qs /\ map snd qs = firstn k answers /\
    ms = heard ++ rest /\ rp_state (w_pool w') = pool_said E rs_negotiation_sent heard /\ rp_state (w_pool w') <> rs_negotiation_sent.
Proof. intros Obj Cmd HS RK E. exact (open_returns E). Qed.
Print Assumptions C73_open_partial.

(* A change of a limit that the server takes returns once the server has said yes,
   and the limit is the one asked for. *)
Theorem C73_min_partial : forall Obj Cmd HS RK (E : env Obj Cmd HS RK) n v w w1 q b answers ss ts ws ms0 m ms1,
  rp_state (w_pool w) = rs_opened -> rval_is (rp_min (w_pool w)) v = false ->
  set_min_runspaces E 0 v w = (Raise (XExn OutOfFuel), w1) -> requests w w1 [(q, WBody b)] ->
  in_turn (ev_srv E (w_disabled w1)) (w_hist w1) None answers ->
  Forall2 says answers ss -> Forall only_stdout ss -> Forall not_late ss ->
  NoDup (map t_oid ts) -> Forall (fun t => t_pieces t <> []) ts ->
  (forall t, In t ts -> dict_get Z.eqb (t_oid t) (rp_receiver (w_pool w1)) = None) ->
  interleave (map stream ts) (concat ws) -> Forall2 word_wire ws (arrived ss) ->
  mapM (message_unpack (ev_codec E (rp_cipher (w_pool w1)))) (concat (map completes ws)) = Ok (ms0 ++ m :: ms1) ->
  Forall remarks ms0 -> confirms E (rp_ci (w_pool w)) m -> Forall remarks ms1 -> length answers <= n ->
  exists k w' qs, k <= length answers /\ set_min_runspaces E n v w = (Ret tt, w') /\ requests w1 w' qs /\ map snd qs = firstn k answers /\ rp_min (w_pool w') = VInt v.
Proof. intros Obj Cmd HS RK E. exact (min_returns E). Qed.
Print Assumptions C73_min_partial.
Theorem C73_max_partial : forall Obj Cmd HS RK (E : env Obj Cmd HS RK) n v w w1 q b answers ss ts ws ms0 m ms1,
  rp_state (w_pool w) = rs_opened -> rval_is (rp_max (w_pool w)) v = false ->
  set_max_runspaces E 0 v w = (Raise (XExn OutOfFuel), w1) -> requests w w1 [(q, WBody b)] ->
  in_turn (ev_srv E (w_disabled w1)) (w_hist w1) None answers ->
  Forall2 says answers ss -> Forall only_stdout ss -> Forall not_late ss ->
  NoDup (map t_oid ts) -> Forall (fun t => t_pieces t <> []) ts ->
  (forall t, In t ts -> dict_get Z.eqb (t_oid t) (rp_receiver (w_pool w1)) = None) ->
  interleave (map stream ts) (concat ws) -> Forall2 word_wire ws (arrived ss) ->
  mapM (message_unpack (ev_codec E (rp_cipher (w_pool w1)))) (concat (map completes ws)) = Ok (ms0 ++ m :: ms1) ->
  Forall remarks ms0 -> confirms E (rp_ci (w_pool w)) m -> Forall remarks ms1 -> length answers <= n ->
  exists k w' qs, k <= length answers /\ set_max_runspaces E n v w = (Ret tt, w') /\ requests w1 w' qs /\ map snd qs = firstn k answers /\ rp_max (w_pool w') = VInt v.
Proof. intros Obj Cmd HS RK E. exact (max_returns E). Qed.
Print Assumptions C73_max_partial.

(* So does a reset of the runspaces. *)
Theorem C73_reset_partial : forall Obj Cmd HS RK (E : env Obj Cmd HS RK) n w w1 q b answers ss ts ws ms0 m ms1,
  rp_state (w_pool w) = rs_opened ->
  reset_runspace_state E 0 w = (Raise (XExn OutOfFuel), w1) -> requests w w1 [(q, WBody b)] ->
  in_turn (ev_srv E (w_disabled w1)) (w_hist w1) None answers ->
  Forall2 says answers ss -> Forall only_stdout ss -> Forall not_late ss ->
  NoDup (map t_oid ts) -> Forall (fun t => t_pieces t <> []) ts ->
  (forall t, In t ts -> dict_get Z.eqb (t_oid t) (rp_receiver (w_pool w1)) = None) ->
  interleave (map stream ts) (concat ws) -> Forall2 word_wire ws (arrived ss) ->
  mapM (message_unpack (ev_codec E (rp_cipher (w_pool w1)))) (concat (map completes ws)) = Ok (ms0 ++ m :: ms1) ->
  Forall remarks ms0 -> confirms E (rp_ci (w_pool w)) m -> Forall remarks ms1 -> length answers <= n ->
  exists k w' qs, k <= length answers /\ reset_runspace_state E n w = (Ret tt, w') /\ requests w1 w' qs /\ map snd qs = firstn k answers.
Proof. intros Obj Cmd HS RK E. exact (reset_returns E). Qed.
Print Assumptions C73_reset_partial.
(* Asking for the number of free runspaces gives the number the server says.  As this
   call receives before it looks, the world after the request is given by the sending
   half of the call. *)
Theorem C73_available_partial : forall Obj Cmd HS RK (E : env Obj Cmd HS RK) n ci z w w1 q b answers ss ts ws ms0 m ms1,
  ask E HAvailable (fun ci => OAvailable ci) w = (Ret ci, w1) -> requests w w1 [(q, WBody b)] ->
  in_turn (ev_srv E (w_disabled w1)) (w_hist w1) None answers ->
  Forall2 says answers ss -> Forall only_stdout ss -> Forall not_late ss ->
  NoDup (map t_oid ts) -> Forall (fun t => t_pieces t <> []) ts ->
  (forall t, In t ts -> dict_get Z.eqb (t_oid t) (rp_receiver (w_pool w1)) = None) ->
  interleave (map stream ts) (concat ws) -> Forall2 word_wire ws (arrived ss) ->
  mapM (message_unpack (ev_codec E (rp_cipher (w_pool w1)))) (concat (map completes ws)) = Ok (ms0 ++ m :: ms1) ->
  Forall remarks ms0 -> counts E ci z m -> Forall remarks ms1 -> length answers <= n ->
  exists k w' qs, k <= length answers /\ get_available_runspaces E n w = (Ret (Some (SValue (VInt z))), w') /\ requests w1 w' qs /\ map snd qs = firstn k answers.
Proof. intros Obj Cmd HS RK E. exact (available_returns E). Qed.
Print Assumptions C73_available_partial.

(* ---- a case: the capability comes in two pieces over two answers, the state with the
   second; then the minimum is set, and the yes comes after an empty answer ---- *)
Definition wt_transits : list transit := Eval vm_compute in
  let c := srv_msg SESSION_CAPABILITY (lit "c") in [mkTransit 1 [firstn 20 c; skipn 20 c]; mkTransit 2 [srv_msg RUNSPACEPOOL_STATE [2%N]]].
Definition wt_a := nth 0 wt_transits (mkTransit 0 []).
Definition wt_b := nth 1 wt_transits (mkTransit 0 []).
Definition wt_words : list word := [[(wt_a, 0)]; [(wt_a, 1); (wt_b, 0)]].
Definition wt_chunks : list bytes := Eval vm_compute in map h_wire wt_words.
Definition wt_yes : transit := Eval vm_compute in mkTransit 3 [srv_msg RUNSPACE_AVAILABILITY [0; 1]%N].
Definition wt_said_yes : bytes := Eval vm_compute in h_wire [(wt_yes, 0)].
Definition wt_opening : list wresult := map (fun c => said_data [c]) wt_chunks.
Definition wt_limit : list wresult := [said_data []; said_data [wt_said_yes]].
Definition wt_env : env tobj N nat N := toy_env (scripted (wt_opening ++ wt_limit)).
Definition wt_opened : out unit * world tobj N nat N := Eval vm_compute in pool_open wt_env 2 None (new_world 1000).
Definition wt_begun : world tobj N nat N := Eval vm_compute in snd (pool_open wt_env 0 None (new_world 1000)).
Definition wt_asked : world tobj N nat N := Eval vm_compute in snd (set_min_runspaces wt_env 0 3 (snd wt_opened)).
Definition wt_unpacked (bs : list bytes) : list (message tobj) := match mapM (message_unpack toy_codec) bs with Ok ms => ms | Err _ => [] end.
Lemma wt_quiet : says (said_data []) (Said None None []).
Proof.
  assert (L : forall path x, find_first path x = None -> lookup path x None) by (intros path x E; rewrite <- E; apply WsmanProofs.find_first_lookup).
  unfold said_data, says. eexists. exists None, None. split; [reflexivity|]. split; [apply L; vm_compute; reflexivity|]. split; [apply L; vm_compute; reflexivity|].
  split; [intros e E; discriminate E|]. split; [reflexivity|]. split; [intros z E; discriminate E|]. split; [reflexivity|].
  match goal with |- chunked ?l _ => replace l with (@nil xml) by reflexivity end. constructor.
Qed.
Example C73_case :
  (rp_state (w_pool (new_world 1000)) = rs_before_open /\ pool_open wt_env 0 None (new_world 1000) = (Raise (XExn OutOfFuel), wt_begun) /\ rp_state (w_pool wt_begun) = rs_negotiation_sent /\
   in_turn (ev_srv wt_env (w_disabled wt_begun)) (w_hist wt_begun) None wt_opening /\
   Forall2 says wt_opening (map (fun c => Said None None [(lit "stdout", c)]) wt_chunks) /\
   NoDup (map t_oid wt_transits) /\ Forall (fun t => t_pieces t <> []) wt_transits /\
   interleave (map stream wt_transits) (concat wt_words) /\ Forall2 word_wire wt_words (arrived (map (fun c => Said None None [(lit "stdout", c)]) wt_chunks)) /\
   exists ms, mapM (message_unpack toy_codec) (concat (map completes wt_words)) = Ok ms /\ Forall (greets wt_env) ms /\ pool_said wt_env rs_negotiation_sent ms = rs_opened) /\
  (pool_open wt_env 2 None (new_world 1000) = (Ret tt, snd wt_opened) /\ rp_state (w_pool (snd wt_opened)) = rs_opened) /\
  (rval_is (rp_min (w_pool (snd wt_opened))) 3 = false /\ set_min_runspaces wt_env 0 3 (snd wt_opened) = (Raise (XExn OutOfFuel), wt_asked) /\
   (exists q b, requests (snd wt_opened) wt_asked [(q, WBody b)]) /\
   in_turn (ev_srv wt_env (w_disabled wt_asked)) (w_hist wt_asked) None wt_limit /\
   Forall2 says wt_limit [Said None None []; Said None None [(lit "stdout", wt_said_yes)]] /\
   Forall2 word_wire [[]; [(wt_yes, 0)]] (arrived [Said None None []; Said None None [(lit "stdout", wt_said_yes)]]) /\
   exists m, mapM (message_unpack toy_codec) (concat (map completes [[]; [(wt_yes, 0)]])) = Ok [m] /\ confirms wt_env (rp_ci (w_pool (snd wt_opened))) m) /\
  (exists w', set_min_runspaces wt_env 2 3 (snd wt_opened) = (Ret tt, w') /\ rp_min (w_pool w') = VInt 3).
Proof.
  split.
  { split; [reflexivity|]. split; [vm_compute; reflexivity|]. split; [reflexivity|]. split.
    { change (w_disabled wt_begun) with false. change (ev_srv wt_env) with (scripted (wt_opening ++ wt_limit)). intros qs q a F Mq O B Nt.
      assert (Lq : length qs < 2) by (change 2 with (length wt_opening); apply nth_error_Some; congruence).
      refine (scripted_receives (wt_opening ++ wt_limit) (w_hist wt_begun) None (wt_opening ++ wt_limit) _ qs q a F _ O B _).
      - vm_compute. reflexivity.
      - rewrite Mq, firstn_app. replace (length qs - length wt_opening) with 0 by (cbn [length wt_opening wt_chunks map]; lia). cbn [firstn]. rewrite app_nil_r. reflexivity.
      - rewrite nth_error_app1; [exact Nt|]. exact Lq. }
    split. { constructor; [apply h_spoken, bytes_computed; vm_compute; reflexivity|]. constructor; [apply h_spoken, bytes_computed; vm_compute; reflexivity|constructor]. }
    split. { cbn [map wt_transits t_oid]. constructor; [intros [E|[]]; discriminate E|]. constructor; [intros []|constructor]. }
    split. { constructor; [discriminate|]. constructor; [discriminate|constructor]. }
    split. { change (map stream wt_transits) with [[(wt_a, 0); (wt_a, 1)]; [(wt_b, 0)]]. change (concat wt_words) with [(wt_a, 0); (wt_a, 1); (wt_b, 0)].
      apply (il_cons []). apply (il_cons []). apply (il_cons [[]]). constructor. repeat constructor. }
    split. { change (arrived (map (fun c => Said None None [(lit "stdout", c)]) wt_chunks)) with [nth 0 wt_chunks [] ++ []; nth 1 wt_chunks [] ++ []].
      unfold wt_words. constructor; [|constructor; [|constructor]]; (eexists; split; [vm_compute; reflexivity|]); vm_compute; reflexivity. }
    eexists. split; [vm_compute; reflexivity|]. split; [|vm_compute; reflexivity]. constructor; [|constructor; [|constructor]].
    - right. left. split; [reflexivity|]. intros o H. exists [lit "2"; lit "3"]. split; [reflexivity|]. split; [discriminate|]. repeat constructor; try discriminate; unfold digit; cbn; lia.
    - right. right. split; [reflexivity|]. intros o H. cbn in H. apply Some_inj in H. subst o. discriminate. }
  split. { split; vm_compute; reflexivity. }
  split.
  { split; [reflexivity|]. split; [vm_compute; reflexivity|]. split; [eexists; eexists; vm_compute; reflexivity|]. split.
    { change (w_disabled wt_asked) with false. change (ev_srv wt_env) with (scripted (wt_opening ++ wt_limit)). apply scripted_receives. vm_compute. reflexivity. }
    split. { constructor; [exact wt_quiet|]. constructor; [apply h_spoken, bytes_computed; vm_compute; reflexivity|constructor]. }
    split. { change (arrived [Said None None []; Said None None [(lit "stdout", wt_said_yes)]]) with [[]; wt_said_yes ++ []]. constructor; [|constructor; [|constructor]]; (eexists; split; [vm_compute; reflexivity|]); vm_compute; reflexivity. }
    eexists. split; [vm_compute; reflexivity|]. eexists. split; [split; reflexivity|reflexivity]. }
  eexists. split; [vm_compute; reflexivity|reflexivity].
Qed.

(* the other two: a reset confirmed and five free runspaces, after an empty answer each *)
Definition wt_ops : list wresult := [opened_msgs; said_data []; said_data [whole 3 RUNSPACE_AVAILABILITY [0; 1]%N]; said_data []; said_data [whole 4 RUNSPACE_AVAILABILITY [1; 5]%N]].
Example C73_more_case :
  let E := toy_env (scripted wt_ops) in let w := toy_run wt_ops 1000 [PoolOpen None] in
  exists w1 w', rp_state (w_pool w) = rs_opened /\ reset_runspace_state E 0 w = (Raise (XExn OutOfFuel), w1) /\ (exists q b, requests w w1 [(q, WBody b)]) /\
    reset_runspace_state E 2 w = (Ret tt, w') /\
    exists w2 w3, ask E HAvailable (fun ci => OAvailable ci) w' = (Ret 1%Z, w2) /\ (exists q b, requests w' w2 [(q, WBody b)]) /\
      get_available_runspaces E 2 w' = (Ret (Some (SValue (VInt 5))), w3).
Proof.
  cbv zeta. do 2 eexists. split; [vm_compute; reflexivity|]. split; [vm_compute; reflexivity|]. split; [do 2 eexists; vm_compute; reflexivity|]. split; [vm_compute; reflexivity|].
  do 2 eexists. split; [vm_compute; reflexivity|]. split; [do 2 eexists; vm_compute; reflexivity|]. vm_compute. reflexivity.
Qed.

(* ---- what is missing: a server that is only slow ---- *)
(* A pipeline waits on when the server has had nothing to say within the operation
   timeout (C23_returns allows such answers); the pool does not.  The server answers
   one receive with the timeout and the next with everything.  Opening raises; the
   pool is then told that it is open, and cannot be opened again before that. *)
Definition slow_opening : list wresult := [said_late; opened_msgs].
Theorem C73_slow_opening_refuted : exists (E : env tobj N nat N) w w1 w2 q1 q2 f ms,
  rp_state (w_pool w) = rs_before_open /\ pool_open E 20 None w = (Raise (XFault f), w1) /\ f_code f = CInt 2150858793 /\
  requests w w1 [(q1, said_created); (q2, WFault f)] /\ q_op q1 = OpCreate /\ q_op q2 = OpReceive /\
  rp_state (w_pool w1) = rs_negotiation_sent /\ fst (pool_open E 20 None w1) = Raise (XExn InvalidRunspacePoolStateError) /\
  receive E None None w1 = (Ret ms, w2) /\ rp_state (w_pool w2) = rs_opened.
Proof.
  exists (toy_env (scripted slow_opening)), (new_world 1000). do 6 eexists.
  split; [reflexivity|]. split; [vm_compute; reflexivity|]. split; [reflexivity|]. split; [vm_compute; reflexivity|]. split; [reflexivity|]. split; [reflexivity|].
  split; [reflexivity|]. split; [vm_compute; reflexivity|]. split; [vm_compute; reflexivity|]. reflexivity.
Qed.
Print Assumptions C73_slow_opening_refuted.
(* A change of the minimum that the server takes, and confirms a moment later: the
   call raises, and the pool never learns of the new minimum although it reads the
   confirmation. *)
Definition slow_limit : list wresult := [opened_msgs; said_late; said_data [whole 3 RUNSPACE_AVAILABILITY [0; 1]%N]].
Theorem C73_slow_limit_refuted : exists (E : env tobj N nat N) w w1 w2 q1 q2 b f m,
  rp_state (w_pool w) = rs_opened /\ rp_min (w_pool w) = VInt 1 /\
  set_min_runspaces E 20 3 w = (Raise (XFault f), w1) /\ f_code f = CInt 2150858793 /\
  requests w w1 [(q1, WBody b); (q2, WFault f)] /\ q_op q1 = OpSend /\ q_op q2 = OpReceive /\
  receive E None None w1 = (Ret [m], w2) /\ confirms E (rp_ci (w_pool w)) m /\ rp_min (w_pool w2) = VInt 1.
Proof.
  exists (toy_env (scripted slow_limit)), (toy_run slow_limit 1000 [PoolOpen None]). do 7 eexists.
  split; [vm_compute; reflexivity|]. split; [vm_compute; reflexivity|]. split; [vm_compute; reflexivity|]. split; [reflexivity|]. split; [vm_compute; reflexivity|]. split; [reflexivity|]. split; [reflexivity|].
  split; [vm_compute; reflexivity|]. split; [eexists; split; [split; reflexivity|vm_compute; reflexivity]|]. reflexivity.
Qed.
Print Assumptions C73_slow_limit_refuted.
