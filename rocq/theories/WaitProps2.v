(* C73: the exchange of keys comes back once the server has sent the session key, if it
   does so in time.  The world [w1] is the one in which the public key was taken and the
   waiting begins. *)
From Verif Require Import Base BaseProofs Lit NumModel TextModel MsgModel MsgSpec XmlModel WsmanModel WsmanSpec ShellModel ShellSpec FragModel FragSpec UtilModel UtilSpec TransModel PoolModel PoolSpec PoolToy HearProps EndSpec EndProps WaitSpec WaitProofs2 WaitProps.
Require Import Lia ZifyBool ZifyNat ZifyN.
Local Open Scope list_scope.

Theorem C73_keys_partial : forall Obj Cmd HS RK (E : env Obj Cmd HS RK) n (w w1 : world Obj Cmd HS RK) d qs0 answers ss ts ws ms0 m ms1,
  rp_exchanged (w_pool w) = false -> rp_exchange (w_pool w) = None ->
  exchange_keys E 0 w = (Raise (XExn OutOfFuel), w1) -> requests w w1 qs0 -> all_taken qs0 ->
  in_turn (ev_srv E (w_disabled w1)) (w_hist w1) None answers -> in_time E (w_hist w1) answers (rp_key_timeout (w_pool w)) ->
  Forall2 says answers ss -> Forall only_stdout ss -> Forall not_late ss ->
  NoDup (map t_oid ts) -> Forall (fun t => t_pieces t <> []) ts ->
  (forall t, In t ts -> dict_get Z.eqb (t_oid t) (rp_receiver (w_pool w1)) = None) ->
  interleave (map stream ts) (concat ws) -> Forall2 word_wire ws (arrived ss) ->
  mapM (message_unpack (ev_codec E (rp_cipher (w_pool w1)))) (concat (map completes ws)) = Ok (ms0 ++ m :: ms1) ->
  Forall remarks ms0 -> unlocks E (ev_keygen E (w_hist w)) d m -> Forall remarks ms1 -> length answers <= n ->
  exists j w' qs, j <= length answers /\ exchange_keys E n w = (Ret tt, w') /\ requests w1 w' qs /\ map snd qs = firstn j answers /\
    rp_exchanged (w_pool w') = true /\ rp_exchange (w_pool w') = None /\ rp_cipher (w_pool w') = Some d.
Proof. intros Obj Cmd HS RK E. exact (keys_return E). Qed.
Print Assumptions C73_keys_partial.

(* ---- a case: an event in one answer, then the key in two pieces over two answers, with
   another event behind it; the pool waits three times ---- *)
Definition kt_key : bytes := map N.of_nat (List.seq 1 32).
Definition kt_transits : list transit := Eval vm_compute in
  let c := srv_msg ENCRYPTED_SESSION_KEY (b64encode (repeat 0%N 12 ++ rev kt_key)) in
  [mkTransit 11 [srv_msg USER_EVENT [1%N]]; mkTransit 12 [firstn 25 c; skipn 25 c]; mkTransit 13 [srv_msg USER_EVENT [2%N]]].
Definition kt_a := nth 0 kt_transits (mkTransit 0 []).
Definition kt_b := nth 1 kt_transits (mkTransit 0 []).
Definition kt_c := nth 2 kt_transits (mkTransit 0 []).
Definition kt_words : list word := [[(kt_a, 0)]; [(kt_b, 0)]; [(kt_b, 1); (kt_c, 0)]].
Definition kt_chunks : list bytes := Eval vm_compute in map h_wire kt_words.
Definition kt_answers : list wresult := map (fun c => said_data [c]) kt_chunks.
Definition kt_said : list said := map (fun c => Said None None [(lit "stdout", c)]) kt_chunks.
Definition kt_env : env tobj N nat N := toy_env (scripted (opened_msgs :: kt_answers)).
Definition kt_open : world tobj N nat N := Eval vm_compute in toy_run (opened_msgs :: kt_answers) 1000 [PoolOpen None].
Definition kt_begun : world tobj N nat N := Eval vm_compute in snd (exchange_keys kt_env 0 kt_open).
Definition kt_end : world tobj N nat N := Eval vm_compute in snd (exchange_keys kt_env 3 kt_open).
Example C73_keys_case :
  (rp_exchanged (w_pool kt_open) = false /\ rp_exchange (w_pool kt_open) = None /\ exchange_keys kt_env 0 kt_open = (Raise (XExn OutOfFuel), kt_begun)) /\
  (exists qs0, requests kt_open kt_begun qs0 /\ all_taken qs0) /\
  in_turn (ev_srv kt_env (w_disabled kt_begun)) (w_hist kt_begun) None kt_answers /\ in_time kt_env (w_hist kt_begun) kt_answers 10 /\
  Forall2 says kt_answers kt_said /\ Forall only_stdout kt_said /\ Forall not_late kt_said /\
  NoDup (map t_oid kt_transits) /\ Forall (fun t => t_pieces t <> []) kt_transits /\
  (forall t, In t kt_transits -> dict_get Z.eqb (t_oid t) (rp_receiver (w_pool kt_begun)) = None) /\
  interleave (map stream kt_transits) (concat kt_words) /\ Forall2 word_wire kt_words (arrived kt_said) /\
  (exists m0 m m1, mapM (message_unpack toy_codec) (concat (map completes kt_words)) = Ok ([m0] ++ m :: [m1]) /\
    remarks m0 /\ unlocks kt_env (ev_keygen kt_env (w_hist kt_open)) kt_key m /\ remarks m1) /\
  (exchange_keys kt_env 3 kt_open = (Ret tt, kt_end) /\ rp_exchanged (w_pool kt_end) = true /\ rp_cipher (w_pool kt_end) = Some kt_key /\ (10 <= rp_key_timeout (w_pool kt_open))%Z).
Proof.
  split. { split; [reflexivity|]. split; [reflexivity|]. vm_compute. reflexivity. }
  split. { eexists. split; [vm_compute; reflexivity|]. split; [discriminate|]. repeat constructor; eexists; reflexivity. }
  split. { change (w_disabled kt_begun) with false. change (ev_srv kt_env) with (scripted (opened_msgs :: kt_answers)). apply scripted_receives. vm_compute. reflexivity. }
  split. { intros qs _ M. change (ev_clock kt_env) with (fun h : history => Z.of_nat (length h)). cbn beta. rewrite app_length.
    assert (L : length qs <= 3). { rewrite <- (map_length snd qs), M, firstn_length. change (length kt_answers) with 3. lia. } lia. }
  split. { unfold kt_answers, kt_said, kt_chunks. cbn [map]. repeat (constructor; [apply h_spoken, bytes_computed; vm_compute; reflexivity|]). constructor. }
  split. { unfold kt_said. repeat constructor. }
  split. { unfold kt_said. apply Forall_map. apply Forall_forall. intros c _. discriminate. }
  split. { change (map t_oid kt_transits) with [11; 12; 13]%Z. constructor; [intros [C|[C|[]]]; discriminate C|]. constructor; [intros [C|[]]; discriminate C|]. constructor; [intros []|constructor]. }
  split. { repeat (constructor; [discriminate|]). constructor. }
  split. { intros t [<- | [<- | [<- | []]]]; vm_compute; reflexivity. }
  split. { change (map stream kt_transits) with [[(kt_a, 0)]; [(kt_b, 0); (kt_b, 1)]; [(kt_c, 0)]]. change (concat kt_words) with [(kt_a, 0); (kt_b, 0); (kt_b, 1); (kt_c, 0)].
    apply (il_cons []). apply (il_cons [[]]). apply (il_cons [[]]). apply (il_cons [[]; []]). constructor. repeat constructor. }
  split. { change (arrived kt_said) with (map (fun c => c ++ []) kt_chunks). unfold kt_words, kt_chunks. cbn [map]. repeat (constructor; [eexists; split; [vm_compute; reflexivity|]; vm_compute; reflexivity|]). constructor. }
  split. { do 3 eexists. split; [vm_compute; reflexivity|]. split; [left; reflexivity|]. split; [|left; reflexivity].
    do 2 eexists. split; [split; reflexivity|]. split; [vm_compute; reflexivity|]. split; [vm_compute; reflexivity|]. right. right. reflexivity. }
  split; [vm_compute; reflexivity|]. split; [reflexivity|]. split; [reflexivity|]. cbn. lia.
Qed.

(* An exchange that was begun is never begun again: while the pool holds a key pair the
   call returns at once, sends nothing and changes nothing. *)
Theorem C73_keys_held : forall Obj Cmd HS RK (E : env Obj Cmd HS RK) n (w : world Obj Cmd HS RK) k,
  rp_exchange (w_pool w) = Some k -> exchange_keys E n w = (Ret tt, w).
Proof. intros Obj Cmd HS RK E. exact (keys_held E). Qed.
Print Assumptions C73_keys_held.
(* So a server that takes longer than the operation timeout for the key ends the exchange
   for good: the first call raises, and each later one returns as if there were a key. *)
Theorem C73_slow_key_refuted : exists (E : env tobj N nat N) w w1 f,
  rp_state (w_pool w) = rs_opened /\ exchange_keys E 20 w = (Raise (XFault f), w1) /\ f_code f = CInt 2150858793 /\
  rp_cipher (w_pool w1) = None /\ rp_exchanged (w_pool w1) = false /\ forall n, exchange_keys E n w1 = (Ret tt, w1).
Proof.
  exists (toy_env (scripted [opened_msgs; said_late])), (toy_run [opened_msgs; said_late] 1000 [PoolOpen None]). do 2 eexists.
  split; [vm_compute; reflexivity|]. split; [vm_compute; reflexivity|]. split; [reflexivity|]. split; [reflexivity|]. split; [reflexivity|].
  intros n. eapply keys_held. reflexivity.
Qed.
Print Assumptions C73_slow_key_refuted.
