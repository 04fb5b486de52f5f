(* Property theorems C26 and C51. *)
From Verif Require Import Base Lit NumModel TextModel XmlModel WsmanModel ShellModel FragModel MsgModel UtilModel TransModel PoolModel PoolSpec PoolToy HostModel HostSpec HostProofs.

(* ---- C26 ---- *)
(* The method assigned to the identifier is the one called, once, on the object
   it belongs to, with the pipeline and the arguments; nothing else runs.  When
   the host has no such object or the object no such method, AttributeError is
   raised and nothing runs. *)
Theorem C26_dispatch : forall Val HS (H : host Val HS) mi p name args pl st,
  assigned mi p name ->
  run_method H (Some mi) (Ok args) pl st =
  match object_at H st p with
  | Some o => match o name with Some f => f pl args st | None => (Raise (XExn AttributeError), st) end
  | None => (Raise (XExn AttributeError), st)
  end.
Proof. exact @run_assigned. Qed.
Print Assumptions C26_dispatch.
Theorem C26_every_identifier : forall mi, (1 <= mi <= 51)%Z -> exists p name, assigned mi p name.
Proof. exact assigned_total. Qed.
Print Assumptions C26_every_identifier.
Theorem C26_place : forall mi p name, assigned mi p name ->
  match p with OnHost => (1 <= mi <= 10)%Z | OnUI => (11 <= mi <= 26)%Z | OnRawUI => (27 <= mi <= 51)%Z end.
Proof. exact (fun mi p name A => proj2 (assigned_cases mi p name A)). Qed.
Print Assumptions C26_place.
Theorem C26_above_nothing : forall Val HS (H : host Val HS) mi args pl st,
  (51 < mi)%Z -> run_method H (Some mi) args pl st = (Ret None, st).
Proof. exact @run_above. Qed.
Print Assumptions C26_above_nothing.
(* and below 1, or without a value, KeyError *)
Theorem C26_below_refused : forall Val HS (H : host Val HS) mi args pl st,
  match mi with Some z => (z < 1)%Z | None => True end ->
  run_method H mi args pl st = (Raise (XExn KeyError), st).
Proof. exact @run_below. Qed.
Print Assumptions C26_below_refused.
(* the classes the library provides have all these methods *)
Theorem C26_default_complete : forall version shown mi p name st, assigned mi p name ->
  exists o f, object_at (default_host version shown) st p = Some o /\ o name = Some f.
Proof. exact default_has. Qed.
Print Assumptions C26_default_complete.

Definition C26_state : hstate :=
  mkHState (PStr (lit "me")) (PStr (lit "1.0")) (POther 1) PNone PNone PNone [] []
    (PBool false) (PStr (lit "title")) (PInt 25) (PColor (PInt 7)) (PColor (PInt 0))
    (PCoord (PInt 0) (PInt 0)) PNone PNone PNone PNone PNone.
Definition C26_host := default_host (fun v => Ok v) (fun _ => Ok (lit "?")).
Example C26_case :
  fst (run_method C26_host (Some 1%Z) (Ok []) None C26_state) = Ret (Some (PStr (lit "me"))) /\
  fst (run_method C26_host (Some 11%Z) (Ok []) None C26_state) = Raise (XExn NotImplementedError) /\
  fst (run_method C26_host (Some 45%Z) (Ok []) None C26_state) = Ret (Some (PBool false)) /\
  run_method C26_host (Some 53%Z) (Ok []) None C26_state = (Ret None, C26_state) /\
  assigned 45 OnRawUI (lit "GetKeyAvailable") /\ assigned 26 OnUI (lit "PromptForChoice").
Proof. repeat split; try (vm_compute; reflexivity); [apply (ARaw 18)|apply (AUi 15)]; reflexivity. Qed.

(* A pool without a host only logs the call, but with the name of the method:
   an identifier that has none (above 56) makes the poll raise KeyError, and
   the pipeline object stays Running with its remaining messages lost. *)
Theorem C26_no_host_refuted : exists (E : env tobj N nat N) w,
  ev_host E = None /\
  fst (poll_invoke E 0 None w) = Raise (XExn KeyError) /\
  (let w' := snd (poll_invoke E 0 None w) in
   ps_state (the_ps 0 w') = pl_running /\ ps_output (the_ps 0 w') = []).
Proof.
  set (answers := [opened_msgs; said_data [whole 3 PIPELINE_HOST_CALL [8%N; 57%N] ++ whole 4 PIPELINE_OUTPUT (lit "lost") ++ whole 5 PIPELINE_STATE [4%N]]]).
  set (E0 := toy_env (scripted answers)).
  exists (mkEnv (ev_srv E0) (ev_codec E0) (ev_build E0) (ev_capability E0) (ev_session_key E0) (ev_init E0) (ev_availability E0)
    (ev_pool_state E0) (ev_host_call E0) (ev_pipe_state E0) None (ev_keygen E0) (ev_modulus E0) (ev_exponent E0) (ev_decrypt E0)
    (ev_clock E0) (ev_falsy E0) (ev_skeleton E0)),
    (toy_run answers 1000 [PoolOpen None; Create pid1; AddCommand 0 65%N; Begin 0 (no_args None)]).
  vm_compute. repeat split.
Qed.
Print Assumptions C26_no_host_refuted.

(* ---- C51 ---- *)
(* Whatever a server writes through the default host, call after call, is what
   the joined stdout and stderr lists have grown by. *)
Theorem C51_written_text : forall version shown l st texts,
  Forall2 (fun c t => writes c (fst t) (snd t)) l texts ->
  exists lo le st', run_calls version shown l st = (map (fun _ => Ret None) l, st') /\
    hs_stdout st' = hs_stdout st ++ lo /\ joined lo = Some (concat (map fst texts)) /\
    hs_stderr st' = hs_stderr st ++ le /\ joined le = Some (concat (map snd texts)).
Proof. exact write_all. Qed.
Print Assumptions C51_written_text.
(* What is set on the raw user interface is what is read next. *)
Theorem C51_set_then_get : forall version shown s v g x pl pl' st, set_then_get s v g x ->
  exists st', run_method (default_host version shown) (Some s) (Ok [v]) pl st = (Ret None, st') /\
    run_method (default_host version shown) (Some g) (Ok []) pl' st' = (Ret (Some x), st').
Proof. exact set_get. Qed.
Print Assumptions C51_set_then_get.

Example C51_case :
  let l := [(13%Z, [PStr (lit "a")]); (18%Z, [PStr (lit "oops")]); (20%Z, [PInt 0; POther 3]); (17%Z, [PInt 1; PInt 2; PStr (lit "b")]); (22%Z, [PStr (lit "c")])] in
  let texts := [(lit "a", []); ([], lit "oops" ++ [13; 10]%N); ([], []); (lit "b" ++ [13; 10]%N, []); (lit "WARNING: c" ++ [13; 10]%N, [])] in
  Forall2 (fun c t => writes c (fst t) (snd t)) l texts /\
  set_then_get 32 (PObj [(lit "x", PInt 4); (lit "y", PInt 5)]) 31 (PCoord (PInt 4) (PInt 5)) /\
  hs_stderr (snd (run_calls (fun v => Ok v) (fun _ => Ok []) l C26_state)) = [PStr (lit "oops" ++ [13; 10]%N)].
Proof.
  split; [|split; [apply SGCursor; reflexivity|vm_compute; reflexivity]].
  repeat constructor; cbn [fst snd].
Qed.
