(* Property theorems C57 and C58: executing a PowerShell script through the
   client, and reading CLIXML errors. *)
From Verif Require Import Base Lit TextModel XmlModel WsmanModel ShellModel ShellSpec FragModel FragSpec MsgModel ObjModel PoolModel PoolSpec PoolToy TextSpec ClientModel ClientSpec ClientProofs ClientProofs2 ClientProofs3.
Require Import Permutation.

(* ------------------------------ C57 ------------------------------ *)

(* Whatever the server answers and however the call ends, every pipeline it
   creates is the one with the given id, without input, and its commands are one
   statement per environment variable and one that runs the script, in which the
   names, the values and the script occur only as parameter values. *)
Theorem C57_only : forall Obj HS RK (E : env Obj (command Obj) HS RK) of_text py_true py_none to_text fuel id environment script w,
  exists l, since w (snd (execute_ps E of_text py_true py_none to_text fuel id environment script w)) l /\
    forall pid no_input apartment options to_history cs nested history redirect,
      In (EOut pid (OCreate no_input apartment options to_history cs nested history redirect)) l ->
      pid = Some id /\ no_input = true /\ options = Some 15%Z /\ to_history = false /\ nested = false /\ history = None /\ redirect = false /\
      exists ss, get_statements cs = Ok ss /\ map (map spoken) ss = script_statements of_text py_true py_none environment script.
Proof.
  intros. destruct (execute_only E of_text py_true py_none to_text fuel id environment script w) as [l [L P]]. exists l. split; [exact L|].
  intros pid a b c d cs e f g H. exact (P _ _ H).
Qed.
Print Assumptions C57_only.

(* when it returns it has created exactly one *)
Theorem C57_single : forall Obj HS RK (E : env Obj (command Obj) HS RK) of_text py_true py_none to_text fuel id environment script w v w',
  execute_ps E of_text py_true py_none to_text fuel id environment script w = (Ret v, w') ->
  exists l cs ap, since w w' l /\ says_script of_text py_true py_none environment script cs /\
    created l = [(Some id, OCreate true ap (Some 15%Z) false cs false None false)].
Proof. exact @execute_single. Qed.
Print Assumptions C57_single.

(* The text given back is the output of that pipeline, line by line, the flag
   says whether the server reported it failed, and the streams hold the records
   the server sent, whatever the split over fragments and answers.  Full claim:
   without [undisturbed], as for C23. *)
Theorem C57_output_partial : forall Obj HS RK (E : env Obj (command Obj) HS RK) of_text py_true py_none to_text fuel id environment script w w' text r bad,
  unused w -> id <> [] -> honest (ev_codec E None) ->
  execute_ps E of_text py_true py_none to_text fuel id environment script w = (Ret (text, r, bad), w') ->
  exists w2 q1 qs q2 l1 l, requests w w2 q1 /\ since w w2 l1 /\ requests w w' (q1 ++ qs ++ q2) /\ since w w' (l1 ++ l) /\
    length (created l1) = 1%nat /\ Forall (fun q => q_op (fst q) = OpDelete) q2 /\
    (forall q a, In (q, a) qs -> q_op q = OpReceive -> q_body q = Some (receive_body (lit "stdout") (ps_command_id (the_ps r w2)))) /\
    forall ss ts ws, undisturbed qs l -> Forall2 says (receives qs) ss ->
      NoDup (map t_oid ts) -> Forall (fun t => t_pieces t <> []) ts -> (forall t, In t ts -> dict_get Z.eqb (t_oid t) (rp_receiver (w_pool w2)) = None) ->
      interleave (map stream ts) (concat ws) -> Forall2 word_wire ws (arrived ss) ->
      Permutation (concat (map completes ws)) (map t_msg ts) /\
      exists ms ls, mapM (message_unpack (ev_codec E None)) (concat (map completes ws)) = Ok ms /\
        mapM to_text (objects PIPELINE_OUTPUT ms) = Ok ls /\ lined ls text /\ bad = any_failed E ms /\ grown E (new_ps id) (the_ps r w') ms.
Proof. exact @execute_collects. Qed.
Print Assumptions C57_output_partial.

(* Once the pool is open, however the script goes, the last request is the
   deletion of the shell, unless the server reported the pool closed, closing or
   broken. *)
Theorem C57_closes : forall Obj HS RK (E : env Obj (command Obj) HS RK) of_text py_true py_none to_text fuel id environment script w w1 w' x,
  unused w -> pool_open E fuel None w = (Ret tt, w1) ->
  execute_ps E of_text py_true py_none to_text fuel id environment script w = (x, w') ->
  (exists l st, since w w' l /\ last_reported E l st /\
     (In st [rs_closed; rs_closing; rs_broken] \/ exists h q a, w_hist w' = h ++ [(q, a)] /\ q_op q = OpDelete)) /\
  (forall v, x = Ret v -> In (rp_state (w_pool w')) [rs_closed; rs_closing; rs_broken]).
Proof. exact @execute_closes. Qed.
Print Assumptions C57_closes.

(* ---- a case ---- *)
Definition C57_build (o : omsg tobj (command tobj)) : tobj :=
  match o with
  | OCapability a b c => toy_build (OCapability a b c)
  | OInit a b c d e => toy_build (OInit a b c d e)
  | OConnect => toy_build OConnect
  | OSetMin v ci => toy_build (OSetMin v ci)
  | OSetMax v ci => toy_build (OSetMax v ci)
  | OAvailable ci => toy_build (OAvailable ci)
  | OReset ci => toy_build (OReset ci)
  | OPublicKey k => toy_build (OPublicKey k)
  | OPoolResponse a b c => toy_build (OPoolResponse a b c)
  | OPipelineResponse a b c => toy_build (OPipelineResponse a b c)
  | OCreate ni ap op h cs n hs rd => toy_build (OCreate ni ap op h (flat_map (fun c => c_cmd c ++ flat_map (fun a => snd (snd a)) (c_args c)) cs) n hs rd)
  | OMetadata a => toy_build (OMetadata a)
  | OInput a => toy_build (OInput a)
  | OEnd => toy_build OEnd
  end.
Definition C57_env (srv : bool -> history -> sreq -> wresult) : env tobj (command tobj) nat N :=
  let e := toy_env srv in
  {| ev_srv := ev_srv e; ev_codec := ev_codec e; ev_build := C57_build; ev_capability := ev_capability e; ev_session_key := ev_session_key e;
     ev_init := ev_init e; ev_availability := ev_availability e; ev_pool_state := ev_pool_state e; ev_host_call := ev_host_call e;
     ev_pipe_state := ev_pipe_state e; ev_host := ev_host e; ev_keygen := ev_keygen e; ev_modulus := ev_modulus e; ev_exponent := ev_exponent e;
     ev_decrypt := ev_decrypt e; ev_clock := ev_clock e; ev_falsy := ev_falsy e; ev_skeleton := ev_skeleton e |}.
Definition C57_world : world tobj (command tobj) nat N :=
  mkWorld (new_pool rpid 2 0 (lit "Microsoft.PowerShell") 1 1 60000 false None 153600 1000) [] [] 0%nat false [].
Definition C57_run (answers : list wresult) (environment : list (list N * list N)) (script : list N) :=
  execute_ps (C57_env (scripted answers)) (fun t => (None, t)) (None, lit "true") (None, []) (fun o => Ok (snd o)) 20 pid1 environment script C57_world.
Example C57_unused : unused C57_world.
Proof. repeat split. Qed.
Definition C57_answers : list wresult :=
  [opened_msgs; said_data [whole 3 PIPELINE_OUTPUT (lit "hello")]; said_late;
   said_data [whole 4 PIPELINE_OUTPUT (lit "world") ++ whole 5 WARNING_RECORD (lit "careful"); whole 6 PIPELINE_STATE [4%N]]].
Example C57_case :
  let '(x, w') := C57_run C57_answers [(lit "A", lit "1"); (lit "B; x", lit "2")] (lit "Get-Date") in
  x = Ret (lit "hello" ++ 10%N :: lit "world", 0%nat, false) /\
  ops_made w' = [OpCreate; OpReceive; OpCommand; OpReceive; OpReceive; OpReceive; OpDelete] /\
  map (fun o => snd o) (ps_warning (the_ps 0 w')) = [lit "careful"] /\ rp_state (w_pool w') = rs_closed.
Proof. vm_compute. repeat split. Qed.
(* the script fails: the pool is closed all the same *)
Example C57_case_failed :
  let '(x, w') := C57_run [opened_msgs; WExn AuthenticationError] [] (lit "Get-Date") in
  x = Raise (XExn AuthenticationError) /\ ops_made w' = [OpCreate; OpReceive; OpCommand; OpReceive; OpDelete].
Proof. vm_compute. split; reflexivity. Qed.

(* If the pool does not open, a shell already created on the server is left
   there: nothing asks for its deletion. *)
Theorem C57_leak_refuted : exists answers environment script w' x q,
  C57_run answers environment script = (Raise x, w') /\ In (q, said_created) (w_hist w') /\ q_op q = OpCreate /\ ~ In OpDelete (ops_made w').
Proof.
  exists [WExn AuthenticationError], [], (lit "Get-Date"). eexists. eexists. eexists. split; [vm_compute; reflexivity|].
  split; [left; reflexivity|]. split; [reflexivity|]. vm_compute. intuition discriminate.
Qed.
Print Assumptions C57_leak_refuted.

(* ------------------------------ C58 ------------------------------ *)

(* text that is not CLIXML is given back *)
Theorem C58_plain : forall parse s, (forall t, s <> lit "#< CLIXML" ++ t) -> sanitise_clixml parse s = Ok s.
Proof. exact sanitise_plain. Qed.
Print Assumptions C58_plain.
Theorem C58_no_document : forall parse s, ~ In 60%N s -> sanitise_clixml parse (lit "#< CLIXML" ++ s) = Err ValueError.
Proof. exact sanitise_none. Qed.
Print Assumptions C58_no_document.

(* A document whose strings are written as PowerShell writes them gives the
   strings of the error stream, in order and joined, exactly unless their text
   holds the bytes described by [has_straddle].  Full claim: without
   [separated]; see below. *)
Theorem C58_errors_partial : forall parse pre body ns attrib text l,
  ~ In 60%N pre -> (forall a b, ns <> a ++ lit "Objs" ++ b) ->
  parse (60%N :: body) = Ok (Elem (tag_in ns (lit "Objs")) attrib text (map (written ns) l)) ->
  Forall (other_ok ns) l -> separated (error_texts l) -> Forall scalars (error_texts l) ->
  (sanitise_clixml parse (lit "#< CLIXML" ++ pre ++ 60%N :: body) = Ok (concat (error_texts l)) <-> ~ has_straddle (concat (error_texts l))).
Proof. exact sanitise_exact. Qed.
Print Assumptions C58_errors_partial.

(* in particular when each string ends its line *)
Theorem C58_lines : forall parse pre body ns attrib text l,
  ~ In 60%N pre -> (forall a b, ns <> a ++ lit "Objs" ++ b) ->
  parse (60%N :: body) = Ok (Elem (tag_in ns (lit "Objs")) attrib text (map (written ns) l)) ->
  Forall (other_ok ns) l -> Forall (fun s => exists t, s = t ++ [10%N]) (error_texts l) -> Forall scalars (error_texts l) ->
  ~ has_straddle (concat (error_texts l)) ->
  sanitise_clixml parse (lit "#< CLIXML" ++ pre ++ 60%N :: body) = Ok (concat (error_texts l)).
Proof.
  intros parse pre body ns attrib text l H1 H2 H3 H4 H5 H6 H7.
  exact (proj2 (sanitise_exact parse pre body ns attrib text l H1 H2 H3 H4 (separated_lines _ H5) H6) H7).
Qed.
Print Assumptions C58_lines.

Definition C58_ns : list N := lit "http://schemas.microsoft.com/powershell/2004/04".
Definition C58_doc (l : list item) (_ : list N) : res xml := Ok (Elem (tag_in C58_ns (lit "Objs")) [(lit "Version", lit "1.1.0.1")] None (map (written C58_ns) l)).
Definition C58_items : list item :=
  [Other (Elem (tag_in C58_ns (lit "Obj")) [(lit "S", lit "progress")] None []); Line (lit "Error") (lit "bad_x" ++ [10%N]); Line (lit "Warning") (lit "careful"); Line (lit "Error") (lit "worse" ++ [10%N])].
Example C58_case :
  separated (error_texts C58_items) /\ Forall (other_ok C58_ns) C58_items /\
  sanitise_clixml (C58_doc C58_items) (lit "#< CLIXML" ++ [13%N; 10%N] ++ lit "<Objs/>") = Ok (lit "bad_x" ++ [10%N] ++ lit "worse" ++ [10%N]).
Proof.
  split; [apply separated_lines; change (error_texts C58_items) with [lit "bad_x" ++ [10%N]; lit "worse" ++ [10%N]]; repeat constructor; eexists; reflexivity|]. split; [|vm_compute; reflexivity].
  repeat constructor. cbn [other_ok x_tag]. vm_compute. discriminate.
Qed.

(* the strings are joined before they are read: an escape made by two
   neighbours is read as one *)
Theorem C58_joined_refuted : exists l, Forall (other_ok C58_ns) l /\ Forall scalars (error_texts l) /\ ~ has_straddle (concat (error_texts l)) /\
  concat (error_texts l) = lit "_x0041_" /\ sanitise_clixml (C58_doc l) (lit "#< CLIXML" ++ lit "<Objs/>") = Ok (lit "A").
Proof.
  exists [Line (lit "Error") (lit "_"); Line (lit "Error") (lit "x0041_")]. split; [repeat constructor|]. split; [repeat constructor; left; reflexivity|]. split; [|split; vm_compute; reflexivity].
  intros H. change (concat _) with (lit "_x0041_") in H. vm_compute in H.
  repeat match goal with H : has_straddle _ |- _ => inversion H; clear H; subst end.
Qed.
Print Assumptions C58_joined_refuted.
