(* C64: what a shell is asked to do reaches the server as it was given.
   Missing from the partial theorems: texts with characters that XML does not
   allow make a request that cannot be read, and carriage returns become line
   feeds ([line_fed]), see the refutations; answers of the server are element
   trees whose texts are XML characters. *)
From Verif Require Import Base BaseProofs Lit NumModel TextSpec TextModel Utf8Model XmlModel XtModel XtSpec XtProofs3 WsmanModel WsmanSpec ShellModel ShellSpec
  EnvModel EnvSpec EnvProofs EnvProofs2.
Local Open Scope list_scope.

(* Any WSMan request: the header says the action, the resource, the options and
   selectors in their order; the body is the resource given. *)
Theorem C64_request_partial : forall (w : wsman) (uuid : list N) (a : asked) (body : option xml),
  fit_wsman w -> fit uuid -> fit (a_uri a) -> fit_set (a_options a) -> fit_set (a_selectors a) -> (forall x, body = Some x -> writable x) ->
  exists b, request_bytes w uuid
      {| q_op := a_op a; q_uri := Some (a_uri a); q_body := body; q_options := option_map (built option_set) (a_options a);
         q_selectors := option_map (built selector_set) (a_selectors a); q_timeout := a_timeout a |} = Ok b /\
    received b (fun y => exists bd, asks w uuid a y bd /\ Forall2 XtSpec.arrives (match body with Some x => [x] | None => [] end) (x_children bd)).
Proof. intros w uuid a body W U A1 A2 A3 B. exact (request_received w uuid a body W U (conj A1 (conj A2 A3)) B). Qed.
Print Assumptions C64_request_partial.

(* Every use of a shell, after any uses, is nothing when there is nothing to do,
   or one request which is read as that use. *)
Theorem C64_uses_partial : forall (srv : history -> sreq -> wresult) (os : list shop) (o : shop) (s0 : shell) (h0 : history),
  speaks srv -> ready s0 -> fit_use o ->
  let s := fst (uses srv os s0 h0) in let h := snd (uses srv os s0 h0) in
  (idle o s /\ use srv o s h = (s, h)) \/
  (~ idle o s /\ exists q ses, snd (use srv o s h) = h ++ [(q, srv h q)] /\ selected s ses /\
     forall w uuid, fit_wsman w -> fit uuid -> exists b, request_bytes w uuid q = Ok b /\ received b (read_as w uuid o s ses)).
Proof. exact uses_read. Qed.
Print Assumptions C64_uses_partial.

(* The command line of execute_cmd is the command run, in a shell with its
   environment. *)
Theorem C64_execute_partial : forall (srv : history -> sreq -> wresult) (fuel : nat) (command : list N) (env : option (list (list N * list N))) (h : history),
  speaks srv -> fit command ->
  match env with Some e => Forall (fun kv => fit (fst kv) /\ fit (snd kv)) e | None => True end ->
  exists es, snd (execute_cmd srv fuel command env h) = h ++ es /\
  forall e, In e es ->
    (q_op (fst e) = OpCommand -> exists s ses, forall w uuid, fit_wsman w -> fit uuid ->
       exists b, request_bytes w uuid (fst e) = Ok b /\ received b (read_as w uuid (SCommand command None false None) s ses)) /\
    (q_op (fst e) = OpCreate -> forall w uuid, fit_wsman w -> fit uuid ->
       exists b, request_bytes w uuid (fst e) = Ok b /\ received b (read_as w uuid (SOpen None None) (new_shell env) None)).
Proof. exact execute_read. Qed.
Print Assumptions C64_execute_partial.

(* Texts without carriage returns are read unchanged. *)
Theorem C64_same_text : forall s t, ~ In 13%N s -> line_fed s t -> t = s.
Proof. exact fed_same. Qed.
Print Assumptions C64_same_text.

(* ---- cases ---- *)
Definition the_wsman : wsman :=
  {| w_session_id := lit "d0e521f3-4a03"; w_locale := lit "en-US"; w_data_locale := lit "en-US"; w_endpoint := lit "http://h:5985/wsman";
     w_max_envelope := 153600; w_operation_timeout := 20 |}.
Definition hostile_command : list N := lit "</Command><Arguments>& ]]>".
Definition hostile_arguments : list (list N) := [lit "'a'  b"; []; lit "&amp;"; [228; 128512]%N].
Definition the_env : list (list N * list N) := [(lit "A<" ++ [34; 10; 13]%N, lit "1 & 2"); (lit "B", [])].
Definition read_back (q : sreq) (f : xml -> list (list N)) : option (list (list N)) :=
  match request_bytes the_wsman (lit "6b1e") q with
  | Ok b => match utf8_decode b with Ok s => option_map f (xml_parse s) | Err _ => None end
  | Err _ => None
  end.
Definition silent : history -> sreq -> wresult := fun _ _ => WBody (Some (Elem (soap (lit "Body")) [] None [])).
Example C64_case :
  fit_wsman the_wsman /\ speaks silent /\ ready (new_shell (Some the_env)) /\
  fit_use (SCommand hostile_command (Some hostile_arguments) true (Some (lit "I"))) /\
  read_back (request OpCommand (new_shell (Some the_env)) (Some (command_line hostile_command (Some hostile_arguments) (Some (lit "I"))))
               (Some (add_option option_set (lit "WINRS_SKIP_CMD_SHELL") (py_bool true) [])) None)
    (fun y => map words (flat_map x_children (find_all [soap (lit "Body"); rshell (lit "CommandLine")] y)))
  = Some (hostile_command :: hostile_arguments) /\
  read_back (create_request (new_shell (Some the_env)) None None)
    (fun y => flat_map (fun v => match attr_get (lit "Name") v with Some n => [n; words v] | None => [] end)
                (find_all [soap (lit "Body"); rshell (lit "Shell"); rshell (lit "Environment"); rshell (lit "Variable")] y))
  = Some [lit "A<" ++ [34; 10; 13]%N; lit "1 & 2"; lit "B"; []].
Proof.
  split; [repeat split; apply fit_lit; reflexivity|]. split.
  - intros h q b E. unfold silent in E. assert (b = Elem (soap (lit "Body")) [] None []) by congruence. subst b. split; [constructor|split; exact I].
  - split; [apply new_ready; repeat (apply Forall_cons; [split; apply fit_lit; reflexivity|]); apply Forall_nil|]. split; [|split; vm_compute; reflexivity].
    split; [apply fit_lit; reflexivity|]. split; [|apply fit_lit; reflexivity].
    repeat (apply Forall_cons; [apply fit_lit; reflexivity|]). apply Forall_nil.
Qed.

(* ---- what is false ---- *)
(* A command with a control character is sent, but nobody can read it. *)
Theorem C64_control_refuted : exists command b s,
  request_bytes the_wsman (lit "6b1e")
    (request OpCommand (new_shell None) (Some (command_line command None None))
       (Some (add_option option_set (lit "WINRS_SKIP_CMD_SHELL") (lit "False") [])) None) = Ok b /\
  utf8_decode b = Ok s /\ xml_parse s = None.
Proof.
  exists (lit "echo " ++ [7%N]).
  eexists. eexists. split; [vm_compute; reflexivity|]. split; [vm_compute; reflexivity|]. vm_compute. reflexivity.
Qed.
Print Assumptions C64_control_refuted.
(* A carriage return in an argument is read as a line feed. *)
Theorem C64_return_refuted : exists argument,
  read_back (request OpCommand (new_shell None) (Some (command_line (lit "echo") (Some [argument]) None))
               (Some (add_option option_set (lit "WINRS_SKIP_CMD_SHELL") (lit "False") [])) None)
    (fun y => map words (find_all [soap (lit "Body"); rshell (lit "CommandLine"); rshell (lit "Arguments")] y))
  <> Some [argument].
Proof. exists (lit "a" ++ [13; 10]%N ++ lit "b"). vm_compute. discriminate. Qed.
Print Assumptions C64_return_refuted.
(* The id given to a Process, documented as the id of the command, is not sent;
   the one of the answer takes its place. *)
Theorem C64_process_id_refuted : exists (srv : history -> sreq -> wresult) (s : shell) (p : process) (i : list N),
  pr_id p = Some i /\
  let '(r, p', h) := process_begin srv s p [] in
  r = Ret tt /\ pr_id p' <> Some i /\
  Forall (fun e => forall c, q_body (fst e) = Some c -> attr (lit "CommandId") (Some c) = None) h.
Proof.
  exists silent, (new_shell None),
    {| pr_id := Some (lit "MINE"); pr_no_shell := false; pr_executable := lit "whoami"; pr_arguments := None; pr_state := cs_pending; pr_rc := None;
       pr_stdout := []; pr_stderr := [] |}, (lit "MINE").
  split; [reflexivity|]. vm_compute. split; [reflexivity|]. split; [discriminate|]. constructor; [|constructor]. intros c E. apply Some_inj in E. subst c. reflexivity.
Qed.
Print Assumptions C64_process_id_refuted.
(* A shell that is closed and opened again is not asked for the same idle time:
   the server's text has taken the place of the caller's number. *)
Definition reporting : history -> sreq -> wresult := fun _ _ =>
  WBody (Some (Elem (soap (lit "Body")) [] None
    [Elem (rshell (lit "Shell")) [] None [Elem (rshell (lit "IdleTimeOut")) [] (Some (lit "PT7200.000S")) []]])).
Definition with_idle (t : list N) (s : shell) : shell :=
  {| sh_opened := sh_opened s; sh_id := sh_id s; sh_uri := sh_uri s; sh_input := sh_input s; sh_output := sh_output s;
     sh_codepage := sh_codepage s; sh_env := sh_env s; sh_idle := Some t; sh_lifetime := sh_lifetime s; sh_name := sh_name s;
     sh_no_profile := sh_no_profile s; sh_dir := sh_dir s; sh_owner := sh_owner s; sh_client_ip := sh_client_ip s;
     sh_run_time := sh_run_time s; sh_inactivity := sh_inactivity s; sh_selectors := sh_selectors s |}.
Theorem C64_reopen_refuted : exists (srv : history -> sreq -> wresult) (s : shell) q1 q2 q3,
  map fst (snd (uses srv [SOpen None None; SClose; SOpen None None] s [])) = [q1; q2; q3] /\
  read_back q1 (fun y => map words (find_all [soap (lit "Body"); rshell (lit "Shell"); rshell (lit "IdleTimeOut")] y)) = Some [lit "PT7200S"] /\
  read_back q3 (fun y => map words (find_all [soap (lit "Body"); rshell (lit "Shell"); rshell (lit "IdleTimeOut")] y)) = Some [lit "PTPT7200.000SS"].
Proof.
  exists reporting, (with_idle (lit "7200") (new_shell None)). eexists. eexists. eexists.
  split; [vm_compute; reflexivity|]. split; vm_compute; reflexivity.
Qed.
Print Assumptions C64_reopen_refuted.
