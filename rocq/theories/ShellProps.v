(* C21 for shells, C31, and the second half of C48. *)
From Verif Require Import Base BaseProofs Lit NumModel TextModel XmlModel WsmanModel WsmanSpec WsmanProofs ShellModel ShellSpec ShellProofs ShellProofs2.

(* ---- a toy server ---- *)
Definition toy_created : xml := Elem (soap (lit "Body")) [] None [
  Elem (rshell (lit "Shell")) [] None [Elem (rshell (lit "ShellId")) [] (Some (lit "S1")) []];
  Elem (transfer (lit "ResourceCreated")) [] None [Elem (addressing (lit "ReferenceParameters")) [] None [
    Elem (dmtf (lit "SelectorSet")) [] None [Elem (dmtf (lit "Selector")) [(lit "Name", lit "ShellId")] (Some (lit "S1")) []]]]].
Definition toy_output (chunks : list (list N * list N)) (state : option (list N)) (rc : option Z) : wresult :=
  WBody (Some (Elem (soap (lit "Body")) [] None [Elem (rshell (lit "ReceiveResponse")) [] None
    (map (fun c => Elem (rshell (lit "Stream")) [(lit "Name", fst c)] (Some (b64encode (snd c))) []) chunks ++
     match state with
     | Some t => [Elem (rshell (lit "CommandState")) [(lit "State", t)] None
         match rc with Some z => [Elem (rshell (lit "ExitCode")) [] (Some (py_str z)) []] | None => [] end]
     | None => [] end)])).
Definition late_answer : wresult := WFault {| f_code := CInt 2150858793; f_machine := None; f_reason := None;
  f_provider := None; f_path := None; f_pfault := None |}.
Definition toy_srv (answers : list wresult) (h : history) (q : sreq) : wresult :=
  match q_op q with
  | OpCreate => WBody (Some toy_created)
  | OpReceive => nth (length h) answers late_answer
  | _ => WBody (Some (Elem (soap (lit "Body")) [] None []))
  end.
Definition running : list N := lit "http://schemas.microsoft.com/wbem/wsman/1/windows/shell/CommandState/Running".

(* C21: whatever the uses of a shell and whatever the server answers, a delete
   is sent only while a shell created before has not been deleted. *)
Theorem C21_shell_delete_only_alive : forall srv uses_ s h0, sh_opened s = false ->
  exists new, snd (uses srv uses_ s h0) = h0 ++ new /\
  (forall a q r b, new = a ++ (q, r) :: b -> q_op q = OpDelete -> alive a) /\
  (sh_opened (fst (uses srv uses_ s h0)) = true -> alive new).
Proof. exact deletes_only_alive. Qed.
Print Assumptions C21_shell_delete_only_alive.

(* C21: hence between two successful deletes a shell was created *)
Theorem C21_shell_deleted_once : forall a d m, alive (a ++ d :: m) -> deleted d -> exists e, In e m /\ created e.
Proof. exact created_between. Qed.
Print Assumptions C21_shell_deleted_once.

(* C21: after a close that returned, closing does nothing *)
Theorem C21_shell_second_close : forall srv s h r s' h', shell_close srv s h = (Ret r, s', h') ->
  shell_close srv s' h' = (Ret tt, s', h').
Proof. exact second_close. Qed.
Print Assumptions C21_shell_second_close.

(* C21: after an open that failed, closing sends nothing *)
Theorem C21_shell_failed_open : forall srv base content s h x s' h', sh_opened s = false ->
  shell_open srv base content s h = (Raise x, s', h') -> shell_close srv s' h' = (Ret tt, s', h').
Proof. exact failed_create. Qed.
Print Assumptions C21_shell_failed_open.

Example C21_shell_case :
  let '(s, h) := uses (toy_srv []) [SClose; SOpen None None; SOpen None None; SClose; SClose; SOpen None None] (new_shell None) [] in
  map (fun e => q_op (fst e)) h = [OpCreate; OpDelete; OpCreate] /\ sh_opened s = true.
Proof. vm_compute. repeat split. Qed.

(* C48: the selectors a create answered with are those of every request until
   the next create *)
Theorem C48_selectors_reused : forall srv uses_ s h0, exists new, snd (uses srv uses_ s h0) = h0 ++ new /\
  forall a q b entries m q' r' z, new = a ++ (q, WBody (Some b)) :: m ++ (q', r') :: z -> q_op q = OpCreate ->
    Forall (fun e => ~ creates e) m -> q_op q' <> OpCreate -> selects b entries ->
    q_selectors q' = Some (built selector_set entries).
Proof. exact selectors_reused. Qed.
Print Assumptions C48_selectors_reused.

Example C48_selectors_case : selects toy_created [(lit "ShellId", lit "S1", [])] /\
  let '(_, h) := uses (toy_srv []) [SOpen None None; SCommand (lit "dir") None false None; SClose] (new_shell None) [] in
  map (fun e => q_selectors (fst e)) h =
    [None; Some (built selector_set [(lit "ShellId", lit "S1", [])]); Some (built selector_set [(lit "ShellId", lit "S1", [])])].
Proof.
  split; [|vm_compute; reflexivity].
  exists (Elem (dmtf (lit "SelectorSet")) [] None [Elem (dmtf (lit "Selector")) [(lit "Name", lit "ShellId")] (Some (lit "S1")) []]).
  split; [apply (find_first_iff [_; _; _] _ (Some _)); vm_compute; reflexivity|].
  constructor; [|constructor]. vm_compute. repeat split.
Qed.

(* C31: when the wait for a process ends, what was collected is what the
   answers said, in order; the exit code is the one of the final answer, the
   first that reports the state done. *)
Theorem C31_collected : forall srv fuel s p h p' h', process_end srv fuel s p h = (Ret tt, p', h') ->
  str_eqb (pr_state p) cs_done = false ->
  exists answers, h' = h ++ map (fun r => (poll_of s p, r)) answers /\
  forall ms, Forall2 says answers ms ->
    pr_stdout p' = pr_stdout p ++ collected (lit "stdout") ms /\
    pr_stderr p' = pr_stderr p ++ collected (lit "stderr") ms /\
    exists before final, ms = before ++ [final] /\ finishes final /\ Forall (fun m => ~ finishes m) before /\
      pr_rc p' = rc_of final None.
Proof. exact end_collected. Qed.
Print Assumptions C31_collected.

(* C31: the wait does end when the server says so, after any number of answers
   and timeouts *)
Theorem C31_wait_ends : forall srv before s p h final, str_eqb (pr_state p) cs_done = false ->
  plays srv (poll_of s p) h (before ++ [final]) -> Forall std_only (before ++ [final]) ->
  Forall (fun m => ~ finishes m) before -> finishes final ->
  exists p' h', process_end srv (length (before ++ [final])) s p h = (Ret tt, p', h') /\
    pr_stdout p' = pr_stdout p ++ collected (lit "stdout") (before ++ [final]) /\
    pr_stderr p' = pr_stderr p ++ collected (lit "stderr") (before ++ [final]) /\
    pr_rc p' = rc_of final None.
Proof. exact end_total. Qed.
Print Assumptions C31_wait_ends.

(* C31: the result of execute_cmd, with the requests it made: one create, one
   command, the receives, one signal, one delete. *)
Theorem C31_execute_cmd : forall srv fuel command env h o e rc h',
  execute_cmd srv fuel command env h = (Ret (o, e, rc), h') ->
  exists create cmd poll answers signal delete,
    h' = h ++ [create; cmd] ++ map (fun r => (poll, r)) answers ++ [signal; delete] /\
    created create /\ q_op (fst cmd) = OpCommand /\ q_op poll = OpReceive /\ q_op (fst signal) = OpSignal /\ deleted delete /\
    forall ms, Forall2 says answers ms ->
      o = collected (lit "stdout") ms /\ e = collected (lit "stderr") ms /\
      exists before final, ms = before ++ [final] /\ finishes final /\ Forall (fun m => ~ finishes m) before /\
        rc = match rc_of final None with Some z => z | None => (-1)%Z end.
Proof. exact cmd_result. Qed.
Print Assumptions C31_execute_cmd.

Example C31_case :
  let '(r, h) := execute_cmd (toy_srv [late_answer; late_answer;
      toy_output [(lit "stdout", lit "a"); (lit "stderr", lit "x"); (lit "stdout", lit "bc")] (Some running) None;
      late_answer; toy_output [(lit "stderr", lit "y")] None None;
      toy_output [(lit "stdout", lit "d")] (Some done_state) (Some 7%Z)]) 9 (lit "dir") None [] in
  r = Ret (lit "abcd", lit "xy", 7%Z) /\
  map (fun e => q_op (fst e)) h = [OpCreate; OpCommand; OpReceive; OpReceive; OpReceive; OpReceive; OpSignal; OpDelete].
Proof. vm_compute. repeat split. Qed.

(* the answers of the example say what they should *)
Example C31_says_case :
  says (toy_output [(lit "stdout", lit "d")] (Some done_state) (Some 7%Z)) (Said (Some done_state) (Some 7%Z) [(lit "stdout", lit "d")]) /\
  says late_answer SaidNothing.
Proof.
  split.
  - exists (match toy_output [(lit "stdout", lit "d")] (Some done_state) (Some 7%Z) with WBody (Some b) => b | _ => toy_created end).
    do 2 eexists. split; [vm_compute; reflexivity|].
    split; [apply find_first_iff; vm_compute; reflexivity|].
    split; [apply find_first_iff; vm_compute; reflexivity|].
    split; [intros e E; split; [discriminate|vm_compute; reflexivity]|]. split; [discriminate|].
    split; [intros z E; apply Some_inj in E; subst z; split; [discriminate|vm_compute; reflexivity]|]. split; [discriminate|].
    apply chunked_data; [|vm_compute; reflexivity..|apply chunked_nil].
    constructor; [vm_compute; reflexivity|constructor].
  - eexists. split; [reflexivity|reflexivity].
Qed.

(* C31 fails in its last part: an exit code reported before the final answer,
   which reports none, is lost and -1 is returned. *)
Theorem C31_exit_code_refuted : exists srv h',
  execute_cmd srv 9 (lit "dir") None [] = (Ret ([], [], (-1)%Z), h') /\
  exists q, In (q, toy_output [] (Some running) (Some 3%Z)) h' /\ q_op q = OpReceive.
Proof.
  exists (toy_srv [late_answer; late_answer; toy_output [] (Some running) (Some 3%Z); toy_output [] (Some done_state) None]).
  eexists. split; [vm_compute; reflexivity|]. eexists. split; [right; right; left; vm_compute; reflexivity|reflexivity].
Qed.
Print Assumptions C31_exit_code_refuted.
