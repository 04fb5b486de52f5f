(* Model of src/pypsrp/shell.py (WinRS and Process) and of
   Client.execute_cmd, src/pypsrp/client.py:145-179. *)
From Verif Require Import Base Lit NumModel TextModel XmlModel WsmanModel.

(* ---- effects ---- *)
(* An exception that reaches the caller: a fault or an HTTP error with its
   contents, or another exception. *)
Inductive raised : Type := XFault (f : fault) | XHttp (code : Z) (text : list N) | XExn (e : exn).
Inductive out (A : Type) : Type := Ret (a : A) | Raise (x : raised).
Arguments Ret {A} _.
Arguments Raise {A} _.

(* One call of a WSMan method: wsman.py:260-418.  [q_uri] is None when the
   server gave an empty ResourceUri. *)
Record sreq := { q_op : wop; q_uri : option (list N); q_body : option xml;
                 q_options : option wset; q_selectors : option wset; q_timeout : option Z }.
(* the calls made so far, with their results, oldest first *)
Notation history := (list (sreq * wresult)).

Section Server.
  (* what a call gives, for every history of calls: see [run_op] of WsmanModel *)
  Context (srv : history -> sreq -> wresult).

  Definition call (q : sreq) (h : history) : out (option xml) * history :=
    let r := srv h q in
    (match r with
     | WBody b => Ret b
     | WFault f => Raise (XFault f)
     | WHttp c t => Raise (XHttp c t)
     | WExn e => Raise (XExn e)
     end, h ++ [(q, r)]).

  (* ---- WinRS: shell.py:39-99.  sh_idle is the text of idle_time_out, an
     int before the shell is opened and then the server's text ---- *)
  Record shell := {
    sh_opened : bool; sh_id : option (list N); sh_uri : option (list N);
    sh_input : list N; sh_output : option (list N); sh_codepage : option Z;
    sh_env : option (list (list N * list N)); sh_idle : option (list N); sh_lifetime : option Z;
    sh_name : option (list N); sh_no_profile : bool; sh_dir : option (list N);
    sh_owner : option (list N); sh_client_ip : option (list N);
    sh_run_time : option (list N); sh_inactivity : option (list N);
    sh_selectors : option wset }.

  Definition set_opened (b : bool) (s : shell) : shell :=
    {| sh_opened := b; sh_id := sh_id s; sh_uri := sh_uri s; sh_input := sh_input s; sh_output := sh_output s;
       sh_codepage := sh_codepage s; sh_env := sh_env s; sh_idle := sh_idle s; sh_lifetime := sh_lifetime s;
       sh_name := sh_name s; sh_no_profile := sh_no_profile s; sh_dir := sh_dir s; sh_owner := sh_owner s;
       sh_client_ip := sh_client_ip s; sh_run_time := sh_run_time s; sh_inactivity := sh_inactivity s;
       sh_selectors := sh_selectors s |}.
  Definition set_id (i : option (list N)) (s : shell) : shell :=
    {| sh_opened := sh_opened s; sh_id := i; sh_uri := sh_uri s; sh_input := sh_input s; sh_output := sh_output s;
       sh_codepage := sh_codepage s; sh_env := sh_env s; sh_idle := sh_idle s; sh_lifetime := sh_lifetime s;
       sh_name := sh_name s; sh_no_profile := sh_no_profile s; sh_dir := sh_dir s; sh_owner := sh_owner s;
       sh_client_ip := sh_client_ip s; sh_run_time := sh_run_time s; sh_inactivity := sh_inactivity s;
       sh_selectors := sh_selectors s |}.
  Definition set_selectors (x : option wset) (s : shell) : shell :=
    {| sh_opened := sh_opened s; sh_id := sh_id s; sh_uri := sh_uri s; sh_input := sh_input s; sh_output := sh_output s;
       sh_codepage := sh_codepage s; sh_env := sh_env s; sh_idle := sh_idle s; sh_lifetime := sh_lifetime s;
       sh_name := sh_name s; sh_no_profile := sh_no_profile s; sh_dir := sh_dir s; sh_owner := sh_owner s;
       sh_client_ip := sh_client_ip s; sh_run_time := sh_run_time s; sh_inactivity := sh_inactivity s;
       sh_selectors := x |}.

  Definition request (o : wop) (s : shell) (body : option xml) (options : option wset) (timeout : option Z) : sreq :=
    {| q_op := o; q_uri := sh_uri s; q_body := body; q_options := options; q_selectors := sh_selectors s; q_timeout := timeout |}.

  (* shell.py:112-120 *)
  Definition shell_close (s : shell) (h : history) : out unit * shell * history :=
    if negb (sh_opened s) then (Ret tt, s, h)
    else
      let '(r, h') := call (request OpDelete s None None None) h in
      match r with
      | Ret _ => (Ret tt, set_opened false (set_id None s), h')
      | Raise x => (Raise x, s, h')
      end.

  Definition rsp (name : list N) : list N := qname ns_rsp name.
  Definition py_bool (b : bool) : list N := if b then lit "True" else lit "False".
  Definition text_elem (tag text : list N) : xml := Elem tag [] (Some text) [].

  (* shell.py:122-155; an executable or an argument is a text here *)
  Definition command_line (executable : list N) (arguments : option (list (list N))) (command_id : option (list N)) : xml :=
    Elem (rsp (lit "CommandLine")) (match command_id with Some i => [(lit "CommandId", i)] | None => [] end) None
      (text_elem (rsp (lit "Command")) executable ::
       map (text_elem (rsp (lit "Arguments"))) (match arguments with Some a => a | None => [] end)).
  Definition shell_command (executable : list N) (arguments : option (list (list N))) (no_shell : bool)
      (command_id : option (list N)) (s : shell) (h : history) : out (option xml) * history :=
    call (request OpCommand s (Some (command_line executable arguments command_id))
            (Some (add_option option_set (lit "WINRS_SKIP_CMD_SHELL") (py_bool no_shell) [])) None) h.

  (* shell.py:172-203 *)
  Definition shell_content (s : shell) (open_content : option xml) : xml :=
    Elem (rsp (lit "Shell")) (match sh_id s with Some i => [(lit "ShellId", i)] | None => [] end) None
      ([text_elem (rsp (lit "InputStreams")) (sh_input s);
        Elem (rsp (lit "OutputStreams")) [] (sh_output s) []] ++
       match sh_env s with
       | Some env => [Elem (rsp (lit "Environment")) [] None
           (map (fun kv => Elem (rsp (lit "Variable")) [(lit "Name", fst kv)] (Some (snd kv)) []) env)]
       | None => [] end ++
       match sh_idle s with Some t => [text_elem (rsp (lit "IdleTimeOut")) (lit "PT" ++ t ++ lit "S")] | None => [] end ++
       match sh_lifetime s with Some z => [text_elem (rsp (lit "Lifetime")) (lit "PT" ++ py_str z ++ lit "S")] | None => [] end ++
       match sh_name s with Some t => [text_elem (rsp (lit "Name")) t] | None => [] end ++
       match sh_dir s with Some t => [text_elem (rsp (lit "WorkingDirectory")) t] | None => [] end ++
       match open_content with Some x => [x] | None => [] end).
  (* shell.py:205-212 *)
  Definition shell_options (s : shell) (base_options : option wset) : wset :=
    let o := match base_options with Some o => o | None => option_set end in
    let o := if sh_no_profile s then add_option o (lit "WINRS_NOPROFILE") (lit "TRUE") [(lit "MustComply", lit "true")] else o in
    match sh_codepage s with Some z => add_option o (lit "WINRS_CODEPAGE") (py_str z) [] | None => o end.

  (* shell.py:356-380; a selector without a name raises KeyError with the
     selectors before it already added *)
  Definition given (b : xml) (name : list N) (old : option (list N)) : option (list N) :=
    match find_first [rsp (lit "Shell"); rsp name] b with Some e => x_text e | None => old end.
  Fixpoint add_selectors (cs : list xml) (w : wset) : out unit * wset :=
    match cs with
    | [] => (Ret tt, w)
    | c :: cs' =>
        match attr_get (lit "Name") c with
        | None => (Raise (XExn KeyError), w)
        | Some n => add_selectors cs' (add_option w n (match x_text c with Some t => t | None => [] end) [])
        end
    end.
  Definition ns_wst : list N := lit "http://schemas.xmlsoap.org/ws/2004/09/transfer".
  Definition p_selectors : list (list N) :=
    [qname ns_wst (lit "ResourceCreated"); qname ns_wsa (lit "ReferenceParameters"); qname ns_wsman (lit "SelectorSet")].
  Definition parse_shell_create (response : option xml) (s : shell) : out unit * shell :=
    match response with
    | None => (Raise (XExn AttributeError), s)
    | Some b =>
        let s' := {|
          sh_opened := sh_opened s; sh_id := given b (lit "ShellId") (sh_id s); sh_uri := given b (lit "ResourceUri") (sh_uri s);
          sh_input := sh_input s; sh_output := given b (lit "OutputStreams") (sh_output s); sh_codepage := sh_codepage s;
          sh_env := sh_env s; sh_idle := given b (lit "IdleTimeOut") (sh_idle s); sh_lifetime := sh_lifetime s;
          sh_name := sh_name s; sh_no_profile := sh_no_profile s; sh_dir := sh_dir s;
          sh_owner := given b (lit "Owner") (sh_owner s); sh_client_ip := given b (lit "ClientIP") (sh_client_ip s);
          sh_run_time := given b (lit "ShellRunTime") (sh_run_time s);
          sh_inactivity := given b (lit "ShellInactivity") (sh_inactivity s); sh_selectors := sh_selectors s |} in
        match find_first p_selectors b with
        | None => (Ret tt, s')
        | Some e => let '(r, w) := add_selectors (x_children e) selector_set in (r, set_selectors (Some w) s')
        end
    end.

  (* shell.py:157-219; create is called without selectors *)
  Definition create_request (s : shell) (base_options : option wset) (open_content : option xml) : sreq :=
    let o := shell_options s base_options in
    {| q_op := OpCreate; q_uri := sh_uri s; q_body := Some (shell_content s open_content);
       q_options := match ws_values o with [] => None | _ => Some o end; q_selectors := None; q_timeout := None |}.
  Definition shell_open (base_options : option wset) (open_content : option xml) (s : shell) (h : history)
    : out (option xml) * shell * history :=
    if sh_opened s then (Ret None, s, h)
    else
      let '(r, h') := call (create_request s base_options open_content) h in
      match r with
      | Raise x => (Raise x, s, h')
      | Ret response =>
          let '(r', s') := parse_shell_create response s in
          match r' with
          | Raise x => (Raise x, s', h')
          | Ret _ => (Ret response, set_opened true s', h')
          end
      end.

  (* str.split() *)
  Fixpoint split_space (cur : list N) (s : list N) : list (list N) :=
    match s with
    | [] => match cur with [] => [] | _ => [rev cur] end
    | c :: s' =>
        if is_space c then match cur with [] => split_space [] s' | _ => rev cur :: split_space [] s' end
        else split_space (c :: cur) s'
    end.

  Definition cs_done : list N := lit "http://schemas.microsoft.com/wbem/wsman/1/windows/shell/CommandState/Done".
  Definition cs_pending : list N := lit "http://schemas.microsoft.com/wbem/wsman/1/windows/shell/CommandState/Pending".

  (* shell.py:239-252 *)
  Definition receive_body (stream : list N) (command_id : option (list N)) : xml :=
    Elem (rsp (lit "Receive")) [] None
      [Elem (rsp (lit "DesiredStream")) (match command_id with Some i => [(lit "CommandId", i)] | None => [] end) (Some stream) []].
  Definition keepalive : wset := add_option option_set (lit "WSMAN_CMDSHELL_OPTION_KEEPALIVE") (lit "True") [].
  (* shell.py:262-269 *)
  Fixpoint add_streams (ss : list xml) (buffer : list (list N * list N)) : res (list (list N * list N)) :=
    match ss with
    | [] => Ok buffer
    | s :: ss' =>
        match x_text s with
        | None => add_streams ss' buffer
        | Some t =>
            do v <- b64decode t;
            match attr_get (lit "Name") s with
            | None => Err KeyError
            | Some n =>
                match dict_get str_eqb n buffer with
                | None => Err KeyError
                | Some old => add_streams ss' (dict_set str_eqb n (old ++ v) buffer)
                end
            end
        end
    end.
  (* shell.py:254-271 *)
  Definition parse_receive (stream : list N) (response : option xml) : res (list N * option Z * list (list N * list N)) :=
    match response with
    | None => Err AttributeError
    | Some b =>
        do state <- match find_first [rsp (lit "ReceiveResponse"); rsp (lit "CommandState")] b with
                    | None => Ok cs_pending
                    | Some e => match attr_get (lit "State") e with Some t => Ok t | None => Err KeyError end
                    end;
        do rc <- match find_first [rsp (lit "ReceiveResponse"); rsp (lit "CommandState"); rsp (lit "ExitCode")] b with
                 | None => Ok None
                 | Some e => do z <- py_int (match nonempty_text (x_text e) with Some t => t | None => lit "0" end); Ok (Some z)
                 end;
        do buffer <- add_streams (find_all [rsp (lit "ReceiveResponse"); rsp (lit "Stream")] b)
                       (fold_left (fun d n => dict_set str_eqb n [] d) (split_space [] stream) []);
        Ok (state, rc, buffer)
    end.
  Definition shell_receive (stream : list N) (command_id : option (list N)) (timeout : option Z) (s : shell) (h : history)
    : out (list N * option Z * list (list N * list N)) * history :=
    let '(r, h') := call (request OpReceive s (Some (receive_body stream command_id)) (Some keepalive) timeout) h in
    (match r with
     | Raise x => Raise x
     | Ret b => match parse_receive stream b with Ok v => Ret v | Err e => Raise (XExn e) end
     end, h').

  (* shell.py:273-301 *)
  Definition send_body (stream : list N) (data : bytes) (command_id : option (list N)) (end_ : option bool) : xml :=
    Elem (rsp (lit "Send")) [] None
      [Elem (rsp (lit "Stream"))
         ((lit "Name", stream) :: match end_ with Some b => [(lit "End", py_bool b)] | None => [] end ++
          match command_id with Some i => [(lit "CommandId", i)] | None => [] end)
         (Some (b64encode data)) []].
  Definition shell_send (stream : list N) (data : bytes) (command_id : option (list N)) (end_ : option bool)
      (s : shell) (h : history) : out (option xml) * history :=
    call (request OpSend s (Some (send_body stream data command_id end_)) None None) h.

  (* shell.py:303-319 *)
  Definition signal_body (code command_id : list N) : xml :=
    Elem (rsp (lit "Signal")) [(lit "CommandId", command_id)] None [text_elem (rsp (lit "Code")) code].
  Definition shell_signal (code command_id : list N) (s : shell) (h : history) : out (option xml) * history :=
    call (request OpSignal s (Some (signal_body code command_id)) None None) h.

  (* shell.py:321-354; tag.replace removes the namespace wherever it occurs,
     here from the front *)
  Definition field_name (tag : list N) : list N :=
    let p := rsp [] in if starts_with p tag then skipn (length p) tag else tag.
  Definition get_shell (timeout : option Z) (s : shell) (h : history)
    : out (list (list N * option (list N))) * history :=
    let q := {| q_op := OpGet; q_uri := Some ns_rsp; q_body := None; q_options := None;
                q_selectors := sh_selectors s; q_timeout := timeout |} in
    let '(r, h') := call q h in
    (match r with
     | Raise x => Raise x
     | Ret None => Raise (XExn AttributeError)
     | Ret (Some b) =>
         Ret match find_first [rsp (lit "Shell")] b with
             | None => []
             | Some e => fold_left (fun d c => dict_set str_eqb (field_name (x_tag c)) (x_text c) d) (x_children e) []
             end
     end, h').

  (* ---- Process: shell.py:383-477 ---- *)
  Record process := {
    pr_id : option (list N); pr_no_shell : bool; pr_executable : list N; pr_arguments : option (list (list N));
    pr_state : list N; pr_rc : option Z; pr_stdout : bytes; pr_stderr : bytes }.
  (* shell.py:407-414 *)
  Definition new_process (executable : list N) (arguments : option (list (list N))) : process :=
    {| pr_id := None; pr_no_shell := false; pr_executable := executable; pr_arguments := arguments;
       pr_state := cs_pending; pr_rc := None; pr_stdout := []; pr_stderr := [] |}.

  (* shell.py:416-424 *)
  Definition process_begin (s : shell) (p : process) (h : history) : out unit * process * history :=
    let '(r, h') := shell_command (pr_executable p) (pr_arguments p) (pr_no_shell p) None s h in
    match r with
    | Raise x => (Raise x, p, h')
    | Ret None => (Raise (XExn AttributeError), p, h')
    | Ret (Some b) =>
        let i := match find_first [rsp (lit "CommandResponse"); rsp (lit "CommandId")] b with Some e => x_text e | None => None end in
        (Ret tt, {| pr_id := i; pr_no_shell := pr_no_shell p; pr_executable := pr_executable p; pr_arguments := pr_arguments p;
                    pr_state := pr_state p; pr_rc := pr_rc p; pr_stdout := pr_stdout p; pr_stderr := pr_stderr p |}, h')
    end.

  (* shell.py:440-463; the assignment of the three results happens before the
     lookup of the two streams, which are always there *)
  Definition operation_timeout : Z := 2150858793.
  Definition is_code (x : raised) (z : Z) : bool :=
    match x with XFault f => match f_code f with CInt c => Z.eqb c z | _ => false end | _ => false end.
  Definition process_poll (timeout : option Z) (s : shell) (p : process) (h : history) : out unit * process * history :=
    let '(r, h') := shell_receive (lit "stdout stderr") (pr_id p) timeout s h in
    match r with
    | Raise x => (if is_code x operation_timeout then Ret tt else Raise x, p, h')
    | Ret (state, rc, buffer) =>
        match dict_get str_eqb (lit "stdout") buffer, dict_get str_eqb (lit "stderr") buffer with
        | Some o, Some e =>
            (Ret tt, {| pr_id := pr_id p; pr_no_shell := pr_no_shell p; pr_executable := pr_executable p;
                        pr_arguments := pr_arguments p; pr_state := state; pr_rc := rc;
                        pr_stdout := pr_stdout p ++ o; pr_stderr := pr_stderr p ++ e |}, h')
        | _, _ => (Raise (XExn KeyError), p, h')
        end
    end.

  (* shell.py:426-431; the loop is unbounded, [fuel] bounds the polls *)
  Fixpoint process_end (fuel : nat) (s : shell) (p : process) (h : history) : out unit * process * history :=
    if str_eqb (pr_state p) cs_done then (Ret tt, p, h)
    else match fuel with
         | O => (Raise (XExn OutOfFuel), p, h)
         | S fuel' =>
             let '(r, p', h') := process_poll None s p h in
             match r with
             | Ret _ => process_end fuel' s p' h'
             | Raise x => (Raise x, p', h')
             end
         end.

  (* shell.py:433-438 *)
  Definition process_invoke (fuel : nat) (s : shell) (p : process) (h : history) : out unit * process * history :=
    let '(r, p', h') := process_begin s p h in
    match r with
    | Raise x => (Raise x, p', h')
    | Ret _ => process_end fuel s p' h'
    end.

  (* shell.py:465-477 *)
  Definition process_send (data : bytes) (end_ : bool) (s : shell) (p : process) (h : history) : out (option xml) * history :=
    shell_send (lit "stdin") data (pr_id p) (Some end_) s h.
  Definition process_signal (code : list N) (s : shell) (p : process) (h : history) : out (option xml) * history :=
    shell_signal code (match pr_id p with Some i => i | None => [] end) s h.

  (* shell.py:39-99 with the defaults of execute_cmd *)
  Definition new_shell (environment : option (list (list N * list N))) : shell :=
    {| sh_opened := false; sh_id := None; sh_uri := Some (lit "http://schemas.microsoft.com/wbem/wsman/1/windows/shell/cmd");
       sh_input := lit "stdin"; sh_output := Some (lit "stdout stderr"); sh_codepage := None; sh_env := environment;
       sh_idle := None; sh_lifetime := None; sh_name := None; sh_no_profile := false; sh_dir := None;
       sh_owner := None; sh_client_ip := None; sh_run_time := None; sh_inactivity := None; sh_selectors := None |}.

  (* client.py:145-179.  Leaving the with block closes the shell; an exception
     of close replaces the one of the body.  The streams are returned as bytes:
     their decoding with the codepage is [execute_cmd_text] of CodeModel.v. *)
  Definition ctrl_c : list N := lit "http://schemas.microsoft.com/wbem/wsman/1/windows/shell/signal/ctrl_c".
  Definition execute_cmd (fuel : nat) (command : list N) (environment : option (list (list N * list N))) (h : history)
    : out (bytes * bytes * Z) * history :=
    let '(r, s, h) := shell_open None None (new_shell environment) h in
    match r with
    | Raise x => (Raise x, h)
    | Ret _ =>
        let '(r, p, h) := process_invoke fuel s (new_process command None) h in
        let '(r, h) := match r with Raise x => (Raise x, h) | Ret _ => process_signal ctrl_c s p h end in
        let '(c, _, h) := shell_close s h in
        match c, r with
        | Raise x, _ => (Raise x, h)
        | Ret _, Raise x => (Raise x, h)
        | Ret _, Ret _ => (Ret (pr_stdout p, pr_stderr p, match pr_rc p with Some z => z | None => (-1)%Z end), h)
        end
    end.
End Server.
