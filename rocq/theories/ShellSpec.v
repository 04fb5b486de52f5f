(* Specification vocabulary for shells and processes. *)
From Verif Require Import Base Lit NumModel TextModel XmlModel WsmanModel WsmanSpec ShellModel.

(* ---- creation and deletion ---- *)
Definition creates (e : sreq * wresult) : Prop := q_op (fst e) = OpCreate.
Definition created (e : sreq * wresult) : Prop := q_op (fst e) = OpCreate /\ exists b, snd e = WBody b.
Definition deleted (e : sreq * wresult) : Prop := q_op (fst e) = OpDelete /\ exists b, snd e = WBody b.
(* some shell was created and has not been deleted since *)
Definition alive (h : history) : Prop :=
  exists before e after, h = before ++ e :: after /\ created e /\ Forall (fun d => ~ deleted d) after.

(* the uses of a shell *)
Inductive shop : Type :=
| SOpen (base : option wset) (content : option xml)
| SClose
| SCommand (executable : list N) (arguments : option (list (list N))) (no_shell : bool) (id : option (list N))
| SReceive (stream : list N) (id : option (list N)) (timeout : option Z)
| SSend (stream : list N) (data : bytes) (id : option (list N)) (end_ : option bool)
| SSignal (code id : list N)
| SGet (timeout : option Z).
Definition use (srv : history -> sreq -> wresult) (o : shop) (s : shell) (h : history) : shell * history :=
  match o with
  | SOpen b c => let '(_, s', h') := shell_open srv b c s h in (s', h')
  | SClose => let '(_, s', h') := shell_close srv s h in (s', h')
  | SCommand x a n i => (s, snd (shell_command srv x a n i s h))
  | SReceive x i t => (s, snd (shell_receive srv x i t s h))
  | SSend x d i e => (s, snd (shell_send srv x d i e s h))
  | SSignal c i => (s, snd (shell_signal srv c i s h))
  | SGet t => (s, snd (get_shell srv t s h))
  end.
Definition uses srv (os : list shop) (s : shell) (h : history) : shell * history :=
  fold_left (fun sh o => use srv o (fst sh) (snd sh)) os (s, h).

(* the selectors a response to create gives: an entry per child *)
Definition transfer (name : list N) : list N := lit "{http://schemas.xmlsoap.org/ws/2004/09/transfer}" ++ name.
Definition selects (b : xml) (entries : list (list N * list N * list (list N * list N))) : Prop :=
  exists e, first_at [transfer (lit "ResourceCreated"); addressing (lit "ReferenceParameters"); dmtf (lit "SelectorSet")] b e /\
    Forall2 (fun c en => attr (lit "Name") (Some c) = Some (fst (fst en)) /\
       snd (fst en) = match text_of (Some c) with Some t => t | None => [] end /\ snd en = []) (x_children e) entries.

(* ---- what an answer to receive says ---- *)
Definition rshell (name : list N) : list N := lit "{http://schemas.microsoft.com/wbem/wsman/1/windows/shell}" ++ name.
Inductive said : Type :=
| SaidNothing                      (* the operation timed out *)
| Said (state : option (list N)) (rc : option Z) (chunks : list (list N * list N)).

(* a stream element carries a chunk, or nothing when it has no text *)
Inductive chunked : list xml -> list (list N * list N) -> Prop :=
| chunked_nil : chunked [] []
| chunked_skip s ss cs : text_of (Some s) = None -> chunked ss cs -> chunked (s :: ss) cs
| chunked_data s ss n d cs : bytes_ok d -> text_of (Some s) = Some (b64encode d) -> attr (lit "Name") (Some s) = Some n ->
    chunked ss cs -> chunked (s :: ss) ((n, d) :: cs).

Definition says (r : wresult) (m : said) : Prop :=
  match m with
  | SaidNothing => exists f, r = WFault f /\ f_code f = CInt 2150858793
  | Said state rc chunks => exists b st ec, r = WBody (Some b) /\
      lookup [rshell (lit "ReceiveResponse"); rshell (lit "CommandState")] b st /\
      lookup [rshell (lit "ReceiveResponse"); rshell (lit "CommandState"); rshell (lit "ExitCode")] b ec /\
      (forall e, st = Some e -> state <> None /\ attr (lit "State") st = state) /\ (st = None -> state = None) /\
      (forall z, rc = Some z -> ec <> None /\ text_of ec = Some (py_str z)) /\ (rc = None -> ec = None) /\
      chunked (find_all [rshell (lit "ReceiveResponse"); rshell (lit "Stream")] b) chunks
  end.

Definition done_state : list N := lit "http://schemas.microsoft.com/wbem/wsman/1/windows/shell/CommandState/Done".
Definition finishes (m : said) : Prop := exists rc cs, m = Said (Some done_state) rc cs.
Definition on_stream (name : list N) (m : said) : bytes :=
  match m with
  | SaidNothing => []
  | Said _ _ cs => concat (map snd (filter (fun c => str_eqb (fst c) name) cs))
  end.
Definition collected (name : list N) (ms : list said) : bytes := concat (map (on_stream name) ms).
Definition std_only (m : said) : Prop :=
  match m with SaidNothing => True | Said _ _ cs => Forall (fun c => fst c = lit "stdout" \/ fst c = lit "stderr") cs end.

(* polls of one process: the same receive request again and again *)
Definition poll_of (s : shell) (p : process) : sreq :=
  {| q_op := OpReceive; q_uri := sh_uri s; q_body := Some (receive_body (lit "stdout stderr") (pr_id p));
     q_options := Some keepalive; q_selectors := sh_selectors s; q_timeout := None |}.
