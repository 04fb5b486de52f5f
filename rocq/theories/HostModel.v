(* Model of the host classes, src/pypsrp/host.py:27-1181, and of the names of
   the host methods, src/pypsrp/complex_objects.py:125-148, 1057-1127.

   Not modelled: log messages; the element that GetVersion gets from the
   serializer is taken from an oracle. *)
From Verif Require Import Base Lit ShellModel.

(* complex_objects.py:1067-1124, the string map of HostMethodIdentifier *)
Definition method_names : list (Z * list N) :=
  [(1%Z, lit "GetName"); (2%Z, lit "GetVersion"); (3%Z, lit "GetInstanceId");
   (4%Z, lit "GetCurrentCulture"); (5%Z, lit "GetCurrentUICulture"); (6%Z, lit "SetShouldExit");
   (7%Z, lit "EnterNestedPrompt"); (8%Z, lit "ExitNestedPrompt");
   (9%Z, lit "NotifyBeginApplication"); (10%Z, lit "NotifyEndApplication");
   (11%Z, lit "ReadLine"); (12%Z, lit "ReadLineAsSecureString");
   (13%Z, lit "Write1"); (14%Z, lit "Write2");
   (15%Z, lit "WriteLine1"); (16%Z, lit "WriteLine2"); (17%Z, lit "WriteLine3");
   (18%Z, lit "WriteErrorLine"); (19%Z, lit "WriteDebugLine"); (20%Z, lit "WriteProgress");
   (21%Z, lit "WriteVerboseLine"); (22%Z, lit "WriteWarningLine"); (23%Z, lit "Prompt");
   (24%Z, lit "PromptForCredential1"); (25%Z, lit "PromptForCredential2"); (26%Z, lit "PromptForChoice");
   (27%Z, lit "GetForegroundColor"); (28%Z, lit "SetForegroundColor");
   (29%Z, lit "GetBackgroundColor"); (30%Z, lit "SetBackgroundColor");
   (31%Z, lit "GetCursorPosition"); (32%Z, lit "SetCursorPosition");
   (33%Z, lit "GetWindowPosition"); (34%Z, lit "SetWindowPosition");
   (35%Z, lit "GetCursorSize"); (36%Z, lit "SetCursorSize");
   (37%Z, lit "GetBufferSize"); (38%Z, lit "SetBufferSize");
   (39%Z, lit "GetWindowSize"); (40%Z, lit "SetWindowSize");
   (41%Z, lit "GetWindowTitle"); (42%Z, lit "SetWindowTitle");
   (43%Z, lit "GetMaxWindowSize"); (44%Z, lit "GetMaxPhysicalWindowSize");
   (45%Z, lit "GetKeyAvailable"); (46%Z, lit "ReadKey"); (47%Z, lit "FlushInputBuffer");
   (48%Z, lit "SetBufferContents1"); (49%Z, lit "SetBufferContents2");
   (50%Z, lit "GetBufferContents"); (51%Z, lit "ScrollBufferContents");
   (52%Z, lit "PushRunspace"); (53%Z, lit "PopRunspace"); (54%Z, lit "GetIsRunspacePushed");
   (55%Z, lit "GetRunspce"); (56%Z, lit "PromptForChoiceMultipleSelection")].

(* str(identifier): complex_objects.py:107-108, 141-148; util.to_string leaves
   a str as it is.  The value None counts as 0. *)
Definition method_name (mi : option Z) : res (list N) :=
  match dict_get Z.eqb (match mi with Some z => z | None => 0%Z end) method_names with
  | Some s => Ok s
  | None => Err KeyError
  end.

Section Dispatch.
  (* [Val]: arguments and results; [HS]: the state of the host objects *)
  Context {Val HS : Type}.

  (* A bound method: called with the pipeline and the arguments after it. *)
  Definition method : Type := option (list N) -> list Val -> HS -> out (option Val) * HS.
  (* The methods of an object, as found by getattr. *)
  Definition attributes : Type := list N -> option method.
  (* A host, its ui and the raw_ui of that; any of them may depend on the
     state.  An ui without the attribute raw_ui is one whose raw_ui is None
     (host.py:103). *)
  Record host := mkHost {
    h_own : attributes;
    h_ui : HS -> option attributes;
    h_raw : HS -> option attributes
  }.

  (* getattr(object, name), AttributeError for None and for unknown names *)
  Definition getattr (o : option attributes) (name : list N) : res method :=
    match o with
    | Some a => match a name with Some f => Ok f | None => Err AttributeError end
    | None => Err AttributeError
    end.

  (* host.py:97-98, 100-101, 103-104: the attribute is looked up, then called
     with the arguments spread; [spread] fails for what is not iterable *)
  Definition call (o : option attributes) (mi : option Z) (args : res (list Val)) (pipeline : option (list N)) (st : HS)
    : out (option Val) * HS :=
    match (do name <- method_name mi; do f <- getattr o name; do a <- args; Ok (f, a)) with
    | Ok (f, a) => f pipeline a st
    | Err e => (Raise (XExn e), st)
    end.

  (* PSHost.run_method: host.py:71-108 *)
  Definition run_method (H : host) (mi : option Z) (args : res (list Val)) (pipeline : option (list N)) (st : HS)
    : out (option Val) * HS :=
    let n := match mi with Some z => z | None => 0%Z end in
    if Z.ltb n 11 then call (Some (h_own H)) mi args pipeline st
    else if Z.ltb n 27 then call (h_ui H st) mi args pipeline st
    else if Z.ltb n 52 then call (match h_ui H st with Some _ => h_raw H st | None => None end) mi args pipeline st
    else (Ret None, st).
End Dispatch.
Arguments host : clear implicits.
Arguments method : clear implicits.
Arguments attributes : clear implicits.

(* ---- the default implementations ---- *)
(* The values that come from the deserializer or are built by the host: text,
   numbers, booleans, a color, a pair of coordinates, a size, a generic object
   with its extended properties, and anything else. *)
Inductive pyval :=
| PNone | PStr (s : list N) | PInt (z : Z) | PBool (b : bool)
| PColor (v : pyval) | PCoord (x y : pyval) | PSize (width height : pyval)
| PObj (extended : list (list N * pyval))
| POther (n : N).

(* The attributes of PSHost, PSHostUserInterface and PSHostRawUserInterface:
   host.py:60-69, 296-301, 718-729 *)
Record hstate := mkHState {
  hs_name : pyval; hs_version : pyval; hs_instance : pyval; hs_culture : pyval; hs_ui_culture : pyval;
  hs_rc : pyval;
  hs_stdout : list pyval; hs_stderr : list pyval;
  hs_key : pyval; hs_title : pyval; hs_cursor_size : pyval; hs_fore : pyval; hs_back : pyval;
  hs_cursor : pyval; hs_window : pyval; hs_buffer_size : pyval; hs_max_physical : pyval;
  hs_max_window : pyval; hs_window_size : pyval
}.

Definition set_hs_rc v s := mkHState (hs_name s) (hs_version s) (hs_instance s) (hs_culture s) (hs_ui_culture s) v (hs_stdout s) (hs_stderr s) (hs_key s) (hs_title s) (hs_cursor_size s) (hs_fore s) (hs_back s) (hs_cursor s) (hs_window s) (hs_buffer_size s) (hs_max_physical s) (hs_max_window s) (hs_window_size s).
Definition set_hs_stdout v s := mkHState (hs_name s) (hs_version s) (hs_instance s) (hs_culture s) (hs_ui_culture s) (hs_rc s) v (hs_stderr s) (hs_key s) (hs_title s) (hs_cursor_size s) (hs_fore s) (hs_back s) (hs_cursor s) (hs_window s) (hs_buffer_size s) (hs_max_physical s) (hs_max_window s) (hs_window_size s).
Definition set_hs_stderr v s := mkHState (hs_name s) (hs_version s) (hs_instance s) (hs_culture s) (hs_ui_culture s) (hs_rc s) (hs_stdout s) v (hs_key s) (hs_title s) (hs_cursor_size s) (hs_fore s) (hs_back s) (hs_cursor s) (hs_window s) (hs_buffer_size s) (hs_max_physical s) (hs_max_window s) (hs_window_size s).
Definition set_hs_title v s := mkHState (hs_name s) (hs_version s) (hs_instance s) (hs_culture s) (hs_ui_culture s) (hs_rc s) (hs_stdout s) (hs_stderr s) (hs_key s) v (hs_cursor_size s) (hs_fore s) (hs_back s) (hs_cursor s) (hs_window s) (hs_buffer_size s) (hs_max_physical s) (hs_max_window s) (hs_window_size s).
Definition set_hs_cursor_size v s := mkHState (hs_name s) (hs_version s) (hs_instance s) (hs_culture s) (hs_ui_culture s) (hs_rc s) (hs_stdout s) (hs_stderr s) (hs_key s) (hs_title s) v (hs_fore s) (hs_back s) (hs_cursor s) (hs_window s) (hs_buffer_size s) (hs_max_physical s) (hs_max_window s) (hs_window_size s).
Definition set_hs_fore v s := mkHState (hs_name s) (hs_version s) (hs_instance s) (hs_culture s) (hs_ui_culture s) (hs_rc s) (hs_stdout s) (hs_stderr s) (hs_key s) (hs_title s) (hs_cursor_size s) v (hs_back s) (hs_cursor s) (hs_window s) (hs_buffer_size s) (hs_max_physical s) (hs_max_window s) (hs_window_size s).
Definition set_hs_back v s := mkHState (hs_name s) (hs_version s) (hs_instance s) (hs_culture s) (hs_ui_culture s) (hs_rc s) (hs_stdout s) (hs_stderr s) (hs_key s) (hs_title s) (hs_cursor_size s) (hs_fore s) v (hs_cursor s) (hs_window s) (hs_buffer_size s) (hs_max_physical s) (hs_max_window s) (hs_window_size s).
Definition set_hs_cursor v s := mkHState (hs_name s) (hs_version s) (hs_instance s) (hs_culture s) (hs_ui_culture s) (hs_rc s) (hs_stdout s) (hs_stderr s) (hs_key s) (hs_title s) (hs_cursor_size s) (hs_fore s) (hs_back s) v (hs_window s) (hs_buffer_size s) (hs_max_physical s) (hs_max_window s) (hs_window_size s).
Definition set_hs_window v s := mkHState (hs_name s) (hs_version s) (hs_instance s) (hs_culture s) (hs_ui_culture s) (hs_rc s) (hs_stdout s) (hs_stderr s) (hs_key s) (hs_title s) (hs_cursor_size s) (hs_fore s) (hs_back s) (hs_cursor s) v (hs_buffer_size s) (hs_max_physical s) (hs_max_window s) (hs_window_size s).
Definition set_hs_buffer_size v s := mkHState (hs_name s) (hs_version s) (hs_instance s) (hs_culture s) (hs_ui_culture s) (hs_rc s) (hs_stdout s) (hs_stderr s) (hs_key s) (hs_title s) (hs_cursor_size s) (hs_fore s) (hs_back s) (hs_cursor s) (hs_window s) v (hs_max_physical s) (hs_max_window s) (hs_window_size s).
Definition set_hs_window_size v s := mkHState (hs_name s) (hs_version s) (hs_instance s) (hs_culture s) (hs_ui_culture s) (hs_rc s) (hs_stdout s) (hs_stderr s) (hs_key s) (hs_title s) (hs_cursor_size s) (hs_fore s) (hs_back s) (hs_cursor s) (hs_window s) (hs_buffer_size s) (hs_max_physical s) (hs_max_window s) v.

Section Default.
  (* [version]: runspace.serialize(version, ObjectMeta("Version")) of
     host.py:144-146; [shown]: "%s" % value of what is not a str *)
  Context (version : pyval -> res pyval) (shown : pyval -> res (list N)).

  Notation meth := (method pyval hstate).
  (* A method of k arguments after the pipeline; another number of arguments
     is a TypeError. *)
  Definition arity0 (f : hstate -> res (option pyval) * hstate) : meth :=
    fun _ args st => match args with
    | [] => match f st with (Ok v, st') => (Ret v, st') | (Err e, st') => (Raise (XExn e), st') end
    | _ => (Raise (XExn TypeError), st) end.
  Definition arity1 (f : pyval -> hstate -> res (option pyval) * hstate) : meth :=
    fun _ args st => match args with
    | [a] => match f a st with (Ok v, st') => (Ret v, st') | (Err e, st') => (Raise (XExn e), st') end
    | _ => (Raise (XExn TypeError), st) end.
  (* methods that only take so many arguments and do nothing with them, or
     raise NotImplementedError *)
  Definition ignore (k : nat) : meth :=
    fun _ args st => if Nat.eqb (length args) k then (Ret None, st) else (Raise (XExn TypeError), st).
  Definition missing (low high : nat) : meth :=
    fun _ args st => if (Nat.leb low (length args) && Nat.leb (length args) high)%bool
                     then (Raise (XExn NotImplementedError), st) else (Raise (XExn TypeError), st).

  (* a value as the result of a method: None is no result *)
  Definition answer (v : pyval) : option pyval := match v with PNone => None | _ => Some v end.
  Definition reads (f : hstate -> pyval) : meth := arity0 (fun st => (Ok (answer (f st)), st)).
  Definition stores (f : pyval -> hstate -> hstate) : meth := arity1 (fun v st => (Ok None, f v st)).

  Definition crlf : list N := [13; 10]%N.
  (* value + "\r\n" *)
  Definition plus_crlf (v : pyval) : res pyval :=
    match v with PStr s => Ok (PStr (s ++ crlf)) | _ => Err TypeError end.
  (* "PREFIX: %s\r\n" % message *)
  Definition prefixed (prefix : list N) (v : pyval) : res pyval :=
    do s <- match v with PStr s => Ok s | _ => shown v end; Ok (PStr (prefix ++ s ++ crlf)).
  Definition out_line (r : res pyval) (st : hstate) : res (option pyval) * hstate :=
    match r with Ok v => (Ok None, set_hs_stdout (hs_stdout st ++ [v]) st) | Err e => (Err e, st) end.
  Definition err_line (r : res pyval) (st : hstate) : res (option pyval) * hstate :=
    match r with Ok v => (Ok None, set_hs_stderr (hs_stderr st ++ [v]) st) | Err e => (Err e, st) end.
  (* foreground and background color come before the text: host.py:357-383, 417-443 *)
  Definition third (f : pyval -> hstate -> res (option pyval) * hstate) : meth :=
    fun p args st => match args with [_; _; v] => arity1 f p [v] st | _ => (Raise (XExn TypeError), st) end.

  (* object.extended_properties[key] *)
  Definition property (key : list N) (v : pyval) : res pyval :=
    match v with
    | PObj ps => match dict_get str_eqb key ps with Some x => Ok x | None => Err KeyError end
    | _ => Err AttributeError
    end.
  (* host.py:823-824, 858-859 and 925-926, 958-959 *)
  Definition coordinates (v : pyval) : res pyval :=
    do x <- property (lit "x") v; do y <- property (lit "y") v; Ok (PCoord x y).
  Definition size (v : pyval) : res pyval :=
    do h <- property (lit "height") v; do w <- property (lit "width") v; Ok (PSize w h).
  Definition stores_as (conv : pyval -> res pyval) (f : pyval -> hstate -> hstate) : meth :=
    arity1 (fun v st => match conv v with Ok x => (Ok None, f x st) | Err e => (Err e, st) end).

  (* host.py:113-276 *)
  Definition default_own : list (list N * meth) :=
    [(lit "GetName", reads hs_name);
     (lit "GetVersion", arity0 (fun st => (do v <- version (hs_version st); Ok (answer v), st)));
     (lit "GetInstanceId", reads hs_instance);
     (lit "GetCurrentCulture", reads hs_culture);
     (lit "GetCurrentUICulture", reads hs_ui_culture);
     (lit "SetShouldExit", stores set_hs_rc);
     (lit "EnterNestedPrompt", missing 0 0);
     (lit "ExitNestedPrompt", missing 0 0);
     (lit "NotifyBeginApplication", ignore 0);
     (lit "NotifyEndApplication", ignore 0)].
  (* host.py:303-671 *)
  Definition default_ui : list (list N * meth) :=
    [(lit "ReadLine", missing 0 0);
     (lit "ReadLineAsSecureString", missing 0 0);
     (lit "Write1", arity1 (fun v => out_line (Ok v)));
     (lit "Write2", third (fun v => out_line (Ok v)));
     (lit "WriteLine1", arity0 (out_line (Ok (PStr crlf))));
     (lit "WriteLine2", arity1 (fun v => out_line (plus_crlf v)));
     (lit "WriteLine3", third (fun v => out_line (plus_crlf v)));
     (lit "WriteErrorLine", arity1 (fun v => err_line (plus_crlf v)));
     (lit "WriteDebugLine", arity1 (fun v => out_line (prefixed (lit "DEBUG: ") v)));
     (lit "WriteProgress", ignore 2);
     (lit "WriteVerboseLine", arity1 (fun v => out_line (prefixed (lit "VERBOSE: ") v)));
     (lit "WriteWarningLine", arity1 (fun v => out_line (prefixed (lit "WARNING: ") v)));
     (lit "Prompt", missing 3 3);
     (lit "PromptForCredential1", missing 4 4);
     (lit "PromptForCredential2", missing 6 6);
     (lit "PromptForChoice", missing 4 4)].
  (* host.py:731-1181 *)
  Definition default_raw : list (list N * meth) :=
    [(lit "GetForegroundColor", reads hs_fore);
     (lit "SetForegroundColor", stores (fun v => set_hs_fore (PColor v)));
     (lit "GetBackgroundColor", reads hs_back);
     (lit "SetBackgroundColor", stores (fun v => set_hs_back (PColor v)));
     (lit "GetCursorPosition", reads hs_cursor);
     (lit "SetCursorPosition", stores_as coordinates set_hs_cursor);
     (lit "GetWindowPosition", reads hs_window);
     (lit "SetWindowPosition", stores_as coordinates set_hs_window);
     (lit "GetCursorSize", reads hs_cursor_size);
     (lit "SetCursorSize", stores set_hs_cursor_size);
     (lit "GetBufferSize", reads hs_buffer_size);
     (lit "SetBufferSize", stores_as size set_hs_buffer_size);
     (lit "GetWindowSize", reads hs_window_size);
     (lit "SetWindowSize", stores_as size set_hs_window_size);
     (lit "GetWindowTitle", reads hs_title);
     (lit "SetWindowTitle", stores set_hs_title);
     (lit "GetMaxWindowSize", reads hs_max_window);
     (lit "GetMaxPhysicalWindowSize", reads hs_max_physical);
     (lit "GetKeyAvailable", reads hs_key);
     (lit "ReadKey", missing 0 1);
     (lit "FlushInputBuffer", ignore 0);
     (lit "SetBufferContents1", ignore 2);
     (lit "SetBufferContents2", ignore 2);
     (lit "GetBufferContents", missing 1 1);
     (lit "ScrollBufferContents", ignore 4)].

  Definition lookup (l : list (list N * meth)) : attributes pyval hstate := fun name => dict_get str_eqb name l.
  (* PSHost(ui=PSHostUserInterface(raw_ui=PSHostRawUserInterface(...)), ...) *)
  Definition default_host : host pyval hstate :=
    mkHost (lookup default_own) (fun _ => Some (lookup default_ui)) (fun _ => Some (lookup default_raw)).

  (* a sequence of host calls *)
  Fixpoint run_calls (l : list (Z * list pyval)) (st : hstate) : list (out (option pyval)) * hstate :=
    match l with
    | [] => ([], st)
    | (mi, args) :: l' =>
        let '(r, st1) := run_method default_host (Some mi) (Ok args) None st in
        let '(rs, st2) := run_calls l' st1 in (r :: rs, st2)
    end.
End Default.
