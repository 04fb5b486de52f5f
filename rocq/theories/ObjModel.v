(* Model of parts of src/pypsrp/complex_objects.py: Array, Pipeline, the
   enumerations with textual flags, HostInfo; and of the command building and
   stream merging methods of PowerShell (src/pypsrp/powershell.py 978-1110,
   1319-1477, 1538-1560). *)
From Verif Require Import Base Lit NumModel UtilModel.

(* ------------------------------------------------------------------ *)
(* Array -- complex_objects.py 1431-1523 *)

(* a Python value that is a list of values or something else *)
Inductive arr (A : Type) : Type :=
| Leaf (a : A)
| Node (l : list (arr A)).
Arguments Leaf {A} _.
Arguments Node {A} _.

(* Array._get_list_entries(value), one element -- 1498-1506 *)
Fixpoint entries {A} (a : arr A) : list A :=
  match a with
  | Leaf x => [x]
  | Node l => flat_map entries l
  end.
Definition get_list_entries {A} (l : list (arr A)) : list A := flat_map entries l.

(* Array._get_list_count -- 1508-1520; current_entry[0] raises IndexError on
   an empty list *)
Fixpoint list_count {A} (a : arr A) : res (list nat) :=
  match a with
  | Leaf _ => Ok []
  | Node l =>
      match l with
      | [] => Err IndexError
      | x :: _ => do ds <- list_count x; Ok (length l :: ds)
      end
  end.
Definition get_list_count {A} (l : list (arr A)) : res (list nat) := list_count (Node l).

(* for i in range(0, length): entry.append(mae.pop(0)) -- 1482-1484 *)
Fixpoint pop_entries {A} (n : nat) (mae : list A) : res (list A * list A) :=
  match n with
  | O => Ok ([], mae)
  | S n' =>
      match mae with
      | [] => Err IndexError
      | x :: mae' => do '(e, r) <- pop_entries n' mae'; Ok (x :: e, r)
      end
  end.

(* the while loop -- 1481-1488.  A length of zero (or less) with elements left
   never ends: [OutOfFuel]. *)
Fixpoint groups {A} (fuel : nat) (n : nat) (mae : list (arr A)) : res (list (arr A)) :=
  match fuel with
  | O => Err OutOfFuel
  | S fuel' =>
      do '(e, r) <- pop_entries n mae;
      match r with
      | [] => Ok [Node e]
      | _ :: _ => do vs <- groups fuel' n r; Ok (Node e :: vs)
      end
  end.

(* Array._build_array(mae, mal) -- 1477-1496.  [rmal] is mal reversed since
   mal.pop(-1) takes from its end; mal.pop(-1) of an empty list raises.  The
   dimensions received are ints; range(0, d) of a negative d is empty. *)
Fixpoint build_rev {A} (mae : list (arr A)) (rmal : list Z) : res (list (arr A)) :=
  match rmal with
  | [] => Err IndexError
  | d :: rest =>
      do values <- groups (S (length mae)) (Z.to_nat d) mae;
      match rest with
      | [] => match values with
              | Node l :: _ => Ok l
              | _ => Err IndexError
              end
      | [_] => Ok values
      | _ => build_rev values rest
      end
  end.
Definition build_array {A} (mae : list (arr A)) (mal : list Z) : res (list (arr A)) :=
  build_rev mae (rev mal).

(* ------------------------------------------------------------------ *)
(* Enum._to_string -- complex_objects.py 143-150: the map is a dictionary; a
   value of None counts as 0 *)
Fixpoint zassoc {A} (k : Z) (m : list (Z * A)) : option A :=
  match m with
  | [] => None
  | (k', a) :: m' => if Z.eqb k k' then Some a else zassoc k m'
  end.
Definition value_or_zero (v : option Z) : Z := match v with Some z => z | None => 0%Z end.
Definition enum_to_string (m : list (Z * list N)) (v : option Z) : res (list N) :=
  match zassoc (value_or_zero v) m with
  | Some s => Ok s
  | None => Err KeyError
  end.

(* the loop over (name, flag) pairs -- 391-395 and 1167-1171 *)
Fixpoint flag_values (m : list (list N * Z)) (v : Z) : list (list N) :=
  match m with
  | [] => []
  | (name, flag) :: m' =>
      if Z.eqb (Z.land v flag) flag then name :: flag_values m' v else flag_values m' v
  end.

(* RemoteStreamOptions._to_string -- 381-395 *)
Definition remote_stream_options (v : option Z) : list N :=
  if (match v with Some z => Z.eqb z 15 | None => false end) then lit "AddInvocationInfo"
  else
      join (lit ", ")
        (flag_values [(lit "AddInvocationInfoToErrorRecord", 1%Z);
                      (lit "AddInvocationInfoToWarningRecord", 2%Z);
                      (lit "AddInvocationInfoToDebugRecord", 4%Z);
                      (lit "AddInvocationInfoToVerboseRecord", 8%Z)] (value_or_zero v)).

(* CommandType._to_string -- 1152-1171 *)
Definition command_type (v : option Z) : list N :=
  if (match v with Some z => Z.eqb z 511 | None => false end) then lit "All"
  else
      join (lit ", ")
        (flag_values [(lit "Alias", 1%Z); (lit "Function", 2%Z); (lit "Filter", 4%Z);
                      (lit "Cmdlet", 8%Z); (lit "ExternalScript", 16%Z); (lit "Application", 32%Z);
                      (lit "Script", 64%Z); (lit "Workflow", 128%Z); (lit "Configuration", 256%Z)]
           (value_or_zero v)).

(* PipelineResultTypes -- 1544-1598 *)
Record prt : Type := { p_v2 : bool; p_value : Z }.
Definition prt_map (v2 : bool) : list (Z * list N) :=
  if v2 then
    [(0, lit "None"); (1, lit "Output"); (2, lit "Error"); (3, lit "Output, Error")]%Z
  else
    [(0, lit "None"); (1, lit "Output"); (2, lit "Error"); (3, lit "Warning"); (4, lit "Verbose");
     (5, lit "Debug"); (6, lit "Information"); (7, lit "All"); (8, lit "Null")]%Z.
(* what is serialized for it: the number and its text *)
Definition prt_text (p : prt) : res (list N) := enum_to_string (prt_map (p_v2 p)) (Some (p_value p)).
Definition prt_none : prt := {| p_v2 := false; p_value := 0 |}.
Definition prt_of (z : Z) : prt := {| p_v2 := false; p_value := z |}.

(* ------------------------------------------------------------------ *)
(* Command -- complex_objects.py 526-632.  [V] is the type of parameter
   values.  [c_22]/[c_23] record which of the optional groups of extended
   properties were added at construction (565-604). *)
Record command (V : Type) : Type := {
  c_cmd : list N;
  c_script : bool;
  c_scope : option bool;
  c_my : prt; c_to : prt; c_prev : prt;
  c_error : prt; c_warning : prt; c_verbose : prt; c_debug : prt; c_info : prt;
  c_args : list (option (list N) * V);
  c_end : bool;
  c_22 : bool; c_23 : bool }.
Arguments c_cmd {V} _. Arguments c_script {V} _. Arguments c_scope {V} _.
Arguments c_my {V} _. Arguments c_to {V} _. Arguments c_prev {V} _.
Arguments c_error {V} _. Arguments c_warning {V} _. Arguments c_verbose {V} _.
Arguments c_debug {V} _. Arguments c_info {V} _. Arguments c_args {V} _.
Arguments c_end {V} _. Arguments c_22 {V} _. Arguments c_23 {V} _.

(* Command.__init__ as called by add_cmdlet/add_script -- 526-632 *)
Definition command_new {V} (version cmd : list N) (script : bool) (scope : option bool) : res (command V) :=
  do b22 <- version_equal_or_newer version (lit "2.2");
  do b23 <- version_equal_or_newer version (lit "2.3");
  Ok {| c_cmd := cmd; c_script := script; c_scope := scope;
        c_my := prt_none; c_to := prt_none; c_prev := prt_none;
        c_error := prt_none; c_warning := prt_none; c_verbose := prt_none;
        c_debug := prt_none; c_info := prt_none;
        c_args := []; c_end := false; c_22 := b22; c_23 := b23 |}.

(* the merge properties of _extended_properties, in order -- 567-604 *)
Definition sent_streams {V} (c : command V) : list (list N * prt) :=
  [(lit "MergeMyResult", c_my c); (lit "MergeToResult", c_to c); (lit "MergePreviousResults", c_prev c)] ++
  (if c_22 c then [(lit "MergeError", c_error c); (lit "MergeWarning", c_warning c);
                   (lit "MergeVerbose", c_verbose c); (lit "MergeDebug", c_debug c)] else []) ++
  (if c_23 c then [(lit "MergeInformation", c_info c)] else []).

(* attribute updates *)
Definition set_end {V} (b : bool) (c : command V) : command V :=
  {| c_cmd := c_cmd c; c_script := c_script c; c_scope := c_scope c; c_my := c_my c; c_to := c_to c;
     c_prev := c_prev c; c_error := c_error c; c_warning := c_warning c; c_verbose := c_verbose c;
     c_debug := c_debug c; c_info := c_info c; c_args := c_args c; c_end := b; c_22 := c_22 c; c_23 := c_23 c |}.
Definition add_arg {V} (a : option (list N) * V) (c : command V) : command V :=
  {| c_cmd := c_cmd c; c_script := c_script c; c_scope := c_scope c; c_my := c_my c; c_to := c_to c;
     c_prev := c_prev c; c_error := c_error c; c_warning := c_warning c; c_verbose := c_verbose c;
     c_debug := c_debug c; c_info := c_info c; c_args := c_args c ++ [a]; c_end := c_end c;
     c_22 := c_22 c; c_23 := c_23 c |}.
(* the attribute names used with setattr and assignments *)
Inductive mattr : Type := MMy | MTo | MPrev | MError | MWarning | MVerbose | MDebug | MInfo.
Definition set_merge {V} (m : mattr) (p : prt) (c : command V) : command V :=
  {| c_cmd := c_cmd c; c_script := c_script c; c_scope := c_scope c;
     c_my := match m with MMy => p | _ => c_my c end;
     c_to := match m with MTo => p | _ => c_to c end;
     c_prev := match m with MPrev => p | _ => c_prev c end;
     c_error := match m with MError => p | _ => c_error c end;
     c_warning := match m with MWarning => p | _ => c_warning c end;
     c_verbose := match m with MVerbose => p | _ => c_verbose c end;
     c_debug := match m with MDebug => p | _ => c_debug c end;
     c_info := match m with MInfo => p | _ => c_info c end;
     c_args := c_args c; c_end := c_end c; c_22 := c_22 c; c_23 := c_23 c |}.

(* ------------------------------------------------------------------ *)
(* Pipeline -- complex_objects.py 402-523 *)

(* self.commands[-1].attr = ... ; IndexError without commands *)
Fixpoint update_last {A} (f : A -> A) (l : list A) : res (list A) :=
  match l with
  | [] => Err IndexError
  | [x] => Ok [f x]
  | x :: l' => do r <- update_last f l'; Ok (x :: r)
  end.

(* the splitting loop -- 513-522 *)
Fixpoint split_statements {V} (current : list (command V)) (cmds : list (command V)) : list (list (command V)) :=
  match cmds with
  | [] => []
  | c :: cs =>
      if c_end c then (current ++ [c]) :: split_statements [] cs
      else split_statements (current ++ [c]) cs
  end.

(* Pipeline._get_statements -- 507-523: also changes the last command *)
Definition get_statements {V} (cmds : list (command V)) : res (list (list (command V))) :=
  do cmds' <- update_last (set_end true) cmds;
  Ok (split_statements [] cmds').

(* the two properties serialized -- 466-469 and 481-491 *)
Definition pipeline_cmds {V} (cmds : list (command V)) : res (list (command V)) :=
  do ss <- get_statements cmds;
  match ss with s :: _ => Ok s | [] => Err IndexError end.
Definition pipeline_extra {V} (cmds : list (command V)) : res (option (list (list (command V)))) :=
  do ss <- get_statements cmds;
  Ok (if Nat.ltb (length ss) 2 then None else Some ss).

(* the setters, as run when a message is read: ExtraCmds first, then Cmds
   (order of _extended_properties) -- 471-479, 493-505.  [None] is the initial
   value of commands.  A command read from the wire has end_of_statement
   False (632). *)
Fixpoint set_extra {V} (commands : list (command V)) (value : list (list (command V))) : res (list (command V)) :=
  match value with
  | [] => Ok commands
  | s :: ss => do cs <- update_last (set_end true) (commands ++ s); set_extra cs ss
  end.
Definition set_extra_cmds {V} (commands : option (list (command V))) (value : option (list (list (command V)))) :
  res (option (list (command V))) :=
  match value with
  | None => Ok commands
  | Some v => do cs <- set_extra [] v; Ok (Some cs)
  end.
Definition set_cmds {V} (commands : option (list (command V))) (value : list (command V)) : option (list (command V)) :=
  match commands with
  | Some (c :: cs) => Some (c :: cs)
  | _ => Some value
  end.

(* the wire keeps everything of a command except end_of_statement (629-632) *)
Definition received {V} (c : command V) : command V := set_end false c.
Definition pipeline_receive {V} (extra : option (list (list (command V)))) (cmds : list (command V)) :
  res (option (list (command V))) :=
  do c <- set_extra_cmds None (option_map (map (map received)) extra);
  Ok (set_cmds c (map received cmds)).

(* ------------------------------------------------------------------ *)
(* PowerShell: building commands -- powershell.py 978-1110.  The state is the
   command list; the negotiated protocol version comes from the pool and is
   None before the negotiation.  Commands are values here: adding one Command
   object twice and changing it afterwards is not modelled.  Each method
   returns the new state and the exception raised, if any. *)
Record builder (V : Type) : Type := { b_commands : list (command V); b_version : option (list N) }.
Arguments b_commands {V} _. Arguments b_version {V} _.
Definition with_commands {V} (b : builder V) (cs : list (command V)) : builder V :=
  {| b_commands := cs; b_version := b_version b |}.

Inductive outcome : Type := Done | Raised (e : exn).

Definition bop (V : Type) : Type := builder V -> builder V * outcome.
Definition then_do {V} (f g : bop V) : bop V :=
  fun b => let (b1, o) := f b in match o with Done => g b1 | Raised e => (b1, Raised e) end.

(* self.runspace_pool.protocol_version or "" *)
Definition version_or_empty (v : option (list N)) : list N := match v with Some s => s | None => [] end.

(* an update of self.commands[-1] *)
Definition on_last {V} (f : command V -> command V) : bop V :=
  fun b => match update_last f (b_commands b) with
           | Ok cs => (with_commands b cs, Done)
           | Err e => (b, Raised e)
           end.

(* add_cmdlet 1008-1031, add_script 1071-1090 *)
Definition add_new {V} (cmd : list N) (script : bool) (scope : option bool) : bop V :=
  fun b => match command_new (version_or_empty (b_version b)) cmd script scope with
           | Ok c => (with_commands b (b_commands b ++ [c]), Done)
           | Err e => (b, Raised e)
           end.
(* add_command 995-1006 *)
Definition add_command {V} (c : command V) : bop V :=
  fun b => (with_commands b (b_commands b ++ [c]), Done).
(* add_argument 978-993, add_parameter 1033-1053 *)
Definition add_argument {V} (v : V) : bop V := on_last (add_arg (None, v)).
Definition add_parameter {V} (name : list N) (v : V) : bop V := on_last (add_arg (Some name, v)).
(* add_parameters 1055-1069 *)
Fixpoint add_parameters {V} (ps : list (list N * V)) : bop V :=
  match ps with
  | [] => fun b => (b, Done)
  | (n, v) :: ps' => then_do (add_parameter n v) (add_parameters ps')
  end.
(* add_statement 1092-1101 *)
Definition add_statement {V} : bop V := on_last (set_end true).
(* clear_commands 1103-1109 *)
Definition clear_commands {V} : bop V := fun b => (with_commands b [], Done).

(* ------------------------------------------------------------------ *)
(* PowerShell: merging -- powershell.py 1319-1477, 1538-1560 *)
Definition in_list (s : list N) (l : list (list N)) : bool := existsb (str_eqb s) l.

(* getattr(PipelineResultTypes, to.upper()) for the admitted names *)
Definition prt_named (to : list N) : prt :=
  if str_eqb to (lit "output") then prt_of 1
  else if str_eqb to (lit "null") then prt_of 8
  else prt_of 0.

(* _set_merge_to 1538-1560 *)
Definition set_merge_to {V} (m : mattr) (to : list N) (valid : list (list N)) (minimum : option (list N)) : bop V :=
  fun b =>
    if negb (in_list to valid) then (b, Raised InvalidPSRPOperation)
    else
      match (match minimum with
             | None => Ok true
             | Some v => version_equal_or_newer (version_or_empty (b_version b)) v
             end) with
      | Err e => (b, Raised e)
      | Ok false => (b, Raised InvalidPSRPOperation)
      | Ok true => on_last (set_merge m (prt_named to)) b
      end.
Definition default_valid : list (list N) := [lit "none"; lit "null"; lit "output"].

(* merge_error 1366-1389: the v2 attributes are set from the value just set *)
Definition merge_error {V} (to : list N) : bop V :=
  then_do (set_merge_to MError to [lit "none"; lit "output"] None)
      (on_last (fun c =>
         let my := if str_eqb to (lit "none") then c_error c else prt_of 2 in
         let c1 := set_merge MMy my c in
         set_merge MTo (c_error c1) c1)).
Definition merge_warning {V} (to : list N) : bop V := set_merge_to MWarning to default_valid (Some (lit "2.2")).
Definition merge_verbose {V} (to : list N) : bop V := set_merge_to MVerbose to default_valid (Some (lit "2.2")).
Definition merge_debug {V} (to : list N) : bop V := set_merge_to MDebug to default_valid (Some (lit "2.2")).
Definition merge_information {V} (to : list N) : bop V := set_merge_to MInfo to default_valid (Some (lit "2.3")).

Definition when_version {V} (v : list N) (f : bop V) : bop V :=
  fun b => match version_equal_or_newer (version_or_empty (b_version b)) v with
           | Err e => (b, Raised e)
           | Ok true => f b
           | Ok false => (b, Done)
           end.

(* merge_all 1341-1364 *)
Definition merge_all {V} (to : list N) : bop V :=
  then_do (merge_error to)
  (then_do (when_version (lit "2.2") (then_do (merge_debug to) (then_do (merge_verbose to) (merge_warning to))))
       (when_version (lit "2.3") (merge_information to))).

(* merge_previous 1319-1339; OUTPUT | ERROR is 3 *)
Definition merge_previous {V} (enabled : bool) : bop V :=
  on_last (set_merge MPrev {| p_v2 := true; p_value := if enabled then 3 else 0 |}).

(* merge_reset 1467-1477 *)
Definition merge_reset {V} : bop V := then_do (merge_previous false) (merge_all (lit "none")).

(* ------------------------------------------------------------------ *)
(* HostInfo and _HostDefaultData -- complex_objects.py 657-779.  [C] the
   colours, [P] positions, [S] sizes: only passed on. *)
Record raw_ui : Type := {
  r_fg : Z; r_bg : Z; r_cursor : Z * Z; r_window : Z * Z; r_cursor_size : Z;
  r_buffer : Z * Z; r_wsize : Z * Z; r_maxw : Z * Z; r_maxp : Z * Z; r_title : list N }.
(* host.ui and host.ui.raw_ui may each be None *)
Definition host : Type := option (option raw_ui).

(* the T/V structures of the entries -- 660-711 *)
Inductive hentry : Type :=
| HColor (v : Z)                 (* _Color: System.ConsoleColor *)
| HCoord (x y : Z)               (* _Coordinates *)
| HSize (w h : Z)                (* _Size *)
| HInt (v : Z)                   (* _DictValue System.Int32 *)
| HString (s : list N).          (* _DictValue System.String *)

(* _host_dict 713-726 *)
Definition host_dict (r : raw_ui) : list (Z * hentry) :=
  [(0, HColor (r_fg r)); (1, HColor (r_bg r));
   (2, HCoord (fst (r_cursor r)) (snd (r_cursor r)));
   (3, HCoord (fst (r_window r)) (snd (r_window r)));
   (4, HInt (r_cursor_size r));
   (5, HSize (fst (r_buffer r)) (snd (r_buffer r)));
   (6, HSize (fst (r_wsize r)) (snd (r_wsize r)));
   (7, HSize (fst (r_maxw r)) (snd (r_maxw r)));
   (8, HSize (fst (r_maxp r)) (snd (r_maxp r)));
   (9, HString (r_title r))]%Z.

(* 750-778 *)
Definition is_host_null (h : option host) : bool := match h with None => true | Some _ => false end.
Definition is_host_ui_null (h : option host) : bool :=
  match h with Some ui => (match ui with None => true | Some _ => false end) | None => true end.
Definition is_host_raw_ui_null (h : option host) : bool :=
  match h with Some (Some raw) => (match raw with None => true | Some _ => false end) | _ => true end.
Definition use_runspace_host (h : option host) : bool := match h with None => true | Some _ => false end.
Definition host_data (h : option host) : option (list (Z * hentry)) :=
  if is_host_raw_ui_null h then None
  else match h with
       | Some (Some (Some r)) => Some (host_dict r)
       | _ => None
       end.
