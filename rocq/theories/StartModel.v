(* The messages that open a pool and start a pipeline, as graphs of instances:
   src/pypsrp/powershell.py:547-557 and 1231-1250 with the constructors of
   src/pypsrp/complex_objects.py and src/pypsrp/messages.py.  The checks before
   them are in PoolModel.v.

   A command is a value here (ObjModel.v); the copies that _get_statements makes
   of the commands with deepcopy, and of the objects among their parameters,
   cannot be told from the originals by what is written. *)
From Verif Require Import Base Lit NumModel MsgModel XmlModel SerModel SerClasses ObjModel.
Local Open Scope list_scope.

(* a constructor call: a new instance *)
Definition put (h : list hobj) (o : hobj) : list hobj * value := (h ++ [o], VObj (length h)).
Fixpoint put_all {A} (f : list hobj -> A -> list hobj * value) (h : list hobj) (l : list A) : list hobj * list value :=
  match l with
  | [] => (h, [])
  | a :: l' => let '(h1, v) := f h a in let '(h2, vs) := put_all f h1 l' in (h2, v :: vs)
  end.
Definition instance (c : String.string) (attrs : list (String.string * value)) : hobj :=
  HCls (lit c) (map (fun e => (lit (fst e), snd e)) attrs).
(* Enum subclasses called with value=...: complex_objects.py:125-139 *)
Definition put_enum (c : String.string) (h : list hobj) (z : Z) : list hobj * value := put h (instance c [("value"%string, VInt z)]).
Definition maybe_text (s : option (list N)) : value := match s with Some t => VStr t | None => VNone end.
Definition maybe_flag (b : option bool) : value := match b with Some x => VBool x | None => VNone end.

(* complex_objects.py:1568-1598 *)
Definition prt_instance (p : prt) : hobj :=
  instance "PipelineResultTypes" [("value"%string, VInt (p_value p)); ("protocol_version_2"%string, VBool (p_v2 p))].
(* An attribute for which the version of the command has no property is not
   written.  Simplified: it is None here, as an optional property. *)
Definition put_stream (h : list hobj) (p : option prt) : list hobj * value :=
  match p with Some q => put h (prt_instance q) | None => (h, VNone) end.
Definition put_argument (h : list hobj) (a : option (list N) * value) : list hobj * value :=
  put h (instance "CommandParameter" [("name"%string, maybe_text (fst a)); ("value"%string, snd a); ("_to_string"%string, VNone)]).
(* complex_objects.py:606-636; the attributes in the order of the properties *)
Definition stream_names : list String.string :=
  ["merge_my_result"; "merge_to_result"; "merge_previous"; "merge_error"; "merge_warning"; "merge_verbose"; "merge_debug"; "merge_information"]%string.
Definition streams {V} (c : command V) : list (option prt) :=
  [Some (c_my c); Some (c_to c); Some (c_prev c);
   if c_22 c then Some (c_error c) else None; if c_22 c then Some (c_warning c) else None;
   if c_22 c then Some (c_verbose c) else None; if c_22 c then Some (c_debug c) else None;
   if c_23 c then Some (c_info c) else None].
Definition put_command (h : list hobj) (c : command value) : list hobj * value :=
  let '(h1, ms) := put_all put_stream h (streams c) in
  let '(h2, args) := put_all put_argument h1 (c_args c) in
  put h2 (instance "Command"
    ([("cmd", VStr (c_cmd c)); ("is_script", VBool (c_script c)); ("use_local_scope", maybe_flag (c_scope c))]%string
     ++ combine stream_names ms ++ [("args", VList args); ("_to_string", VNone)]%string)).

(* Pipeline: complex_objects.py:451-491 *)
Definition put_extra (h : list hobj) (s : list (command value)) : list hobj * value :=
  let '(h1, vs) := put_all put_command h s in
  put h1 (instance "Pipeline._ExtraCmds" [("cmds"%string, VList vs); ("_to_string"%string, VNone)]).
Definition put_pipeline (h : list hobj) (nested : bool) (cs : list (command value)) (history : option (list N)) (redirect : bool) : res (list hobj * value) :=
  do extra <- pipeline_extra cs;
  do first <- pipeline_cmds cs;
  let '(h1, ev) := match extra with
    | None => (h, VNone)
    | Some ss => let '(h1, vs) := put_all put_extra h ss in (h1, VList vs)
    end in
  let '(h2, vs) := put_all put_command h1 first in
  Ok (put h2 (instance "Pipeline"
    [("is_nested", VBool nested); ("_extra_cmds", ev); ("_cmds", VList vs); ("history", maybe_text history);
     ("redirect_err_to_out", VBool redirect); ("_to_string", VNone)]%string)).

(* HostInfo: complex_objects.py:657-779 *)
Definition generic (l : list (String.string * value)) : hobj :=
  HGen (mkG [] VNone [] [] (map (fun e => (lit (fst e), snd e)) l)).
Definition put_hentry (h : list hobj) (e : hentry) : list hobj * value :=
  match e with
  | HColor z => put h (instance "_HostDefaultData._Color" [("type"%string, VStr (lit "System.ConsoleColor")); ("color"%string, VInt z); ("_to_string"%string, VNone)])
  | HCoord x y =>
      let '(h1, v) := put h (generic [("x"%string, VInt x); ("y"%string, VInt y)]) in
      put h1 (instance "_HostDefaultData._Coordinates" [("type"%string, VStr (lit "System.Management.Automation.Host.Coordinates")); ("value"%string, v); ("_to_string"%string, VNone)])
  | HSize x y =>
      let '(h1, v) := put h (generic [("width"%string, VInt x); ("height"%string, VInt y)]) in
      put h1 (instance "_HostDefaultData._Size" [("type"%string, VStr (lit "System.Management.Automation.Host.Size")); ("value"%string, v); ("_to_string"%string, VNone)])
  | HInt z => put h (instance "_HostDefaultData._DictValue" [("value_type"%string, VStr (lit "System.Int32")); ("value"%string, VInt z); ("_to_string"%string, VNone)])
  | HString s => put h (instance "_HostDefaultData._DictValue" [("value_type"%string, VStr (lit "System.String")); ("value"%string, VStr s); ("_to_string"%string, VNone)])
  end.
Definition put_host_data (h : list hobj) (d : list (Z * hentry)) : list hobj * value :=
  let '(h1, vs) := put_all put_hentry h (map snd d) in
  put h1 (instance "_HostDefaultData" [("_host_dict"%string, VTuple (combine (map (fun e => VInt (fst e)) d) vs)); ("_to_string"%string, VNone)]).
Definition put_host (h : list hobj) (hs : option host) : list hobj * value :=
  let '(h1, d) := match host_data hs with Some d => put_host_data h d | None => (h, VNone) end in
  put h1 (instance "HostInfo"
    [("_host_data", d); ("_is_host_null", VBool (is_host_null hs)); ("_is_host_ui_null", VBool (is_host_ui_null hs));
     ("_is_host_raw_ui_null", VBool (is_host_raw_ui_null hs)); ("_use_runspace_host", VBool (use_runspace_host hs)); ("_to_string", VNone)]%string).

(* What begin_invoke is given, powershell.py:1196-1203, and what it takes from the
   PowerShell object.  [q_input]: no input, or the truth of the object given. *)
Record start := mkStart {
  q_input : option bool; q_history : bool; q_apartment : option Z; q_redirect : bool; q_options : Z;
  q_nested : bool; q_text : option (list N); q_commands : list (command value) }.
(* the attributes of the pool that are used, powershell.py:97-175 *)
Record pool := mkPool { pl_apartment : Z; pl_thread : Z; pl_min : Z; pl_max : Z; pl_host : option host }.

(* powershell.py:1232-1250: [apartment_state or ...] also drops 0 *)
Definition no_input (q : start) : bool := match q_input q with Some true => false | _ => true end.
Definition apartment_used (p : pool) (q : start) : Z :=
  match q_apartment q with Some z => if Z.eqb z 0 then pl_apartment p else z | None => pl_apartment p end.
Definition put_start (h : list hobj) (p : pool) (q : start) : res (list hobj * value) :=
  let '(h1, hv) := put_host h (pl_host p) in
  do '(h2, pv) <- put_pipeline h1 (q_nested q) (q_commands q) (q_text q) (q_redirect q);
  let '(h3, av) := put_enum "ApartmentState" h2 (apartment_used p q) in
  let '(h4, sv) := put_enum "RemoteStreamOptions" h3 (q_options q) in
  Ok (put h4 (instance "CreatePipeline"
    [("no_input", VBool (no_input q)); ("apartment_state", av); ("remote_stream_options", sv); ("add_to_history", VBool (q_history q));
     ("host_info", hv); ("pipeline", pv); ("is_nested", VBool (q_nested q)); ("_to_string", VNone)]%string)).

(* powershell.py:548-556 *)
Definition put_open (h : list hobj) (p : pool) (arguments : value) : list hobj * value :=
  let '(h1, tv) := put_enum "PSThreadOptions" h (pl_thread p) in
  let '(h2, av) := put_enum "ApartmentState" h1 (pl_apartment p) in
  let '(h3, hv) := put_host h2 (pl_host p) in
  put h3 (instance "InitRunspacePool"
    [("min_runspaces", VInt (pl_min p)); ("max_runspaces", VInt (pl_max p)); ("thread_options", tv); ("apartment_state", av);
     ("host_info", hv); ("application_arguments", arguments); ("_to_string", VNone)]%string).
