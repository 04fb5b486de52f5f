(* What the messages that open a pool and start a pipeline have to say: the
   object that is read at the other end.  Apart from how they are made. *)
From Verif Require Import Base Lit NumModel TextModel TextSpec MsgModel MsgSpec XmlModel SerModel SerClasses SerSpec SerSpec2 ClsSpec XtModel XtSpec WfModel WfSpec SendClasses ObjModel ObjSpec StartModel.
Local Open Scope list_scope.

Section Spec.
  Context (heap : list hobj).
  (* when a parameter arrives as it should *)
  Context (same : value -> value -> Prop).

  (* an instance of the class with attributes like these *)
  Definition has (cls : String.string) (l : list (String.string * (value -> Prop))) (v : value) : Prop :=
    exists n attrs, v = VObj n /\ nth_error heap n = Some (HCls (lit cls) attrs) /\
      Forall (fun f => exists w, dict_get str_eqb (lit (fst f)) attrs = Some w /\ snd f w) l.
  Definition all {A} (P : A -> value -> Prop) (l : list A) (v : value) : Prop := exists vs, v = VList vs /\ Forall2 P l vs.
  (* a member of an enumeration, with its number and its name *)
  Definition constant (cls : String.string) (z : Z) (name : list N) : value -> Prop :=
    has cls [("value"%string, eq (VInt z)); ("_to_string"%string, eq (VStr name))].

  (* where a stream of the command goes *)
  Definition goes_to (p : prt) (v : value) : Prop := exists t, prt_text p = Ok t /\ constant "PipelineResultTypes" (p_value p) t v.
  Definition goes_if (b : bool) (p : prt) (v : value) : Prop := if b then goes_to p v else v = VNone.
  Definition parameter (a : option (list N) * value) : value -> Prop :=
    has "CommandParameter" [("name"%string, eq (match fst a with Some n => VStr n | None => VNone end)); ("value"%string, same (snd a))].
  Definition command_read (c : command value) : value -> Prop :=
    has "Command"
      [("cmd", eq (VStr (c_cmd c))); ("is_script", eq (VBool (c_script c)));
       ("use_local_scope", eq (match c_scope c with Some b => VBool b | None => VNone end));
       ("merge_my_result", goes_to (c_my c)); ("merge_to_result", goes_to (c_to c)); ("merge_previous", goes_to (c_prev c));
       ("merge_error", goes_if (c_22 c) (c_error c)); ("merge_warning", goes_if (c_22 c) (c_warning c));
       ("merge_verbose", goes_if (c_22 c) (c_verbose c)); ("merge_debug", goes_if (c_22 c) (c_debug c));
       ("merge_information", goes_if (c_23 c) (c_info c)); ("args", all parameter (c_args c))]%string.
  (* the first statement, and all of them when there are several *)
  Definition statements_read (ss : list (list (command value))) (first rest : value) : Prop :=
    match ss with
    | [] => False
    | [s] => all command_read s first /\ rest = VNone
    | s :: _ => all command_read s first /\ all (fun s => has "Pipeline._ExtraCmds" [("cmds"%string, all command_read s)]) ss rest
    end.
  Definition pipeline_read (q : start) (ss : list (list (command value))) (v : value) : Prop :=
    exists first rest, statements_read ss first rest /\
      has "Pipeline" [("is_nested", eq (VBool (q_nested q))); ("_cmds", eq first); ("_extra_cmds", eq rest);
                      ("history", eq (match q_text q with Some t => VStr t | None => VNone end)); ("redirect_err_to_out", eq (VBool (q_redirect q)))]%string v.
  (* no host; a host without user interface; one without raw user interface *)
  Definition host_read (ho : option host) : value -> Prop :=
    has "HostInfo" [("_is_host_null", eq (VBool (match ho with None => true | _ => false end)));
                    ("_is_host_ui_null", eq (VBool (match ho with Some (Some _) => false | _ => true end)));
                    ("_is_host_raw_ui_null", eq (VBool true)); ("_host_data", eq VNone);
                    ("_use_runspace_host", eq (VBool (match ho with None => true | _ => false end)))]%string.
  Definition apartment_names : list (Z * list N) := [(0%Z, lit "STA"); (1%Z, lit "MTA"); (2%Z, lit "UNKNOWN")].
  Definition thread_names : list (Z * list N) := [(0%Z, lit "Default"); (1%Z, lit "UseNewThread"); (2%Z, lit "ReuseThread"); (3%Z, lit "UseCurrentThread")].
  Definition options_name (z : Z) : list N :=
    if Z.eqb z 15 then lit "AddInvocationInfo" else comma_separated (named_bits stream_option_names 0 z).

  Definition start_read (p : pool) (q : start) (apartment : Z) (ss : list (list (command value))) : value -> Prop :=
    has "CreatePipeline"
      [("no_input", eq (VBool (match q_input q with Some true => false | _ => true end)));
       ("apartment_state", fun v => exists t, In (apartment, t) apartment_names /\ constant "ApartmentState" apartment t v);
       ("remote_stream_options", constant "RemoteStreamOptions" (q_options q) (options_name (q_options q)));
       ("add_to_history", eq (VBool (q_history q))); ("host_info", host_read (pl_host p)); ("pipeline", pipeline_read q ss);
       ("is_nested", eq (VBool (q_nested q)))]%string.
  Definition open_read (p : pool) (arguments : value) : value -> Prop :=
    has "InitRunspacePool"
      [("min_runspaces", eq (VInt (pl_min p))); ("max_runspaces", eq (VInt (pl_max p)));
       ("thread_options", fun v => exists t, In (pl_thread p, t) thread_names /\ constant "PSThreadOptions" (pl_thread p) t v);
       ("apartment_state", fun v => exists t, In (pl_apartment p, t) apartment_names /\ constant "ApartmentState" (pl_apartment p) t v);
       ("host_info", host_read (pl_host p)); ("application_arguments", same arguments)]%string.
End Spec.

(* the apartment state asked for, or else that of the pool *)
Definition asked (p : pool) (q : start) : Z := match q_apartment q with Some z => z | None => pl_apartment p end.

(* the lists of type names in use, by their first name *)
Definition sending_names : list (list (list N)) :=
  ([list_names; dict_names] ++
   flat_map (fun e => (match cd_types (snd e) with [] => [] | ts => [ts] end) ++ flat_map (fun a => ClsSpec.declared (snd a)) (attributes (snd e))) sending_classes)%list.
Definition sending_canon (main : list N) : list (list N) :=
  match find (fun ts => match ts with t :: _ => str_eqb t main | [] => false end) sending_names with Some ts => ts | None => [] end.

(* ---- requests that can be written ---- *)
Section Fit.
  Context (ci : option cipher) (float_of : list N -> res (list N)) (heap : list hobj).
  Definition sayable (s : list N) : Prop := scalars s /\ ~ has_straddle s /\ said s.
  Definition maybe_sayable (o : option (list N)) : Prop := match o with Some s => sayable s | None => True end.
  (* a value of a parameter: C59 says which values arrive as copies *)
  Definition portable (v : value) : Prop := conforms ci float_of sending sending_canon heap said raw (Meta KPlain star (Some (lit "V")) false None) v.
  Definition fit_command (c : command value) : Prop :=
    sayable (c_cmd c) /\ Forall (fun e => exists t, prt_text (snd e) = Ok t) (sent_streams c) /\
    Forall (fun a => maybe_sayable (fst a) /\ portable (snd a)) (c_args c).
  Definition fit_pool (p : pool) : Prop :=
    In (pl_apartment p) (map fst apartment_names) /\ In (pl_thread p) (map fst thread_names) /\
    (forall r, pl_host p <> Some (Some (Some r))).
  Definition fit_start (q : start) : Prop :=
    (forall z, q_apartment q = Some z -> In z (map fst apartment_names)) /\ maybe_sayable (q_text q) /\
    q_commands q <> [] /\ Forall fit_command (q_commands q).
  Definition fit_arguments (v : value) : Prop :=
    v = VNone \/ exists d, v = VDict d /\ Forall (fun e => lone ci float_of said raw (fst e)) d /\ distinct_keys d /\
      Forall (fun e => conforms ci float_of sending sending_canon heap said raw (Meta KPlain star (Some (lit "Value")) false None) (snd e)) d.
End Fit.
