(* C66: what a pool and its pipelines say is what the server understands.
   Missing from the partial theorems: hosts with a raw user interface; values
   that do not arrive as copies (C59), texts that XML cannot carry (C60); the
   first fragment of an opening that needs several is all that is sent (C41). *)
From Verif Require Import Base BaseProofs Lit NumModel TextSpec TextModel Utf8Model XmlModel XtModel XtSpec XtProofs3 WsmanModel WsmanSpec ShellModel ShellSpec FragModel FragSpec MsgModel MsgSpec
  UtilModel TransModel SerModel SerClasses SerSpec ClsSpec WfSpec WireModel SendClasses ObjModel StartModel StartSpec StartProofs2 StartProps TellModel TellSpec LibModel TellProofs3.
From Verif Require Import PoolModel PoolSpec PoolToy PoolProofs12 EnvModel EnvSpec EnvProofs HomeSpec HomeProofs2 JobSpec JobProofs JobToy JobProps.
Local Open Scope list_scope.

(* Messages of every kind: they are packed, and their bytes are read with the same
   metadata, with whatever instances existed before, as an object of that type
   for that pool and pipeline that says what the message was made to say. *)
Theorem C66_messages_partial : forall HS RK (x : outside HS RK) heap hs key rid pid r p (l : list (omsg graph (command value))),
  usable_registry (x_registry x) -> guid_parse rid = Ok r -> match pid with Some s => guid_parse s | None => Ok guid_zero end = Ok p ->
  Forall (fit_message (option_map (x_cipher x) key) (x_float x) heap hs) l ->
  exists f0, forall fuel, f0 <= fuel -> exists bs, mapM (PoolModel.packed (library_env x fuel heap hs) key rid pid) l = Ok bs /\
    forall fuel', Forall2 (fun o b => understood (library_codec x fuel' key) r p b heap hs o) l bs.
Proof. intros HS RK x heap hs key rid pid r p l U. exact (messages_come x U heap hs key rid pid r p l). Qed.
Print Assumptions C66_messages_partial.

(* Starting a pipeline, from the call to what is understood: the requests are
   those of C65, and the messages that the server reassembles from their bytes
   are the creation of a pipeline with the commands and settings given, copies of
   the inputs in their order, and the end of input. *)
Theorem C66_started_partial : forall HS RK (x : outside HS RK) heap hs r a ms (w : world graph (command value) HS RK) rid pid,
  usable_registry (x_registry x) -> (forall b, speaks (x_srv x b)) -> writable_pool w -> to_send (ia_input a) = Some ms ->
  guid_parse (rp_id (w_pool w)) = Ok rid -> guid_parse (ps_id (the_ps r w)) = Ok pid ->
  let s := rp_sender (w_pool w) in let sh := rp_shell (w_pool w) in let key := rp_cipher (w_pool w) in let p := the_ps r w in
  let o := OCreate (match ia_input a with
                    | None => true | Some (InGen _) => false
                    | Some (InValue (IMany l)) => match l with [] => true | _ => false end
                    | Some (InValue (IOne g)) => untrue (snd g)
                    end)
             (match ia_apartment a with Some z => if Z.eqb z 0 then rp_apartment (w_pool w) else z | None => rp_apartment (w_pool w) end)
             (ia_options a) (ia_history a) (ps_commands p) (ps_nested p) (ps_history p) (ia_redirect a) in
  Forall (fit_message (option_map (x_cipher x) key) (x_float x) heap hs) (o :: ms) ->
  (1 <= sd_max s < 2 ^ 32)%Z -> (0 <= sd_counter s)%Z -> (sd_counter s + 1 + zlen ms <= 2 ^ 64)%Z ->
  exists f0, forall fuel, f0 <= fuel -> forall w', begin_invoke (library_env x fuel heap hs) r a w = (Ret tt, w') ->
  exists bs f rest q y qs cid ses, selected sh ses /\
    requests w w' ((q, WBody (Some y)) :: qs) /\
    request_read sh OpCommand (Some [(lit "WINRS_SKIP_CMD_SHELL", lit "False", [])]) ses None (launches (ps_id p) f) q /\
    Forall2 (fun d e => request_read sh OpSend None ses None (feeds (lit "stdin") d cid None) (fst e)) rest qs /\
    (r < length (w_heap w) -> forall z, find_first [rsp (lit "CommandResponse"); rsp (lit "CommandId")] y = Some z -> cid = Some (or_empty (x_text z))) /\
    (Forall (fun b => zlen b < 2 ^ 63)%Z bs ->
     forall rc, (forall k, (sd_counter s <= k)%Z -> dict_get Z.eqb k rc = None) -> delivered (snd (receive_calls rc (f :: rest))) = Ok bs) /\
    forall fuel', Forall2 (fun m b => understood (library_codec x fuel' key) rid pid b heap hs m) (o :: ms) bs.
Proof. intros HS RK x heap hs r a ms w rid pid U. exact (started x U heap hs r a ms w rid pid). Qed.
Print Assumptions C66_started_partial.

(* Opening a pool: the capabilities of the client and the settings of the pool
   with the arguments given.  When both fit into a block ([rest] is empty), it is
   all the server needs. *)
Theorem C66_opened_partial : forall HS RK (x : outside HS RK) heap hs a (w : world graph (command value) HS RK) rid,
  usable_registry (x_registry x) -> (forall b, speaks (x_srv x b)) -> writable_pool w ->
  rp_state (w_pool w) = rs_before_open -> sh_opened (rp_shell (w_pool w)) = false -> guid_parse (rp_id (w_pool w)) = Ok rid ->
  let s := rp_sender (w_pool w) in let sh := rp_shell (w_pool w) in let key := rp_cipher (w_pool w) in
  let o := OInit (rp_min (w_pool w)) (rp_max (w_pool w)) (rp_thread (w_pool w)) (rp_apartment (w_pool w)) a in
  fit_message (option_map (x_cipher x) key) (x_float x) heap hs o ->
  (1 <= sd_max s < 2 ^ 32)%Z -> (0 <= sd_counter s)%Z -> (sd_counter s + 2 <= 2 ^ 64)%Z ->
  exists f0, forall fuel, f0 <= fuel -> forall n w', pool_open (library_env x fuel heap hs) n a w = (Ret tt, w') ->
  exists b1 b2 f rest q y qs, requests w w' ((q, WBody y) :: qs) /\
    request_read sh OpCreate (Some (settings sh (Some [(lit "protocolversion", lit "2.3", [(lit "MustComply", lit "true")])]))) None None (opens sh f) q /\
    ((zlen b1 < 2 ^ 63)%Z -> (zlen b2 < 2 ^ 63)%Z ->
     forall rc, (forall k, (sd_counter s <= k)%Z -> dict_get Z.eqb k rc = None) -> delivered (snd (receive_calls rc (f :: rest))) = Ok [b1; b2]) /\
    forall fuel', understood (library_codec x fuel' key) rid (repeat 0%N 16) b1 heap hs (OCapability (lit "2.3") (lit "2.0") (lit "1.1.0.1")) /\
                  understood (library_codec x fuel' key) rid (repeat 0%N 16) b2 heap hs o.
Proof. intros HS RK x heap hs a w rid U. exact (opened x U heap hs a w rid). Qed.
Print Assumptions C66_opened_partial.

(* ---- a case: the pool is opened with arguments and a pipeline of two statements
   is started with three inputs ---- *)
Definition from_server (oid ty : Z) (g : graph) : bytes :=
  match message_pack start_wire (mkMsg dest_client ty (repeat 0%N 16) (repeat 0%N 16) (DObj ty g)) with
  | Ok b => match frag_pack (mkFrag oid 0 b true true) with Ok f => f | Err _ => [] end
  | Err _ => []
  end.
Definition lib_opened : wresult := Eval vm_compute in said_data
  [from_server 1 SESSION_CAPABILITY (put [] (instance "SessionCapability"
     [("protocol_version", VStr (lit "2.3")); ("ps_version", VStr (lit "2.0")); ("serialization_version", VStr (lit "1.1.0.1")); ("time_zone", SerModel.VNone); ("_to_string", SerModel.VNone)]%string)) ++
   from_server 2 RUNSPACEPOOL_STATE (put [] (instance "RunspacePoolStateMessage" [("state", SerModel.VInt 2); ("error_record", SerModel.VNone); ("_to_string", SerModel.VNone)]%string))].
Definition lib_outside : outside nat N := {|
  x_srv := scripted [lib_opened]; x_cipher := fun k => mkCipher 16 (fun b => b) (fun b => b); x_show := fun _ => []; x_xml := fun _ => []; x_float := fun s => Ok s; x_registry := library_registry;
  x_host := None; x_keygen := fun _ => 1%N; x_modulus := fun k => k; x_exponent := fun k => k; x_decrypt := fun _ b => Ok b; x_clock := fun h => Z.of_nat (length h); x_skeleton := 1200 |}.
Definition lib_world (payload : Z) : world graph (command value) nat N :=
  mkWorld (new_pool rpid 2 0 (lit "Microsoft.PowerShell") 1 1 60000 false None 153600 payload) [] [] 0%nat false [].
Definition lib_inputs : list graph := [([], VStr script); ([], SerModel.VInt 7); ([], VDict [(VStr (lit "k"), VList [SerModel.VInt (-1)])])].
Definition lib_args : invoke_args (Obj := graph) := mkArgs (Some (InGen [Some (IOne ([], VStr script)); Some (IMany (skipn 1 lib_inputs))])) true (Some 1%Z) false None.
Definition lib_arguments : graph := ([], VDict [(VStr (lit "User"), VStr script)]).
Definition lib_ops : list (nat * op (Obj := graph) (Cmd := command value)) :=
  map (fun o => (20, o)) [PoolOpen (Some lib_arguments); Create pid1; AddCommand 0 first_command; AddCommand 0 second_command].
Definition lib_env : env graph (command value) nat N := library_env lib_outside 12 [] None.
Definition lib_before : world graph (command value) nat N := Eval vm_compute in run_ops lib_env lib_ops (lib_world 5000).
Definition lib_create : omsg graph (command value) := OCreate false 1 None true [first_command; second_command] false None false.
(* what the messages in these requests say; the end of input has no text *)
Definition said_in (paths : list (list (list N))) (es : history) : list (message graph) :=
  match mapM (fun b => b) (flat_map (fun e => flat_map (fun path => blocks path (fst e)) paths) es) with
  | Ok fs => match delivered (snd (receive_calls [] fs)) with
             | Ok bs => flat_map (fun b => match message_unpack (library_codec lib_outside 0 None []) b with Ok m => [m] | Err _ => [] end) bs
             | Err _ => []
             end
  | Err _ => []
  end.
Definition heap_of (m : message graph) : graph := match m_data m with DObj _ g | DInput g | DOutput g => g | DPublicKeyRequest => ([], SerModel.VNone) end.
Lemma script_bears : bears None (fun s => Ok s) said raw (lit "S") (VStr script).
Proof. destruct script_sayable as (A1 & A2 & A3). apply be_str; [left; reflexivity|exact A1|exact A2|exact A3]. Qed.
Lemma lib_create_fits : fit_message None (fun s => Ok s) [] None lib_create.
Proof.
  destruct C63_case as (_ & _ & _ & _ & (_ & _ & _ & Fc) & _). split; [intros r; discriminate|]. split; [right; left; reflexivity|]. split; [exact I|]. split; [discriminate|exact Fc].
Qed.
Lemma lib_inputs_fit : Forall (fit_message None (fun s => Ok s) [] None) (map OInput lib_inputs ++ [OEnd]).
Proof.
  apply Forall_cons; [apply cf_star; exact script_bears|]. apply Forall_cons; [apply cf_star, be_int; vm_compute; tauto|]. apply Forall_cons; [|apply Forall_cons; [exact I|apply Forall_nil]].
  assert (K : sayable (lit "k")) by (apply printable_sayable; vm_compute; reflexivity). destruct K as (A1 & A2 & A3).
  apply cf_dict; [apply Forall_cons; [right; apply be_str; [left; reflexivity|exact A1|exact A2|exact A3]|apply Forall_nil]|cbn [distinct_keys]; repeat split; apply Forall_nil|].
  intros e [<- |[]]. apply cf_members. apply Forall_cons; [right; apply be_int; vm_compute; tauto|apply Forall_nil].
Qed.
Lemma lib_arguments_fit : fit_message None (fun s => Ok s) [] None (OInit (VInt 1) (VInt 1) 0 2 (Some lib_arguments)).
Proof.
  split; [eexists; reflexivity|]. split; [eexists; reflexivity|]. split; [intros r; discriminate|]. split; [right; right; left; reflexivity|]. split; [left; reflexivity|].
  destruct C63_case as (_ & _ & _ & _ & _ & _ & _ & _ & _ & _ & K). exact K.
Qed.
Lemma lib_speaks b : speaks (x_srv lib_outside b).
Proof.
  intros h q x. unfold lib_outside, x_srv, scripted.
  assert (P : forall r, r = said_ok \/ r = said_created \/ r = said_command \/ r = said_late \/ r = lib_opened -> r = WBody (Some x) -> spoken x).
  { intros r H. assert (K : match r with WBody (Some y) => spokenb y | _ => true end = true) by (destruct H as [->|[->|[->|[->| ->]]]]; vm_compute; reflexivity).
    intros ->. apply spokenb_ok, K. }
  destruct (q_op q); try (apply P; now auto). apply P. destruct (length _) as [|[|n]]; cbn [nth]; auto.
Qed.
Lemma lib_world_fit n : writable_pool (lib_world n).
Proof.
  split; [|split; [apply fit_lit; reflexivity|constructor]]. split.
  - unfold fit_shell. cbn [lib_world w_pool new_pool rp_shell]. repeat (split; [first [exact I|apply fit_lit; vm_compute; reflexivity]|]). exact I.
  - exists None. split; [reflexivity|exact I].
Qed.
Lemma lib_before_fit : writable_pool lib_before.
Proof.
  change lib_before with (let w := lib_before in w). assert (K : writable_pool (run_ops lib_env lib_ops (lib_world 5000))).
  { refine (proj1 (ops_legible lib_env lib_speaks _ _ _ (lib_world_fit 5000))). repeat (apply Forall_cons; [first [exact I|apply fit_lit; reflexivity]|]). apply Forall_nil. }
  replace lib_before with (run_ops lib_env lib_ops (lib_world 5000)) by (vm_compute; reflexivity). exact K.
Qed.
Definition lib_after : out unit * world graph (command value) nat N := Eval vm_compute in begin_invoke lib_env 0 lib_args lib_before.
Definition lib_heard : list (message graph) := Eval vm_compute in
  said_in [[rshell (lit "CommandLine"); rshell (lit "Arguments")]; [rshell (lit "Send"); rshell (lit "Stream")]] (skipn 2 (w_hist (snd lib_after))).
Definition lib_greeted : list (message graph) := Eval vm_compute in
  said_in [[rshell (lit "Shell"); lit "{http://schemas.microsoft.com/powershell}creationXml"]] (firstn 1 (w_hist lib_before)).
Example C66_case :
  usable_registry (x_registry lib_outside) /\ (forall b, speaks (x_srv lib_outside b)) /\ writable_pool (lib_world 5000) /\ writable_pool lib_before /\
  fst (pool_open lib_env 20 (Some lib_arguments) (lib_world 5000)) = Ret tt /\ begin_invoke lib_env 0 lib_args lib_before = lib_after /\ fst lib_after = Ret tt /\
  to_send (Cmd := command value) (ia_input lib_args) = Some (map OInput lib_inputs ++ [OEnd]) /\
  Forall (fit_message None (fun s => Ok s) [] None) (OInit (VInt 1) (VInt 1) 0 2 (Some lib_arguments) :: lib_create :: map OInput lib_inputs ++ [OEnd]) /\
  guid_parse (rp_id (w_pool lib_before)) = Ok (repeat 0%N 15 ++ [170%N]) /\ guid_parse (ps_id (the_ps 0 lib_before)) = Ok (repeat 0%N 15 ++ [177%N]) /\
  rp_cipher (w_pool lib_before) = None /\
  map m_type lib_greeted = [SESSION_CAPABILITY; INIT_RUNSPACEPOOL] /\
  flat_map (fun m => texts (fst (heap_of m)) "application_arguments") lib_greeted = [VDict [(VStr (lit "User"), VStr script)]] /\
  map m_type lib_heard = [CREATE_PIPELINE; PIPELINE_INPUT; PIPELINE_INPUT; PIPELINE_INPUT] /\
  flat_map (fun m => texts (fst (heap_of m)) "cmd") lib_heard = [VStr (lit "Get-Item"); VStr script; VStr (lit "Get-Item")] /\
  map heap_of (skipn 1 lib_heard) = lib_inputs.
Proof.
  split; [exact library_usable|]. split; [exact lib_speaks|]. split; [exact (lib_world_fit 5000)|]. split; [exact lib_before_fit|].
  split; [vm_compute; reflexivity|]. split; [vm_compute; reflexivity|]. split; [reflexivity|]. split; [reflexivity|].
  split; [apply Forall_cons; [exact lib_arguments_fit|]; apply Forall_cons; [exact lib_create_fits|exact lib_inputs_fit]|].
  repeat split; vm_compute; reflexivity.
Qed.
