(* Property theorems C37, C38, C42, C43, C44. *)
From Verif Require Import Base Lit ObjModel ObjSpec UtilSpec ObjProofs ObjProofs2 ObjProofs3 ObjProofs4.

(* C37: the dimensions found are those of the array, and rebuilding the
   flattened array gives it back *)
Theorem C37_array_roundtrip : forall (A : Type) (ds : list nat) (l : list (arr A)),
  ds <> [] -> Forall (fun d => (0 < d)%nat) ds -> shaped ds (Node l) ->
  get_list_count l = Ok ds /\
  build_array (map Leaf (get_list_entries l)) (map Z.of_nat ds) = Ok l.
Proof. exact @array_roundtrip. Qed.
Print Assumptions C37_array_roundtrip.

(* the element list is in row-major order and complete *)
Theorem C37_array_order : forall (A : Type) (ds : list nat) (l : list (arr A)) (idx : list nat),
  shaped ds (Node l) -> in_bounds ds idx ->
  length (get_list_entries l) = product ds /\
  exists x, at_index (Node l) idx = Some x /\
            nth_error (get_list_entries l) (row_major ds idx) = Some x.
Proof. exact @array_row_major. Qed.
Print Assumptions C37_array_order.

(* the other direction: what a server sends is rebuilt with the dimensions
   and the elements sent *)
Theorem C37_array_received : forall (A : Type) (ds : list nat) (xs : list A),
  ds <> [] -> Forall (fun d => (0 < d)%nat) ds -> length xs = product ds ->
  exists l, build_array (map Leaf xs) (map Z.of_nat ds) = Ok l /\
            shaped ds (Node l) /\ get_list_entries l = xs.
Proof. exact @array_received. Qed.
Print Assumptions C37_array_received.

(* a number of elements that the last dimension does not divide is refused *)
Theorem C37_array_mismatch : forall (A : Type) (mae : list (arr A)) (mal : list Z) (d : Z),
  (0 < d)%Z -> (length mae mod Z.to_nat d <> 0)%nat ->
  build_array mae (mal ++ [d]) = Err IndexError.
Proof. exact @array_mismatch. Qed.
Print Assumptions C37_array_mismatch.

(* findings: an array with a zero dimension cannot be sent at all, and a
   received zero last dimension with elements keeps the client in its loop
   however long it runs *)
Theorem C37_zero_dimension_refuted :
  (exists l : list (arr N), shaped [2; 0]%nat (Node l) /\ get_list_count l = Err IndexError) /\
  (forall (x : arr N) (mae : list (arr N)) (steps : nat), groups steps 0 (x :: mae) = Err OutOfFuel).
Proof. exact zero_dimension. Qed.
Print Assumptions C37_zero_dimension_refuted.

Example C37_case :
  let l := [Node [Node [Leaf 1; Leaf 2]; Node [Leaf 3; Leaf 4]; Node [Leaf 5; Leaf 6]];
            Node [Node [Leaf 7; Leaf 8]; Node [Leaf 9; Leaf 10]; Node [Leaf 11; Leaf 12]]]%N in
  shaped [2; 3; 2]%nat (Node l) /\ in_bounds [2; 3; 2]%nat [1; 0; 1]%nat /\
  get_list_count l = Ok [2; 3; 2]%nat /\ at_index (Node l) [1; 0; 1]%nat = Some 8%N /\
  build_array (map Leaf (get_list_entries l)) [2; 3; 2]%Z = Ok l.
Proof. exact array_case. Qed.

(* C38 *)
Theorem C38_statements_cut : forall (V : Type) (cs : list (command V)), cs <> [] ->
  exists ss, get_statements cs = Ok ss /\ cut_at_marks cs ss.
Proof. exact @statements_cut. Qed.
Print Assumptions C38_statements_cut.

Theorem C38_sent_properties : forall (V : Type) (cs : list (command V)) (ss : list (list (command V))),
  get_statements cs = Ok ss ->
  exists first extra, pipeline_cmds cs = Ok first /\ pipeline_extra cs = Ok extra /\
    hd_error ss = Some first /\ (extra = None <-> length ss = 1%nat) /\
    (forall e, extra = Some e -> e = ss).
Proof. exact @pipeline_properties. Qed.
Print Assumptions C38_sent_properties.

(* reading the message back gives the same commands and the same statements *)
Theorem C38_pipeline_roundtrip : forall (V : Type) (cs : list (command V)), cs <> [] ->
  exists extra first cs', pipeline_extra cs = Ok extra /\ pipeline_cmds cs = Ok first /\
    pipeline_receive extra first = Ok (Some cs') /\
    map unmarked cs' = map unmarked cs /\ get_statements cs' = get_statements cs.
Proof. exact @pipeline_roundtrip. Qed.
Print Assumptions C38_pipeline_roundtrip.

(* statements built with add_command and add_statement are the ones sent,
   whether or not the last one is closed *)
Theorem C38_built_statements : forall (V : Type) (gs : list (list (command V))) (g : list (command V))
    (close : bool) (version : option (list N)),
  Forall (fun s => s <> [] /\ Forall (fun c => c_end c = false) s) (gs ++ [g]) ->
  exists b ss,
    perform (concat (map statement_calls gs) ++ map add_command g ++ (if close then [add_statement] else []))
      {| b_commands := []; b_version := version |} = (b, Done) /\
    get_statements (b_commands b) = Ok ss /\ same_commands ss (gs ++ [g]).
Proof. exact @builder_statements. Qed.
Print Assumptions C38_built_statements.

(* without a command there is nothing to mark, nothing to add to and nothing
   to send *)
Theorem C38_no_commands : forall (V : Type) (b : builder V) (v : V) (n : list N), b_commands b = [] ->
  get_statements (b_commands b) = Err IndexError /\
  add_statement b = (b, Raised IndexError) /\ add_argument v b = (b, Raised IndexError) /\
  add_parameter n v b = (b, Raised IndexError).
Proof. exact @no_commands. Qed.
Print Assumptions C38_no_commands.

(* arguments and parameters go to the last command, in order, and change
   nothing else *)
Theorem C38_parameters_in_order : forall (V : Type) (b : builder V) (init : list (command V)) (c : command V)
    (ps : list (list N * V)), b_commands b = init ++ [c] ->
  exists c', add_parameters ps b = (with_commands b (init ++ [c']), Done) /\
    c_args c' = c_args c ++ map (fun p => (Some (fst p), snd p)) ps /\
    c_cmd c' = c_cmd c /\ c_end c' = c_end c /\ sent_streams c' = sent_streams c.
Proof. exact @parameters_in_order. Qed.
Print Assumptions C38_parameters_in_order.

Example C38_case :
  exists a b c : command N,
    command_new (lit "2.3") (lit "a") false None = Ok a /\ command_new (lit "2.3") (lit "b") false None = Ok b /\
    command_new (lit "2.3") (lit "c") true None = Ok c /\
    (exists ss, get_statements [a; set_end true b; c] = Ok ss /\ map (map c_cmd) ss = [[lit "a"; lit "b"]; [lit "c"]]) /\
    Forall (fun s => s <> [] /\ Forall (fun c => c_end c = false) s) ([[a; b]] ++ [[c]]).
Proof. exact statements_case. Qed.

(* C42 *)
Theorem C42_merge_sets_stream : forall (V : Type) (s : stream) (to : list N) (b : builder V)
    (init : list (command V)) (c : command V) (v : list (list N)),
  b_commands b = init ++ [c] -> b_version b = Some (dotted v) -> version_parts v ->
  (to = lit "none" \/ to = lit "output" \/ to = lit "null") -> ~ older v (stream_minimum s) ->
  exists c', merge_stream s to b = (with_commands b (init ++ [c']), Done) /\
    same_but_stream s c c' /\ target_value to (p_value (stream_value s c')) /\
    p_v2 (stream_value s c') = false.
Proof. exact @merge_stream_ok. Qed.
Print Assumptions C42_merge_sets_stream.

Theorem C42_merge_refused : forall (V : Type) (s : stream) (to : list N) (b : builder V) (v : list (list N)),
  b_version b = Some (dotted v) -> version_parts v ->
  ~ (to = lit "none" \/ to = lit "output" \/ to = lit "null") \/ older v (stream_minimum s) ->
  merge_stream s to b = (b, Raised InvalidPSRPOperation).
Proof. exact @merge_stream_refused. Qed.
Print Assumptions C42_merge_refused.

(* merging errors: only none and output; the two attributes used by old
   servers follow *)
Theorem C42_merge_error : forall (V : Type) (to : list N) (b : builder V) (init : list (command V)) (c : command V),
  b_commands b = init ++ [c] ->
  (to = lit "none" -> exists c', merge_error to b = (with_commands b (init ++ [c']), Done) /\
     is_default (c_error c') /\ is_default (c_my c') /\ is_default (c_to c') /\
     c_prev c' = c_prev c /\ (forall s, stream_value s c' = stream_value s c) /\
     c_cmd c' = c_cmd c /\ c_args c' = c_args c /\ c_end c' = c_end c) /\
  (to = lit "output" -> exists c', merge_error to b = (with_commands b (init ++ [c']), Done) /\
     prt_text (c_error c') = Ok (lit "Output") /\ prt_text (c_my c') = Ok (lit "Error") /\
     prt_text (c_to c') = Ok (lit "Output") /\
     c_prev c' = c_prev c /\ (forall s, stream_value s c' = stream_value s c) /\
     c_cmd c' = c_cmd c /\ c_args c' = c_args c /\ c_end c' = c_end c) /\
  (to <> lit "none" -> to <> lit "output" -> merge_error to b = (b, Raised InvalidPSRPOperation)).
Proof. exact @merge_error_all. Qed.
Print Assumptions C42_merge_error.

(* merge_reset: default on every stream the version supports, the others and
   everything else unchanged *)
Theorem C42_merge_reset : forall (V : Type) (b : builder V) (init : list (command V)) (c : command V) (v : list (list N)),
  b_commands b = init ++ [c] -> b_version b = Some (dotted v) -> version_parts v ->
  exists c', merge_reset b = (with_commands b (init ++ [c']), Done) /\
    is_default (c_my c') /\ is_default (c_to c') /\ is_default (c_prev c') /\ is_default (c_error c') /\
    (forall s, ~ older v (stream_minimum s) -> is_default (stream_value s c')) /\
    (forall s, older v (stream_minimum s) -> stream_value s c' = stream_value s c) /\
    c_cmd c' = c_cmd c /\ c_script c' = c_script c /\ c_scope c' = c_scope c /\ c_args c' = c_args c /\
    c_end c' = c_end c /\ c_22 c' = c_22 c /\ c_23 c' = c_23 c.
Proof. exact @merge_reset_ok. Qed.
Print Assumptions C42_merge_reset.

(* merge_all to output: every supported stream goes to the output *)
Theorem C42_merge_all_output : forall (V : Type) (b : builder V) (init : list (command V)) (c : command V) (v : list (list N)),
  b_commands b = init ++ [c] -> b_version b = Some (dotted v) -> version_parts v ->
  exists c', merge_all (lit "output") b = (with_commands b (init ++ [c']), Done) /\
    prt_text (c_error c') = Ok (lit "Output") /\
    (forall s, ~ older v (stream_minimum s) -> prt_text (stream_value s c') = Ok (lit "Output")) /\
    (forall s, older v (stream_minimum s) -> stream_value s c' = stream_value s c).
Proof. exact @merge_all_output. Qed.
Print Assumptions C42_merge_all_output.

(* a command made for a protocol version carries the merge properties of that
   version, all at their default *)
Theorem C42_command_streams : forall (V : Type) (v : list (list N)) (cmd : list N) (script : bool) (scope : option bool),
  version_parts v ->
  exists c : command V, command_new (dotted v) cmd script scope = Ok c /\
    c_cmd c = cmd /\ c_script c = script /\ c_scope c = scope /\ c_args c = [] /\ c_end c = false /\
    Forall (fun p => is_default (snd p)) (sent_streams c) /\
    map fst (sent_streams c) =
      [lit "MergeMyResult"; lit "MergeToResult"; lit "MergePreviousResults"] ++
      (if c_22 c then [lit "MergeError"; lit "MergeWarning"; lit "MergeVerbose"; lit "MergeDebug"] else []) ++
      (if c_23 c then [lit "MergeInformation"] else []) /\
    (In (lit "MergeWarning") (map fst (sent_streams c)) <-> ~ older v [lit "2"; lit "2"]) /\
    (In (lit "MergeInformation") (map fst (sent_streams c)) <-> ~ older v [lit "2"; lit "3"]).
Proof. exact @command_streams. Qed.
Print Assumptions C42_command_streams.

(* finding: before the version is negotiated the failure is a ValueError, for
   merging and for adding a command *)
Theorem C42_no_version_refuted : exists b : builder N,
  b_version b = None /\ b_commands b <> [] /\
  (forall s, merge_stream s (lit "output") b = (b, Raised ValueError)) /\
  add_new (lit "Get-Item") false None b = (b, Raised ValueError).
Proof. exact no_version. Qed.
Print Assumptions C42_no_version_refuted.

Example C42_case :
  exists (c : command N), command_new (lit "2.2") (lit "a") false None = Ok c /\
    let b := {| b_commands := [] ++ [c]; b_version := Some (dotted [lit "2"; lit "2"]) |} in
    version_parts [lit "2"; lit "2"] /\ ~ older [lit "2"; lit "2"] (stream_minimum SWarning) /\
    older [lit "2"; lit "2"] (stream_minimum SInformation) /\
    snd (merge_warning (lit "output") b) = Done /\
    snd (merge_information (lit "output") b) = Raised InvalidPSRPOperation.
Proof. exact merge_case. Qed.

(* C43 *)
Theorem C43_host_flags : forall h : option host,
  (is_host_null h = true -> is_host_ui_null h = true) /\
  (is_host_ui_null h = true -> is_host_raw_ui_null h = true) /\
  use_runspace_host h = is_host_null h /\
  (is_host_null h = true <-> h = None) /\
  (is_host_ui_null h = true <-> (h = None \/ h = Some None)) /\
  (is_host_raw_ui_null h = false <-> exists r, h = Some (Some (Some r))).
Proof. exact host_flags. Qed.
Print Assumptions C43_host_flags.

Theorem C43_host_data : forall h : option host,
  (host_data h = None <-> is_host_raw_ui_null h = true) /\
  (forall r, h = Some (Some (Some r)) -> exists d, host_data h = Some d /\
     map fst d = map Z.of_nat (List.seq 0 10) /\
     zassoc 0 d = Some (HColor (r_fg r)) /\ zassoc 1 d = Some (HColor (r_bg r)) /\
     zassoc 2 d = Some (HCoord (fst (r_cursor r)) (snd (r_cursor r))) /\
     zassoc 3 d = Some (HCoord (fst (r_window r)) (snd (r_window r))) /\
     zassoc 4 d = Some (HInt (r_cursor_size r)) /\
     zassoc 5 d = Some (HSize (fst (r_buffer r)) (snd (r_buffer r))) /\
     zassoc 6 d = Some (HSize (fst (r_wsize r)) (snd (r_wsize r))) /\
     zassoc 7 d = Some (HSize (fst (r_maxw r)) (snd (r_maxw r))) /\
     zassoc 8 d = Some (HSize (fst (r_maxp r)) (snd (r_maxp r))) /\
     zassoc 9 d = Some (HString (r_title r))).
Proof. exact host_data_spec. Qed.
Print Assumptions C43_host_data.

Example C43_case :
  let r := {| r_fg := 1; r_bg := 2; r_cursor := (3, 4); r_window := (5, 6); r_cursor_size := 7;
              r_buffer := (8, 9); r_wsize := (10, 11); r_maxw := (12, 13); r_maxp := (14, 15); r_title := lit "t" |}%Z in
  is_host_raw_ui_null (Some (Some (Some r))) = false /\ host_data (Some (Some (Some r))) <> None /\
  is_host_ui_null (Some None) = true /\ is_host_null (Some None) = false.
Proof. exact host_case. Qed.

(* C44 *)
Theorem C44_stream_options_text : forall v : option Z,
  remote_stream_options v =
    if (match v with Some z => Z.eqb z 15 | None => false end) then lit "AddInvocationInfo"
    else comma_separated (named_bits stream_option_names 0 (value_or_zero v)).
Proof. exact remote_stream_text. Qed.
Print Assumptions C44_stream_options_text.

Theorem C44_command_type_text : forall v : option Z,
  command_type v =
    if (match v with Some z => Z.eqb z 511 | None => false end) then lit "All"
    else comma_separated (named_bits command_type_names 0 (value_or_zero v)).
Proof. exact command_type_text. Qed.
Print Assumptions C44_command_type_text.

Theorem C44_texts_distinct : forall a b : Z,
  ((0 <= a < 16)%Z -> (0 <= b < 16)%Z -> remote_stream_options (Some a) = remote_stream_options (Some b) -> a = b) /\
  ((0 <= a < 512)%Z -> (0 <= b < 512)%Z -> command_type (Some a) = command_type (Some b) -> a = b).
Proof. exact texts_distinct. Qed.
Print Assumptions C44_texts_distinct.

(* the full-mask names are used for the full mask only *)
Theorem C44_full_mask : forall v : option Z,
  (remote_stream_options v = lit "AddInvocationInfo" <-> v = Some 15%Z) /\
  (command_type v = lit "All" <-> v = Some 511%Z).
Proof. exact full_mask. Qed.
Print Assumptions C44_full_mask.

(* PipelineResultTypes: a text exactly for the defined values, distinct per map *)
Theorem C44_result_types : forall (v2 : bool) (a b : Z) (s : list N),
  ((exists t, prt_text {| p_v2 := v2; p_value := a |} = Ok t) <-> (0 <= a <= (if v2 then 3 else 8))%Z) /\
  (prt_text {| p_v2 := v2; p_value := a |} = Ok s -> prt_text {| p_v2 := v2; p_value := b |} = Ok s -> a = b).
Proof. exact result_types. Qed.
Print Assumptions C44_result_types.

Example C44_case :
  remote_stream_options (Some 5%Z) = lit "AddInvocationInfoToErrorRecord, AddInvocationInfoToDebugRecord" /\
  command_type (Some 24%Z) = lit "Cmdlet, ExternalScript" /\ command_type (Some 511%Z) = lit "All" /\
  remote_stream_options None = [].
Proof. vm_compute. repeat split. Qed.
