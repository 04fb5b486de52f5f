(* Properties of the messages that open a pool and start a pipeline. *)
From Verif Require Import Base BaseProofs Lit NumModel TextModel TextSpec MsgModel MsgSpec XmlModel SerModel SerClasses SerSpec SerSpec2 ClsSpec XtModel XtSpec XtProofs3 WfModel WfSpec FragModel FragSpec WireModel SendClasses ObjModel ObjSpec StartModel StartSpec StartProofs2 StartProofs3.
Local Open Scope list_scope.

(* ---- C63: what begin_invoke is asked for is what the other end reads ---- *)
(* The message is made, packed, cut into fragments by any sender, received in any
   grouping and read with the same metadata: the flags, the statements cut after
   the marked commands, every command with its parameters and streams, the host.
   Missing: hosts with a raw user interface, and the apartment state 0 (below). *)
Theorem C63_start_partial ci show xml_text float_of reg dest r pid heap p q : usable_registry reg -> (0 <= dest < 2 ^ 32)%Z -> is_guid r -> is_guid pid ->
  fit_pool p -> fit_start ci float_of heap q -> (q_apartment q = Some 0%Z -> pl_apartment p = 0%Z) ->
  exists made n ss, put_start heap p q = Ok (heap ++ made, VObj n) /\ cut_at_marks (q_commands q) ss /\
  exists f0, forall fuel, (f0 <= fuel)%nat ->
    exists b, (forall heap0, message_pack (wire ci show xml_text float_of sending reg fuel heap0) (mkMsg dest CREATE_PIPELINE r pid (DObj CREATE_PIPELINE (heap ++ made, VObj n))) = Ok b) /\
    ((zlen b < 2 ^ 63)%Z -> forall s, (1 <= sd_max s < 2 ^ 32)%Z -> (0 <= sd_counter s < 2 ^ 64)%Z ->
      exists blocks, fragment_msg s b None = Ok (mkSender (sd_max s) (sd_counter s + 1), blocks) /\
        forall rc calls, dict_get Z.eqb (sd_counter s) rc = None -> concat calls = blocks ->
          exists got, delivered (snd (receive_calls rc (map (@concat N) calls))) = Ok [got] /\
            forall heap0 fuel', exists n' e,
              message_unpack (wire ci show xml_text float_of sending reg fuel' heap0) got = Ok (mkMsg dest CREATE_PIPELINE r pid (DObj CREATE_PIPELINE (heap0 ++ e, VObj n'))) /\
              start_read (heap0 ++ e) (copy sending (heap ++ made) (length heap0) (heap0 ++ e)) p q (asked p q) ss (VObj n')).
Proof. intros U Hd Gr Gp Fp Fs Ha. rewrite <- (used_asked p q Ha). exact (start_carried ci show xml_text float_of reg U dest r pid heap p q Hd Gr Gp Fp Fs). Qed.

(* The message that opens a pool. *)
Theorem C63_open_partial ci show xml_text float_of reg dest r pid heap p arguments : usable_registry reg -> (0 <= dest < 2 ^ 32)%Z -> is_guid r -> is_guid pid ->
  fit_pool p -> fit_arguments ci float_of heap arguments ->
  exists made n, put_open heap p arguments = (heap ++ made, VObj n) /\
  exists f0, forall fuel, (f0 <= fuel)%nat ->
    exists b, (forall heap0, message_pack (wire ci show xml_text float_of sending reg fuel heap0) (mkMsg dest INIT_RUNSPACEPOOL r pid (DObj INIT_RUNSPACEPOOL (heap ++ made, VObj n))) = Ok b) /\
    ((zlen b < 2 ^ 63)%Z -> forall s, (1 <= sd_max s < 2 ^ 32)%Z -> (0 <= sd_counter s < 2 ^ 64)%Z ->
      exists blocks, fragment_msg s b None = Ok (mkSender (sd_max s) (sd_counter s + 1), blocks) /\
        forall rc calls, dict_get Z.eqb (sd_counter s) rc = None -> concat calls = blocks ->
          exists got, delivered (snd (receive_calls rc (map (@concat N) calls))) = Ok [got] /\
            forall heap0 fuel', exists n' e,
              message_unpack (wire ci show xml_text float_of sending reg fuel' heap0) got = Ok (mkMsg dest INIT_RUNSPACEPOOL r pid (DObj INIT_RUNSPACEPOOL (heap0 ++ e, VObj n'))) /\
              open_read (heap0 ++ e) (copy sending (heap ++ made) (length heap0) (heap0 ++ e)) p arguments (VObj n')).
Proof. exact (fun U => open_carried ci show xml_text float_of reg U dest r pid heap p arguments). Qed.

(* Two statements; a script that would end its element; a parameter with a
   dictionary; streams that are merged; a host without user interface. *)
Definition script : list N := lit "if ($x -lt 1) { '</S></Obj>' } & _x0041_" ++ [13; 10; 9]%N.
Definition made_by (version cmd : list N) (s : bool) : command value :=
  match command_new version cmd s (Some false) with
  | Ok c => c
  | Err _ => {| c_cmd := []; c_script := s; c_scope := None; c_my := prt_none; c_to := prt_none; c_prev := prt_none; c_error := prt_none; c_warning := prt_none;
                c_verbose := prt_none; c_debug := prt_none; c_info := prt_none; c_args := []; c_end := false; c_22 := false; c_23 := false |}
  end.
Definition first_command : command value := Eval vm_compute in
  set_end true (set_merge MError {| p_v2 := false; p_value := 1 |} (add_arg (Some (lit "Path"), VDict [(VStr script, VInt (-3))]) (made_by (lit "2.3") (lit "Get-Item") false))).
Definition second_command : command value := Eval vm_compute in set_merge MPrev {| p_v2 := true; p_value := 3 |} (made_by (lit "2.1") script true).
Definition some_start : start := mkStart (Some true) true (Some 1%Z) false 5 false None [first_command; second_command].
Definition some_pool : pool := mkPool 2 0 1 5 (Some None).
Definition pool_id : list N := repeat 171%N 16.
Definition pipe_id : list N := [1;2;3;4;5;6;7;8;9;10;11;12;13;14;15;255]%N.
Definition start_wire : codec graph := wire None (fun _ => []) (fun _ => []) (fun s => Ok s) sending library_registry 12 [].
Definition start_message (g : graph) : message graph := mkMsg 2 CREATE_PIPELINE pool_id pipe_id (DObj CREATE_PIPELINE g).
Definition made_heap : list hobj := Eval vm_compute in match put_start [] some_pool some_start with Ok (h, _) => h | Err _ => [] end.
Definition made_bytes : bytes := Eval vm_compute in match message_pack start_wire (start_message (made_heap, VObj (pred (length made_heap)))) with Ok b => b | Err _ => [] end.
Definition read_heap : list hobj := Eval vm_compute in match message_unpack start_wire made_bytes with Ok m => match m_data m with DObj _ g => fst g | _ => [] end | Err _ => [] end.
Definition texts (h : list hobj) (a : String.string) : list value :=
  flat_map (fun o => match o with HCls _ l => match dict_get str_eqb (lit a) l with Some v => [v] | None => [] end | HGen _ => [] end) h.
Local Ltac spoken := lazymatch goal with |- Forall ?P ?l => let l' := eval vm_compute in l in change (Forall P l') end;
  repeat first [apply Forall_nil | apply Forall_cons; [split; [first [left; reflexivity|right; split; reflexivity]|split; discriminate]|]].
Lemma script_sayable : sayable script.
Proof.
  assert (K : said script) by (unfold said; spoken). split; [eapply Forall_impl; [|exact K]; intros c (A & _); exact A|]. split; [|exact K].
  apply ClsProofs3.ascii_kept. vm_compute. reflexivity.
Qed.
Example C63_case : usable_registry library_registry /\ is_guid pool_id /\ is_guid pipe_id /\ fit_pool some_pool /\ fit_start None (fun s => Ok s) [] some_start /\
  put_start [] some_pool some_start = Ok (made_heap, VObj (pred (length made_heap))) /\
  message_pack start_wire (start_message (made_heap, VObj (pred (length made_heap)))) = Ok made_bytes /\
  message_unpack start_wire made_bytes = Ok (start_message (read_heap, VObj 0)) /\
  texts read_heap "cmd" = [VStr (lit "Get-Item"); VStr script; VStr (lit "Get-Item")] /\
  In (VStr (lit "Output, Error")) (texts read_heap "_to_string") /\
  fit_arguments None (fun s => Ok s) [] (VDict [(VStr (lit "User"), VStr script)]).
Proof.
  split; [exact library_usable|]. split; [split; [reflexivity|repeat constructor]|]. split; [split; [reflexivity|repeat constructor]|].
  split; [split; [right; right; left; reflexivity|split; [left; reflexivity|intros r; discriminate]]|].
  assert (B : bears None (fun s => Ok s) said raw (lit "S") (VStr script)) by (destruct script_sayable as (A1 & A2 & A3); apply be_str; [left; reflexivity|exact A1|exact A2|exact A3]).
  split; [|split; [vm_compute; reflexivity|split; [vm_compute; reflexivity|split; [vm_compute; reflexivity|split; [vm_compute; reflexivity|split]]]]].
  - split; [intros z E; apply Some_inj in E; subst z; right; left; reflexivity|]. split; [exact I|]. split; [discriminate|].
    apply Forall_cons; [|apply Forall_cons; [|apply Forall_nil]].
    + split; [apply printable_sayable; vm_compute; reflexivity|]. split.
      * cbn [sent_streams first_command c_22 c_23 c_my c_to c_prev c_error c_warning c_verbose c_debug c_info app].
        repeat (apply Forall_cons; [cbn [snd]; eexists; vm_compute; reflexivity|]). apply Forall_nil.
      * cbn [c_args first_command]. apply Forall_cons; [|apply Forall_nil]. cbn [fst snd]. split; [apply printable_sayable; vm_compute; reflexivity|].
        apply cf_dict; [apply Forall_cons; [right; exact B|apply Forall_nil]|cbn [distinct_keys]; repeat split; apply Forall_nil|].
        intros e [<- |[]]. cbn [snd]. apply cf_star. apply be_int. vm_compute. tauto.
    + split; [exact script_sayable|]. split; [|apply Forall_nil].
      cbn [sent_streams second_command c_22 c_23 c_my c_to c_prev c_error c_warning c_verbose c_debug c_info app].
      repeat (apply Forall_cons; [cbn [snd]; eexists; vm_compute; reflexivity|]). apply Forall_nil.
  - vm_compute. repeat first [left; reflexivity|right].
  - right. eexists. split; [reflexivity|]. split; [|split; [cbn [distinct_keys]; repeat split; apply Forall_nil|]].
    + apply Forall_cons; [|apply Forall_nil]. right. assert (K : sayable (lit "User")) by (apply printable_sayable; vm_compute; reflexivity). destruct K as (A1 & A2 & A3).
      apply be_str; [left; reflexivity|exact A1|exact A2|exact A3].
    + apply Forall_cons; [|apply Forall_nil]. cbn [snd]. apply cf_star. exact B.
Qed.

(* Apartment state 0, single-threaded, is the pool's instead: [or] takes it for
   not given. *)
Definition sta_start : start := mkStart None false (Some 0%Z) false 0 false None [second_command].
Theorem C63_apartment_refuted : exists p q h b m h' n', fit_pool p /\ q_apartment q = Some 0%Z /\ put_start [] p q = Ok h /\
  message_pack start_wire (start_message h) = Ok b /\ message_unpack start_wire b = Ok m /\ m_data m = DObj CREATE_PIPELINE (h', VObj n') /\
  has h' "CreatePipeline" [("apartment_state"%string, constant h' "ApartmentState" 2 (lit "UNKNOWN"))] (VObj n').
Proof.
  exists some_pool, sta_start. do 5 eexists. split; [split; [right; right; left; reflexivity|split; [left; reflexivity|intros r; discriminate]]|]. split; [reflexivity|].
  split; [vm_compute; reflexivity|]. split; [vm_compute; reflexivity|]. split; [vm_compute; reflexivity|]. split; [reflexivity|].
  do 2 eexists. split; [reflexivity|]. split; [vm_compute; reflexivity|]. apply Forall_cons; [|apply Forall_nil]. cbn [fst snd]. eexists. split; [vm_compute; reflexivity|].
  do 2 eexists. split; [reflexivity|]. split; [vm_compute; reflexivity|]. apply Forall_cons; [|apply Forall_cons; [|apply Forall_nil]]; cbn [fst snd]; eexists; (split; [vm_compute; reflexivity|reflexivity]).
Qed.

Print Assumptions C63_start_partial.
Print Assumptions C63_open_partial.
Print Assumptions C63_apartment_refuted.
