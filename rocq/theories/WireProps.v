(* Properties of whole messages with the serializer and the XML inside. *)
From Verif Require Import Base BaseProofs Lit NumModel TextModel TextSpec TextProofs Utf8Model MsgModel MsgSpec XmlModel SerModel SerClasses SerSpec SerSpec2 SerProofs5 XtModel XtSpec XtProofs XtProofs3 ClsSpec ClsProofs ClsProofs2 ClsProofs3 WfModel WfSpec WfProofs WfProofs2 WfProofs3 FragModel FragSpec WireModel WireSpec WireProofs.
Local Open Scope list_scope.

(* ---- C62: a message object arrives as a copy of itself ---- *)
(* Packed, cut into fragments by any sender, received in any grouping and
   unpacked: the header is the one sent and the object a copy. *)
Theorem C62_object_partial ci show xml_text float_of reg dest ty r p c heap n : usable_registry reg -> (0 <= dest < 2 ^ 32)%Z -> is_guid r -> is_guid p ->
  class_of_type ty = Some c -> ~ In ty [PUBLIC_KEY_REQUEST; PIPELINE_INPUT; PIPELINE_OUTPUT; END_OF_PIPELINE_INPUT] ->
  (ty = CONNECT_RUNSPACEPOOL -> (limit (lit "min_runspaces") (heap, VObj n), limit (lit "max_runspaces") (heap, VObj n)) <> (None, None)) ->
  conforms ci float_of library library_canon heap said raw (class_meta c) (VObj n) ->
  exists f0, forall fuel, (f0 <= fuel)%nat -> exists b, (forall heap0, message_pack (wire ci show xml_text float_of library reg fuel heap0) (mkMsg dest ty r p (DObj ty (heap, VObj n))) = Ok b) /\
    ((zlen b < 2 ^ 63)%Z -> forall s, (1 <= sd_max s < 2 ^ 32)%Z -> (0 <= sd_counter s < 2 ^ 64)%Z ->
      exists blocks, fragment_msg s b None = Ok (mkSender (sd_max s) (sd_counter s + 1), blocks) /\
        forall rc calls, dict_get Z.eqb (sd_counter s) rc = None -> concat calls = blocks ->
          exists got, delivered (snd (receive_calls rc (map (@concat N) calls))) = Ok [got] /\
            forall heap0 fuel', exists n' e, message_unpack (wire ci show xml_text float_of library reg fuel' heap0) got = Ok (mkMsg dest ty r p (DObj ty (heap0 ++ e, VObj n'))) /\
              copy library heap (length heap0) (heap0 ++ e) (VObj n) (VObj n')).
Proof. exact (fun U => object_arrives ci show xml_text float_of reg U dest ty r p c heap n). Qed.

(* What is sent to a pipeline and what it puts out, of whatever type. *)
Theorem C62_data_partial ci show xml_text float_of reg dest r p heap v (out : bool) : usable_registry reg -> (0 <= dest < 2 ^ 32)%Z -> is_guid r -> is_guid p ->
  conforms ci float_of library library_canon heap said raw any_meta v ->
  let wrap g := if out then DOutput g else DInput g in let ty := if out then PIPELINE_OUTPUT else PIPELINE_INPUT in
  exists f0, forall fuel, (f0 <= fuel)%nat -> exists b, (forall heap0, message_pack (wire ci show xml_text float_of library reg fuel heap0) (mkMsg dest ty r p (wrap (heap, v))) = Ok b) /\
    forall heap0 fuel', exists w e, message_unpack (wire ci show xml_text float_of library reg fuel' heap0) b = Ok (mkMsg dest ty r p (wrap (heap0 ++ e, w))) /\
      copy library heap (length heap0) (heap0 ++ e) v w.
Proof. exact (fun U => library_data ci show xml_text float_of reg U dest r p heap v out). Qed.

(* The class read for a number is the one whose instances carry that number. *)
Theorem C62_types ty c : class_of_type ty = Some c -> type_of_class c message_classes = Some ty.
Proof. exact (class_type ty c). Qed.

(* It is the one the protocol has under that number. *)
Theorem C62_protocol ty c : class_of_type ty = Some c <-> In (ty, c) protocol.
Proof. exact (protocol_in ty c). Qed.

(* A progress record whose texts would end their elements, sent to the client. *)
Definition nasty : list N := lit "</S></MS>&amp;<Obj RefId=" ++ [34; 13; 10; 0; 27; 9; 128512]%N ++ lit "_x000D_ ]]>".
Definition pool_guid : list N := repeat 171%N 16.
Definition pipe_guid : list N := [1;2;3;4;5;6;7;8;9;10;11;12;13;14;15;255]%N.
Definition progress_heap : list hobj :=
  [HCls (lit "ProgressRecordType") [(lit "value", VInt 1)];
   HCls (lit "ProgressRecord")
     [(lit "activity", VStr nasty); (lit "activity_id", VInt 7); (lit "description", VStr nasty); (lit "current_operation", VNone);
      (lit "parent_activity_id", VInt (-1)); (lit "percent_complete", VInt 50); (lit "progress_type", VObj 0); (lit "seconds_remaining", VInt (-1));
      (lit "_to_string", VNone)]].
Local Ltac spoken := lazymatch goal with |- Forall ?P ?l => let l' := eval vm_compute in l in change (Forall P l') end;
  repeat first [apply Forall_nil | apply Forall_cons; [split; [first [left; reflexivity|right; split; reflexivity]|split; discriminate]|]].
Lemma nasty_said : said nasty. Proof. unfold said. spoken. Qed.
Lemma said_scalars s : said s -> scalars s. Proof. intros H. eapply Forall_impl; [|exact H]. intros c (K & _). exact K. Qed.
Lemma nasty_kept : ~ has_straddle nasty.
Proof. intros K. apply TextProofs2.straddle_5F00 in K. vm_compute in K. repeat (destruct K as [K|K]; [discriminate K|]). exact K. Qed.
Lemma nasty_bears tag : In tag (map lit ["S"; "URI"; "XD"; "SBK"]%string) -> bears None (fun s => Ok s) said raw tag (VStr nasty).
Proof. intros H. apply be_str; [exact H|exact (said_scalars _ nasty_said)|exact nasty_kept|exact nasty_said]. Qed.
Local Ltac none := apply cf_none; vm_compute; tauto.
Local Ltac listed := lazymatch goal with |- Forall ?P ?l => let l' := eval vm_compute in l in change (Forall P l') end.
Local Ltac attribute := apply Forall_cons; [cbn [fst snd]; eexists; split; [vm_compute; reflexivity|]|].
Local Ltac int := apply cf_scalar, be_int; vm_compute; tauto.
Local Ltac instance k t := eapply library_fits with (c := lit k) (d := described (lit k)); [first [left; reflexivity|right; reflexivity]|vm_compute; reflexivity|apply described_ok; vm_compute; reflexivity|vm_compute; reflexivity|t|listed].
Local Ltac spelled := right; eexists; split; [vm_compute; reflexivity|]; split; [apply ascii_scalars; vm_compute; reflexivity|]; split; [apply ascii_kept; vm_compute; reflexivity|unfold said; spoken].
Definition plain_wire : codec graph := wire None (fun _ => []) (fun _ => []) (fun s => Ok s) library library_registry 5 [].
Definition ok_or {A} (d : A) (r : res A) : A := match r with Ok a => a | Err _ => d end.
Definition progress_message (g : graph) : message graph := mkMsg 1 PROGRESS_RECORD pool_guid pipe_guid (DObj PROGRESS_RECORD g).
Definition sent : bytes := Eval vm_compute in ok_or [] (message_pack plain_wire (progress_message (progress_heap, VObj 1))).
Definition parts : list bytes := Eval vm_compute in snd (ok_or (mkSender 0 0, []) (fragment_msg (mkSender 100 3) sent None)).
Definition came : list hobj := Eval vm_compute in match message_unpack plain_wire sent with Ok m => match m_data m with DObj _ g => fst g | _ => [] end | Err _ => [] end.
Example C62_case : usable_registry library_registry /\ is_guid pool_guid /\ is_guid pipe_guid /\
  class_of_type PROGRESS_RECORD = Some (lit "ProgressRecord") /\ ~ In PROGRESS_RECORD [PUBLIC_KEY_REQUEST; PIPELINE_INPUT; PIPELINE_OUTPUT; END_OF_PIPELINE_INPUT] /\
  conforms None (fun s => Ok s) library library_canon progress_heap said raw (class_meta (lit "ProgressRecord")) (VObj 1) /\
  message_pack plain_wire (progress_message (progress_heap, VObj 1)) = Ok sent /\
  fragment_msg (mkSender 100 3) sent None = Ok (mkSender 100 4, parts) /\ length parts = 8%nat /\
  message_unpack plain_wire sent = Ok (progress_message (came, VObj 0)) /\
  dict_get str_eqb (lit "description") (match came with HCls _ a :: _ => a | _ => [] end) = Some (VStr nasty).
Proof.
  split; [exact library_usable|]. split; [split; [reflexivity|repeat constructor]|]. split; [split; [reflexivity|repeat constructor]|].
  split; [reflexivity|]. split; [intros [K|[K|[K|[K|[]]]]]; discriminate K|]. split.
  - unfold class_meta. instance "ProgressRecord" ltac:(left; vm_compute; reflexivity).
    attribute; [apply cf_scalar, nasty_bears; left; reflexivity|]. attribute; [int|]. attribute; [apply cf_scalar, nasty_bears; left; reflexivity|].
    attribute; [none|]. attribute; [int|]. attribute; [int|]. attribute; [|attribute; [int|apply Forall_nil]].
    instance "ProgressRecordType" spelled. attribute; [int|apply Forall_nil].
  - split; [vm_compute; reflexivity|]. split; [vm_compute; reflexivity|]. split; [reflexivity|]. split; vm_compute; reflexivity.
Qed.
Definition sent_input : bytes := Eval vm_compute in ok_or [] (message_pack plain_wire (mkMsg 2 PIPELINE_INPUT pool_guid pipe_guid (DInput ([], VDict [(VStr nasty, VList [VStr nasty; VInt (-5); VNone]); (VInt 1, VBool true)])))).
Example C62_data_case : conforms None (fun s => Ok s) library library_canon [] said raw any_meta (VDict [(VStr nasty, VList [VStr nasty; VInt (-5); VNone]); (VInt 1, VBool true)]) /\
  message_pack plain_wire (mkMsg 2 PIPELINE_INPUT pool_guid pipe_guid (DInput ([], VDict [(VStr nasty, VList [VStr nasty; VInt (-5); VNone]); (VInt 1, VBool true)]))) = Ok sent_input /\
  message_unpack plain_wire sent_input =
    Ok (mkMsg 2 PIPELINE_INPUT pool_guid pipe_guid (DInput ([], VDict [(VStr nasty, VList [VStr nasty; VInt (-5); VNone]); (VInt 1, VBool true)]))).
Proof.
  split.
  - apply cf_dict.
    + apply Forall_cons; [right; apply nasty_bears; left; reflexivity|]. apply Forall_cons; [right; apply be_int; vm_compute; tauto|apply Forall_nil].
    + cbn [distinct_keys]. repeat split; try apply Forall_nil; try apply Forall_cons; try apply Forall_nil; vm_compute; reflexivity.
    + intros e [<- |[<- |[]]]; cbn [snd].
      * apply cf_members. apply Forall_cons; [right; apply nasty_bears; left; reflexivity|]. apply Forall_cons; [right; apply be_int; vm_compute; tauto|].
        apply Forall_cons; [left; reflexivity|apply Forall_nil].
      * apply cf_star. apply be_bool.
  - split; vm_compute; reflexivity.
Qed.

(* ---- what cannot be read back ---- *)
Definition end_heap : list hobj := [HCls (lit "EndOfPipelineInput") [(lit "_to_string", VNone)]].
Theorem C62_end_of_input_refuted : exists b, message_pack (wire None (fun _ => []) (fun _ => []) (fun s => Ok s) library python_registry 5 []) (mkMsg 2 END_OF_PIPELINE_INPUT pool_guid pipe_guid (DObj END_OF_PIPELINE_INPUT (end_heap, VObj 0))) = Ok b /\
  message_unpack (wire None (fun _ => []) (fun _ => []) (fun s => Ok s) library python_registry 5 []) b = Err AttributeError.
Proof. eexists. split; [vm_compute; reflexivity|]. vm_compute. reflexivity. Qed.
Definition connect_heap : list hobj := [HCls (lit "ConnectRunspacePool") [(lit "min_runspaces", VNone); (lit "max_runspaces", VNone); (lit "_to_string", VNone)]].
Theorem C62_connect_refuted : exists b, message_pack (wire None (fun _ => []) (fun _ => []) (fun s => Ok s) library python_registry 5 []) (mkMsg 2 CONNECT_RUNSPACEPOOL pool_guid pipe_guid (DObj CONNECT_RUNSPACEPOOL (connect_heap, VObj 0))) = Ok b /\
  message_unpack (wire None (fun _ => []) (fun _ => []) (fun s => Ok s) library python_registry 5 []) b = Err AttributeError.
Proof. eexists. split; [vm_compute; reflexivity|]. vm_compute. reflexivity. Qed.

Print Assumptions C62_object_partial.
Print Assumptions C62_data_partial.
Print Assumptions C62_types.
Print Assumptions C62_end_of_input_refuted.
Print Assumptions C62_connect_refuted.
Print Assumptions C62_protocol.
