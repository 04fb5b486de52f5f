(* C69: what a server's messages say is what the pipeline has that waited for them.
   Missing from the partial theorems: messages that the serializer does not read
   as they stand (C67's limits: references forward, required properties that are
   not given, objects of no known type under unknown names); that the pipeline
   comes back from waiting (EndProps.v for reports only); and the limits of C23 (an operation timeout in
   a call to the host). *)
From Verif Require Import Base BaseProofs Lit NumModel TextModel Utf8Model MsgModel MsgSpec XmlModel XtModel WsmanModel WsmanSpec ShellModel ShellSpec FragModel FragSpec SerModel SerClasses SendClasses WireModel WireSpec WireProofs ObjModel StartModel TellModel PoolModel PoolSpec PoolToy LibModel RdSpec RdProps HearSpec HearProofs HearProofs4 TellProps.
From Verif Require XgSpec XgProofs7 WsmanProofs.
From Coq Require Import Permutation.
Local Open Scope list_scope.

(* A message in any spelling of its document is unpacked: it is of the type its
   bytes say, and what it carries is what the document says, an instance of the
   class of that type unless it is output. *)
Theorem C69_message_partial : forall HS RK (x : outside HS RK) fuel key e b,
  let ci := option_map (x_cipher x) key in
  written e b -> fit ci (x_float x) e ->
  exists m, message_unpack (library_codec x fuel key []) b = Ok m /\ m_type m = fst e /\
    (fst e = PUBLIC_KEY_REQUEST \/
     exists g, PoolSpec.carried m = Some g /\ had_message ci (x_float x) e g /\
       (fst e <> PIPELINE_OUTPUT -> exists n a c, In (fst e, c) protocol /\ snd g = VObj n /\ nth_error (fst g) n = Some (HCls c a))).
Proof. intros HS RK x fuel key e b ci W F. exact (message_heard x fuel key e b W F). Qed.
Print Assumptions C69_message_partial.

(* Reading a message as one type gives an object of that type, so that pools and
   pipelines are told nothing that was not said (the hypothesis of C23 and C25). *)
Theorem C69_honest : forall HS RK (x : outside HS RK) fuel key, PoolSpec.honest (library_codec x fuel key []).
Proof. intros HS RK x fuel key. exact (library_honest x fuel key). Qed.
Print Assumptions C69_honest.

(* Waiting for a pipeline: however the answers cut and mix the messages, its
   output is what the output messages say, every stream has grown by what the
   records of its kind say, the errors also by what a state message says it failed
   with, and the state is the last one said. *)
Theorem C69_waited_partial : forall HS RK (x : outside HS RK) fuel heap hs n r (w w' : world graph (command value) HS RK) out,
  let E := library_env x fuel heap hs in
  let ci := option_map (x_cipher x) (rp_cipher (w_pool w)) in
  r < length (w_heap w) -> ps_id (the_ps r w) <> [] ->
  dict_get str_eqb (ps_id (the_ps r w)) (rp_pipelines (w_pool w)) = Some r -> rp_exchange (w_pool w) = None ->
  end_invoke E n r w = (Ret out, w') ->
  exists qs l, requests w w' qs /\ since w w' l /\
    (forall q a, In (q, a) qs -> q_op q = OpReceive -> q_body q = Some (receive_body (lit "stdout") (ps_command_id (the_ps r w)))) /\
    forall ss ts ws items,
      undisturbed qs l -> Forall2 says (receives qs) ss ->
      NoDup (map t_oid ts) -> Forall (fun t => t_pieces t <> []) ts ->
      (forall t, In t ts -> dict_get Z.eqb (t_oid t) (rp_receiver (w_pool w)) = None) ->
      interleave (map stream ts) (concat ws) -> Forall2 word_wire ws (arrived ss) ->
      Forall2 written items (concat (map completes ws)) -> Forall (fit ci (x_float x)) items ->
      Permutation (concat (map completes ws)) (map t_msg ts) /\
      let p := the_ps r w in let p' := the_ps r w' in
      ps_output p' = out /\ gained ci (x_float x) PIPELINE_OUTPUT items (ps_output p) out /\
      gained_errors ci (x_float x) items (ps_error p) (ps_error p') /\
      gained ci (x_float x) DEBUG_RECORD items (ps_debug p) (ps_debug p') /\
      gained ci (x_float x) VERBOSE_RECORD items (ps_verbose p) (ps_verbose p') /\
      gained ci (x_float x) WARNING_RECORD items (ps_warning p) (ps_warning p') /\
      gained ci (x_float x) PROGRESS_RECORD items (ps_progress p) (ps_progress p') /\
      gained ci (x_float x) INFORMATION_RECORD items (ps_information p) (ps_information p') /\
      ps_state p' <> pl_running /\
      forall zs, Forall2 (fun e => says_state (snd e)) (of_type PIPELINE_STATE items) zs ->
        ps_state p' = last zs (ps_state p) /\ ps_had_errors p' = (ps_had_errors p || existsb (Z.eqb pl_failed) zs)%bool.
Proof. intros HS RK x. exact (waited x). Qed.
Print Assumptions C69_waited_partial.

(* ---- a case: a process as output and a failed state with its error record, the
   first cut in two, over three answers of which one is a timeout ---- *)
Definition h_items : list (Z * item) := [(PIPELINE_OUTPUT, process); (PIPELINE_STATE, failed)].
Definition h_text (t : item) : list N := lit "<?xml version='1.0'?><!-- an object -->" ++ show (write None t) ++ [10%N].
Definition h_bytes (e : Z * item) : bytes := [1; 0; 0; 0]%N ++ le_bytes 4 (Z.to_N (fst e)) ++ stored_guid (repeat 7%N 16) ++ stored_guid (repeat 9%N 16) ++ h_text (snd e).
Definition h_msgs : list bytes := Eval vm_compute in map h_bytes h_items.
Definition h_transits : list transit := Eval vm_compute in
  [mkTransit 3 [firstn 50 (nth 0 h_msgs []); skipn 50 (nth 0 h_msgs [])]; mkTransit 4 [nth 1 h_msgs []]].
Definition h_words : list word := [[(nth 0 h_transits (mkTransit 0 []), 0)]; [(nth 0 h_transits (mkTransit 0 []), 1); (nth 1 h_transits (mkTransit 0 []), 0)]].
Definition h_wire (w : word) : bytes := match mapM (fun x => frag_pack (frag_of (fst x) (snd x))) w with Ok bs => concat bs | Err _ => [] end.
Definition h_chunks : list bytes := Eval vm_compute in map h_wire h_words.
Definition h_script : list wresult := lib_opened :: said_data [nth 0 h_chunks []] :: said_late :: [said_data [nth 1 h_chunks []]].
Definition h_said : list said := [Said None None [(lit "stdout", nth 0 h_chunks [])]; SaidNothing; Said None None [(lit "stdout", nth 1 h_chunks [])]].
Definition h_outside : outside nat N := {|
  x_srv := scripted h_script; x_cipher := x_cipher lib_outside; x_show := x_show lib_outside; x_xml := x_xml lib_outside; x_float := x_float lib_outside; x_registry := x_registry lib_outside;
  x_host := None; x_keygen := x_keygen lib_outside; x_modulus := x_modulus lib_outside; x_exponent := x_exponent lib_outside; x_decrypt := x_decrypt lib_outside; x_clock := x_clock lib_outside; x_skeleton := 1200 |}.
Definition h_env : env graph (command value) nat N := library_env h_outside 12 [] None.
Definition h_begun : world graph (command value) nat N := Eval vm_compute in snd (begin_invoke h_env 0 lib_args (run_ops h_env lib_ops (lib_world 5000))).
Definition h_ended : out (list graph) * world graph (command value) nat N := Eval vm_compute in end_invoke h_env 20 0 h_begun.
Lemma h_spoken c : bytes_ok c -> says (said_data [c]) (Said None None [(lit "stdout", c)]).
Proof.
  intros B. assert (L : forall path x, find_first path x = None -> lookup path x None) by (intros path x E; rewrite <- E; apply WsmanProofs.find_first_lookup).
  unfold said_data, says. eexists. exists None, None. split; [reflexivity|]. split; [apply L; vm_compute; reflexivity|]. split; [apply L; vm_compute; reflexivity|].
  split; [intros e E; discriminate E|]. split; [reflexivity|]. split; [intros z E; discriminate E|]. split; [reflexivity|].
  match goal with |- chunked ?l _ => replace l with [Elem (rsp (lit "Stream")) [(lit "Name", lit "stdout")] (Some (b64encode c)) []] by reflexivity end.
  apply chunked_data; [exact B|reflexivity|reflexivity|constructor].
Qed.
Lemma bytes_computed b : forallb (fun c => N.ltb c 256) b = true -> bytes_ok b.
Proof. rewrite forallb_forall. intros H. apply Forall_forall. intros c I1. apply N.ltb_lt. exact (H c I1). Qed.
Lemma h_written e : In e h_items -> written e (h_bytes e).
Proof.
  intros H. exists [1; 0; 0; 0]%N, (le_bytes 4 (Z.to_N (fst e))), (repeat 7%N 16), (repeat 9%N 16), [], (h_text (snd e)), (h_text (snd e)).
  split; [reflexivity|]. split; [reflexivity|]. split; [reflexivity|].
  repeat (destruct H as [<-|H]; [split; [vm_compute; reflexivity|]; split; [split; [reflexivity|apply bytes_computed; vm_compute; reflexivity]|]; split; [split; [reflexivity|apply bytes_computed; vm_compute; reflexivity]|]; split; [left; reflexivity|];
    split; [vm_compute; reflexivity|]; split; [discriminate|apply XgProofs7.says_parse; vm_compute; reflexivity]|]). destruct H.
Qed.
Example C69_case :
  let w := h_begun in let w' := snd h_ended in
  (0 < length (w_heap w) /\ ps_id (the_ps 0 w) <> [] /\ dict_get str_eqb (ps_id (the_ps 0 w)) (rp_pipelines (w_pool w)) = Some 0 /\ rp_exchange (w_pool w) = None /\ rp_cipher (w_pool w) = None) /\
  (exists out, end_invoke h_env 20 0 w = (Ret out, w') /\ length out = 1 /\ length (ps_error (the_ps 0 w')) = 1 /\ ps_state (the_ps 0 w') = pl_failed /\ ps_had_errors (the_ps 0 w') = true) /\
  (exists qs l, requests w w' qs /\ since w w' l /\ undisturbed qs l /\ Forall2 says (receives qs) h_said) /\
  (NoDup (map t_oid h_transits) /\ Forall (fun t => t_pieces t <> []) h_transits /\ (forall t, In t h_transits -> dict_get Z.eqb (t_oid t) (rp_receiver (w_pool w)) = None) /\
   interleave (map stream h_transits) (concat h_words) /\ Forall2 word_wire h_words (arrived h_said)) /\
  (Forall2 written h_items (concat (map completes h_words)) /\ Forall (fit None (fun s => Ok s)) h_items /\ Forall2 (fun e => says_state (snd e)) (of_type PIPELINE_STATE h_items) [5%Z]).
Proof.
  cbv zeta. split; [split; [apply Nat.ltb_lt; vm_compute; reflexivity|]; split; [discriminate|]; repeat split; vm_compute; reflexivity|]. split.
  { eexists. split; [vm_compute; reflexivity|]. repeat split; vm_compute; reflexivity. }
  split.
  { exists (skipn (length (w_hist h_begun)) (w_hist (snd h_ended))), (skipn (length (w_log h_begun)) (w_log (snd h_ended))). split; [vm_compute; reflexivity|]. split; [vm_compute; reflexivity|]. split.
    - split.
      + assert (K : forallb (fun e => match q_op (fst e) with OpSend => false | _ => true end) (skipn (length (w_hist h_begun)) (w_hist (snd h_ended))) = true) by (vm_compute; reflexivity).
        intros q a H Eq. rewrite forallb_forall in K. specialize (K _ H). cbn [fst] in K. rewrite Eq in K. discriminate K.
      + assert (K : forallb (fun e => match e with EHost _ _ _ _ => false | _ => true end) (skipn (length (w_log h_begun)) (w_log (snd h_ended))) = true) by (vm_compute; reflexivity).
        intros mi mp pl f H. rewrite forallb_forall in K. specialize (K _ H). discriminate K.
    - match goal with |- Forall2 says ?l _ => replace l with [said_data [nth 0 h_chunks []]; said_late; said_data [nth 1 h_chunks []]] by (vm_compute; reflexivity) end.
      constructor; [apply h_spoken, bytes_computed; vm_compute; reflexivity|]. constructor; [eexists; split; reflexivity|]. constructor; [apply h_spoken, bytes_computed; vm_compute; reflexivity|constructor]. }
  split.
  { split; [cbn [map h_transits t_oid]; constructor; [intros [E|[]]; discriminate E|]; constructor; [intros []|constructor]|]. split; [constructor; [discriminate|]; constructor; [discriminate|constructor]|].
    split; [intros t [<-|[<-|[]]]; vm_compute; reflexivity|]. split.
    - set (a := nth 0 h_transits (mkTransit 0 [])). set (b := nth 1 h_transits (mkTransit 0 [])). change (map stream h_transits) with [[(a, 0); (a, 1)]; [(b, 0)]]. change (concat h_words) with [(a, 0); (a, 1); (b, 0)].
      apply (il_cons []). apply (il_cons []). apply (il_cons [[]]). constructor. repeat constructor.
    - change (arrived h_said) with [nth 0 h_chunks [] ++ []; nth 1 h_chunks [] ++ []]. unfold h_words. constructor; [|constructor; [|constructor]]; (eexists; split; [vm_compute; reflexivity|]); vm_compute; reflexivity. }
  split; [|split].
  - replace (concat (map completes h_words)) with (map h_bytes h_items) by (vm_compute; reflexivity). cbn [map h_items]. constructor; [apply h_written; left; reflexivity|]. constructor; [apply h_written; right; left; reflexivity|constructor].
  - constructor; [|constructor; [|constructor]]; (split; [discriminate|]); right.
    + destruct (proj1 C67_case) as (s' & R). exists Open, s'. split; [reflexivity|]. split; [exact R|left; reflexivity].
    + destruct (proj1 C67_class_case) as (s' & R). exists (Instance (lit "PipelineState")), s'. split; [reflexivity|]. split; [exact R|right; reflexivity].
  - change (of_type PIPELINE_STATE h_items) with [(PIPELINE_STATE, failed)]. constructor; [|constructor]. cbn [snd]. unfold failed. do 6 eexists. split; [reflexivity|]. left. reflexivity.
Qed.
