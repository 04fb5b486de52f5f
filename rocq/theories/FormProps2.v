(* C70: what a client holds of the messages of a server, by the names of the
   protocol.  Missing from the partial theorem: references that go forward in the
   order in which the library reads (C67_order_refuted), properties that are of
   another type than the protocol gives them, and the failure of a pool, which the
   library reads from a property of any name (below). *)
From Verif Require Import Base BaseProofs Lit NumModel TextModel Utf8Model MsgModel XmlModel SerModel SerSpec SerSpec2 SerClasses SendClasses XtModel WfModel RdSpec RdProofs3 RdProofs4 FormSpec3 FormProofs6 RdProps.
From Verif Require SerProofs5 ClsProofs3.
Local Open Scope list_scope.

(* An object with the properties of the protocol, in whatever it is found, is
   read: those that may be left out may be, any may be null, and the properties
   that the protocol does not know are passed over. *)
Theorem C70_readable_partial : forall ci float_of c ad_rows ex_rows r s id n text ad ex s1 s2 s3,
  In (c, (ad_rows, ex_rows)) heard -> taken r n = Some (Instance (lit c)) -> ~ In id (snd s) -> names s n s1 -> text_spelled ci float_of text ->
  NoDup (map fst ad) -> NoDup (map fst ex) -> no_failure c ex ->
  thread (given (readable ci float_of sending) ad) (known id s1) ad_rows s2 -> thread (given (readable ci float_of sending) ex) s2 ex_rows s3 ->
  readable ci float_of sending r s (Object id n text [] ad ex) s3.
Proof. exact heard_readable. Qed.
Print Assumptions C70_readable_partial.

(* What is held of it: each attribute is what its property says, and null when the
   property is null or not there. *)
Theorem C70_held : forall ci float_of base heap env c ad_rows ex_rows id n text sets ad ex v,
  In (c, (ad_rows, ex_rows)) heard -> holds ci float_of sending base heap env (Instance (lit c)) (Object id n text sets ad ex) v -> NoDup (map fst ad) -> NoDup (map fst ex) ->
  exists k attrs, v = VObj k /\ base <= k /\ nth_error heap k = Some (HCls (lit c) attrs) /\
    Forall (row_held ci float_of base heap env ad attrs) ad_rows /\ Forall (row_held ci float_of base heap env ex attrs) ex_rows.
Proof. exact heard_held. Qed.
Print Assumptions C70_held.

(* From the text of a message of primitive values to the attributes. *)
Theorem C70_heard_partial : forall ci xml_text float_of heap c ad_rows ex_rows id n text ad ex s1 txt,
  In (c, (ad_rows, ex_rows)) heard -> names ([], []) n s1 -> text_spelled ci float_of text -> NoDup (map fst ad) -> NoDup (map fst ex) -> no_failure c ex ->
  Forall (flat_row ci float_of ad) ad_rows -> Forall (flat_row ci float_of ex) ex_rows ->
  XtModel.xml_parse txt = Some (write None (Object id n text [] ad ex)) ->
  exists k h env attrs, deserialize_text ci xml_text float_of sending heap txt (class_meta (lit c)) = Ok (VObj k, heap ++ h) /\
    length heap <= k /\ nth_error (heap ++ h) k = Some (HCls (lit c) attrs) /\
    Forall (row_held ci float_of (length heap) (heap ++ h) env ad attrs) ad_rows /\ Forall (row_held ci float_of (length heap) (heap ++ h) env ex attrs) ex_rows.
Proof. exact heard_text. Qed.
Print Assumptions C70_heard_partial.

(* ---- cases: an event with a null sender and a property more, and a failed
   pipeline with its error record (C67_class_case) ---- *)
Local Ltac str s := apply (sp_str None (fun f => Ok f) (lit "S") s); [left; reflexivity|apply SerProofs5.ascii_scalars; vm_compute; reflexivity|apply ClsProofs3.ascii_kept; vm_compute; reflexivity].
Definition event_properties : list (list N * item) :=
  [(lit "PSEventArgs.EventIdentifier", Scalar (lit "I32") (Some (lit "3"))); (lit "PSEventArgs.SourceIdentifier", Scalar (lit "S") (Some (lit "timer")));
   (lit "PSEventArgs.TimeGenerated", Scalar (lit "DT") (Some (lit "2020-01-01T00:00:00Z"))); (lit "PSEventArgs.Sender", Scalar (lit "Nil") None);
   (lit "PSEventArgs.MessageData", Scalar (lit "I64") (Some (lit "-7"))); (lit "PSEventArgs.SourceArgs", Scalar (lit "Nil") None);
   (lit "PSEventArgs.ComputerName", Scalar (lit "Nil") None); (lit "Unheard", Scalar (lit "B") (Some (lit "true")));
   (lit "PSEventArgs.RunspaceId", Scalar (lit "G") (Some (guid_str (repeat 7%N 16))))].
Definition event_rows : list prow := Eval vm_compute in match find (fun e => String.eqb (fst e) "UserEvent") heard with Some (_, (_, l)) => l | None => [] end.
Definition event_text : list N := Eval vm_compute in XtModel.show (write None (Object (lit "0") Untyped None [] [] event_properties)).
Definition event_held : list (list N * value) := Eval vm_compute in
  match deserialize_text None (fun _ => []) (fun s => Ok s) sending [] event_text (class_meta (lit "UserEvent")) with Ok (VObj k, h) => match nth_error h k with Some (HCls _ l) => l | _ => [] end | _ => [] end.
Lemma event_flat : Forall (flat_row None (fun s => Ok s) event_properties) event_rows.
Proof.
  repeat apply Forall_cons; try apply Forall_nil; left.
  - exists "I32"%string, (Some (py_str 3)). eexists. split; [vm_compute; tauto|]. split; [apply sp_int; vm_compute; tauto|left; reflexivity].
  - exists "S"%string. eexists. eexists. split; [|split; [str (lit "timer")|left; reflexivity]]. vm_compute. tauto.
  - exists "DT"%string. eexists. eexists. split; [|split; [apply (sp_raw None (fun s => Ok s) (lit "DT") (lit "2020-01-01T00:00:00Z")); vm_compute; tauto|left; reflexivity]]. vm_compute. tauto.
  - exists "Nil"%string. eexists. eexists. split; [|split; [apply sp_nil|exact Logic.I]]. vm_compute. tauto.
  - exists "Nil"%string. eexists. eexists. split; [|split; [apply sp_nil|exact Logic.I]]. vm_compute. tauto.
  - exists "I64"%string, (Some (py_str (-7))). eexists. split; [vm_compute; tauto|]. split; [apply sp_int; vm_compute; tauto|exact Logic.I].
  - exists "Nil"%string. eexists. eexists. split; [|split; [apply sp_nil|right; reflexivity]]. vm_compute. tauto.
  - exists "G"%string, (Some (guid_str (repeat 7%N 16))). eexists. split; [vm_compute; tauto|]. split; [apply sp_guid; split; [reflexivity|repeat constructor]|left; reflexivity].
Qed.
Example C70_heard_case :
  In ("UserEvent"%string, ([], event_rows)) heard /\ names ([], []) Untyped ([], []) /\ text_spelled None (fun s => Ok s) None /\ NoDup (map fst event_properties) /\ no_failure "UserEvent" event_properties /\
  Forall (flat_row None (fun s => Ok s) event_properties) event_rows /\ XtModel.xml_parse event_text = Some (write None (Object (lit "0") Untyped None [] [] event_properties)) /\
  dict_get str_eqb (lit "data") event_held = Some (VInt (-7)) /\ dict_get str_eqb (lit "sender") event_held = Some VNone /\ dict_get str_eqb (lit "computer") event_held = Some VNone /\
  dict_get str_eqb (lit "source_id") event_held = Some (VStr (lit "timer")).
Proof.
  split; [vm_compute; tauto|]. split; [apply na_none|]. split; [exact Logic.I|]. split.
  { repeat (apply NoDup_cons; [intros K; vm_compute in K; repeat (destruct K as [K|K]; [discriminate K|]); destruct K|]). apply NoDup_nil. }
  split; [intros K; discriminate K|]. split; [exact event_flat|]. repeat split; vm_compute; reflexivity.
Qed.

(* ---- what is not held by its name ---- *)
(* The failure of a pool: any object among the properties is the error record,
   messages.py:441-444, where its metadata have no name. *)
Definition pool_broken : item :=
  Object (lit "0") Untyped None [] [] [(lit "RunspaceState", Scalar (lit "I32") (Some (lit "3"))); (lit "NotTheFailure", Object (lit "1") Untyped None [] [] [])].
Theorem C70_failure_refuted : exists t name, match t with Object _ _ _ _ _ ex => (exists x, In (lit name, x) ex) /\ name <> "ExceptionAsErrorRecord"%string /\ (forall x, ~ In (lit "ExceptionAsErrorRecord", x) ex) | _ => False end /\
  deserialize None (fun _ => []) (fun s => Ok s) sending [] (write None t) (class_meta (lit "RunspacePoolStateMessage")) = Err SerializationError.
Proof.
  exists pool_broken, "NotTheFailure"%string. split; [|vm_compute; reflexivity]. cbn [pool_broken]. split; [eexists; right; left; reflexivity|]. split; [discriminate|].
  intros x [K|[K|[]]]; apply pair_inj in K; destruct K as (K & _); discriminate K.
Qed.
Print Assumptions C70_failure_refuted.
