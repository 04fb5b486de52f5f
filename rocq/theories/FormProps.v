(* C70: the messages that a client sends are in the form of the protocol.
   Missing from the partial theorem: values of any type are told by their names
   alone (C59 and C61 say what their trees hold); a generic object that occurs a
   second time is told without a name, and two names of enumerations are told as
   the library spells them (both below). *)
From Verif Require Import Base BaseProofs Lit NumModel TextModel Utf8Model MsgModel MsgSpec XmlModel XtModel SerModel SerClasses WireModel SendClasses ObjModel StartModel StartProps TellModel LibModel
  FormSpec FormSpec2 FormProofs5 TellProps.
From Verif Require PoolModel PoolToy.
Import PoolToy (rpid, pid1).
Import PoolModel (omsg, OCapability, OInit, OConnect, OSetMin, OSetMax, OAvailable, OReset, OPublicKey, OPoolResponse, OPipelineResponse, OCreate, OMetadata, OInput, OEnd).
Local Open Scope list_scope.

(* Whatever a pool or a pipeline packs: eight bytes for the server and for the
   type of the message, the ids of pool and pipeline, and a body that is empty for
   the end of input, an empty text for a connection without limits, and else the
   text of a tree that tells the object in the form of that message. *)
Theorem C70_message_partial : forall HS RK (x : outside HS RK) fuel heap hs key rid pid o b,
  PoolModel.packed (library_env x fuel heap hs) key rid pid o = Ok b -> given_right (option_map (x_cipher x) key) heap o ->
  exists r p body, guid_parse rid = Ok r /\ match pid with Some s => guid_parse s | None => Ok guid_zero end = Ok p /\ b = opening o ++ stored_guid r ++ stored_guid p ++ body /\
    match o with
    | OEnd => body = []
    | OConnect => body = lit "<S />"
    | _ => exists t, tostring (x_registry x) t = Ok body /\ tells (option_map (x_cipher x) key) (fst (sent heap hs o)) (form_of o) (snd (sent heap hs o)) None t
    end.
Proof. intros HS RK x fuel heap hs key rid pid o b. exact (packed_told x fuel heap hs key rid pid o b). Qed.
Print Assumptions C70_message_partial.

(* ---- a case: a pipeline of two statements, and the answer to a host call ---- *)
Definition body_of (o : omsg graph (command value)) : res (list N) :=
  do b <- PoolModel.packed (library_env lib_outside 12 [] None) None rpid (Some pid1) o; utf8_decode (skipn 40 b).
Example C70_case :
  given_right None [] lib_create /\ (exists b, PoolModel.packed (library_env lib_outside 12 [] None) None rpid (Some pid1) lib_create = Ok b /\ firstn 8 b = [2; 0; 0; 0; 6; 16; 2; 0]%N) /\
  given_right None [] (OPipelineResponse 5 11 ([], VStr (lit "yes"))) /\
  body_of (OPipelineResponse 5 11 ([], VStr (lit "yes"))) =
    Ok (lit "<Obj RefId=""0""><MS><I64 N=""ci"">5</I64><Obj RefId=""1"" N=""mi""><TN RefId=""0""><T>System.Management.Automation.Remoting.RemoteHostMethodId</T><T>System.Enum</T><T>System.ValueType</T><T>System.Object</T></TN><ToString>ReadLine</ToString><I32>11</I32></Obj><S N=""mr"">yes</S></MS></Obj>").
Proof.
  split; [exact (empty_in_form None)|]. split; [eexists; split; vm_compute; reflexivity|]. split; [exact (empty_in_form None)|]. vm_compute. reflexivity.
Qed.

(* ---- what is not in the form ---- *)
(* an element with everything in it *)
Fixpoint parts (t : xml) : list xml := let '(Elem _ _ _ c) := t in t :: flat_map parts c.
(* every member of every set of properties has its name *)
Definition members_named (t : xml) : bool :=
  forallb (fun e => negb (str_eqb (x_tag e) (lit "MS")) || forallb (fun m => match attr_get (lit "N") m with Some _ => true | None => false end) (x_children e)) (parts t).
(* A generic object given to two parameters of a command is told the second time
   as a reference without the name of the property: serializer.py:858-864, where
   the properties of a class are given metadata and no key. *)
Definition shared_object : list hobj := [HGen (mkG [] VNone [] [] [(lit "k", VInt 1)])].
Definition shared_command : command value := Eval vm_compute in add_arg (Some (lit "B"), VObj 0) (add_arg (Some (lit "A"), VObj 0) first_command).
Definition shared_create : omsg graph (command value) := OCreate true 2 None false [shared_command] false None false.
Definition tree_of (heap : list hobj) (o : omsg graph (command value)) : xml :=
  match serialize None (fun _ => []) sending (fst (sent heap None o)) 12 (snd (sent heap None o)) any_meta with Ok (Some t) => t | _ => Elem [] [] None [] end.
Definition shared_tree : xml := Eval vm_compute in tree_of shared_object shared_create.
Lemma shared_right : given_right None shared_object shared_create.
Proof. intros [|n] c attrs H; [discriminate H|]. destruct n; discriminate H. Qed.
Theorem C70_named_refuted : exists HS RK (x : outside HS RK) fuel heap hs key rid pid o b t,
  PoolModel.packed (library_env x fuel heap hs) key rid pid o = Ok b /\ given_right (option_map (x_cipher x) key) heap o /\
  tostring (x_registry x) t = Ok (skipn 40 b) /\ members_named t = false.
Proof.
  exists nat, N, lib_outside, 12, shared_object, None, None, rpid, (Some pid1), shared_create. eexists. exists shared_tree.
  split; [vm_compute; reflexivity|]. split; [exact shared_right|]. split; vm_compute; reflexivity.
Qed.
Print Assumptions C70_named_refuted.

(* The protocol knows the apartment state 2 as Unknown and the method 55 as
   GetRunspace.  The first is what a pool has by default. *)
Definition says_enum (type name number : String.string) (t : xml) : Prop :=
  exists e, In e (parts t) /\ In (Elem (lit "ToString") [] (Some (lit name)) []) (x_children e) /\ In (Elem (lit "I32") [] (Some (lit number)) []) (x_children e) /\
    exists tn, In tn (x_children e) /\ In (Elem (lit "T") [] (Some (lit type)) []) (x_children tn).
Theorem C70_spelling_refuted : exists HS RK (x : outside HS RK) fuel heap hs key rid pid o1 o2 b1 b2 t1 t2,
  PoolModel.packed (library_env x fuel heap hs) key rid pid o1 = Ok b1 /\ tostring (x_registry x) t1 = Ok (skipn 40 b1) /\
    says_enum "System.Management.Automation.Runspaces.ApartmentState" "UNKNOWN" "2" t1 /\
  PoolModel.packed (library_env x fuel heap hs) key rid pid o2 = Ok b2 /\ tostring (x_registry x) t2 = Ok (skipn 40 b2) /\
    says_enum "System.Management.Automation.Remoting.RemoteHostMethodId" "GetRunspce" "55" t2.
Proof.
  assert (K : forall ty nm nu t, existsb (fun e => (existsb (fun c => match c with Elem g [] (Some s) [] => str_eqb g (lit "ToString") && str_eqb s (lit nm) | _ => false end) (x_children e) &&
      existsb (fun c => match c with Elem g [] (Some s) [] => str_eqb g (lit "I32") && str_eqb s (lit nu) | _ => false end) (x_children e) &&
      existsb (fun tn => existsb (fun c => match c with Elem g [] (Some s) [] => str_eqb g (lit "T") && str_eqb s (lit ty) | _ => false end) (x_children tn)) (x_children e))%bool) (parts t) = true -> says_enum ty nm nu t).
  { intros ty nm nu t H.
    assert (U : forall g0 s0 l, existsb (fun c => match c with Elem g [] (Some s) [] => str_eqb g (lit g0) && str_eqb s (lit s0) | _ => false end) l = true -> In (Elem (lit g0) [] (Some (lit s0)) []) l).
    { intros g0 s0 l E. apply existsb_exists in E. destruct E as ([g a s c] & I1 & E). destruct a; [|discriminate E]. destruct s; [|discriminate E]. destruct c; [|discriminate E].
      apply andb_true_iff in E. destruct E as (E1 & E2). apply str_eqb_spec in E1. apply str_eqb_spec in E2. subst. exact I1. }
    apply existsb_exists in H. destruct H as (e & I1 & H). apply andb_true_iff in H. destruct H as (H & H3). apply andb_true_iff in H. destruct H as (H1 & H2).
    exists e. split; [exact I1|]. split; [apply U; exact H1|]. split; [apply U; exact H2|]. apply existsb_exists in H3. destruct H3 as (tn & I2 & H3). exists tn. split; [exact I2|apply U; exact H3]. }
  exists nat, N, lib_outside, 12, [], None, None, rpid, None, (OInit (PoolModel.VInt 1) (PoolModel.VInt 1) 0 2 None), (OPoolResponse 3 55 ([], VNone)). eexists. eexists.
  exists (tree_of [] (OInit (PoolModel.VInt 1) (PoolModel.VInt 1) 0 2 None)), (tree_of [] (OPoolResponse 3 55 ([], VNone))).
  split; [vm_compute; reflexivity|]. split; [vm_compute; reflexivity|]. split; [apply K; vm_compute; reflexivity|]. split; [vm_compute; reflexivity|]. split; [vm_compute; reflexivity|]. apply K. vm_compute. reflexivity.
Qed.
Print Assumptions C70_spelling_refuted.
