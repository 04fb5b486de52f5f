(* C66: which inputs a pipeline is declared to have none for, and that they are
   sent all the same. *)
From Verif Require Import Base BaseProofs Lit NumModel TextSpec TextModel Utf8Model XmlModel XtModel XtSpec XtProofs3 WsmanModel WsmanSpec ShellModel ShellSpec FragModel FragSpec MsgModel MsgSpec
  UtilModel TransModel SerModel SerClasses SerSpec ClsSpec WfSpec WireModel SendClasses ObjModel StartModel StartSpec StartProofs2 StartProps TellModel TellSpec LibModel TellProofs3.
From Verif Require Import PoolModel PoolSpec PoolToy PoolProofs12 EnvModel EnvSpec EnvProofs HomeSpec HomeProofs2 JobSpec JobProofs JobToy JobProps.
From Verif Require Import TellProps.
Local Open Scope list_scope.

(* The single values for which NoInput is true when a pipeline is created. *)
Theorem C66_nothing : forall v, untrue v = true <->
  In v [SerModel.VNone; SerModel.VBool false; SerModel.VInt 0; VFloat (lit "0.0"); VFloat (lit "-0.0"); VStr []; VBytes []; VList []; VTuple []; VDict []].
Proof.
  intros v. cbn [In]. split.
  - destruct v as [|b|z|t|s|b|g|l|l|l|l|n|t v|y]; cbn [untrue]; intros H; try discriminate H.
    + tauto.
    + destruct b; [discriminate H|tauto].
    + apply Z.eqb_eq in H. subst. tauto.
    + apply Bool.orb_true_iff in H. rewrite !str_eqb_spec in H. destruct H as [-> | ->]; tauto.
    + destruct s; [tauto|discriminate H].
    + destruct b; [tauto|discriminate H].
    + destruct l; [tauto|discriminate H].
    + destruct l; [tauto|discriminate H].
    + destruct l; [tauto|discriminate H].
  - intros H. repeat (destruct H as [<-|H]; [vm_compute; reflexivity|]). destruct H.
Qed.
Print Assumptions C66_nothing.
Example C66_nothing_case : untrue (SerModel.VInt 0) = true /\ untrue (SerModel.VInt (-1)) = false /\ untrue (VStr (lit "0")) = false.
Proof. repeat split. Qed.

(* A pipeline that is given an input is not always declared to have one: 0 is
   sent, to a pipeline that was created without input. *)
Theorem C66_declared_refuted : exists HS RK (x : outside HS RK) fuel r (w : world graph (command value) HS RK) g,
  let w' := snd (begin_invoke (library_env x fuel [] None) r (mkArgs (Some (InValue (IOne g))) true None false None) w) in
  fst (begin_invoke (library_env x fuel [] None) r (mkArgs (Some (InValue (IOne g))) true None false None) w) = Ret tt /\
  snd g = SerModel.VInt 0 /\
  skipn (length (w_log w)) (w_log w') =
    [EOut (Some (ps_id (the_ps r w))) (OCreate true (rp_apartment (w_pool w)) None true (ps_commands (the_ps r w)) (ps_nested (the_ps r w)) (ps_history (the_ps r w)) false);
     EOut (Some (ps_id (the_ps r w))) (OInput g); EOut (Some (ps_id (the_ps r w))) OEnd].
Proof.
  exists nat, N, lib_outside, 12, 0, lib_before, ([], SerModel.VInt 0). cbv zeta. split; [vm_compute; reflexivity|]. split; [reflexivity|]. vm_compute. reflexivity.
Qed.
Print Assumptions C66_declared_refuted.
