(* C69: what a pipeline that was waited for has. *)
From Verif Require Import Base BaseProofs Lit NumModel TextModel MsgModel MsgSpec XmlModel WsmanModel ShellModel ShellSpec FragModel FragSpec SerModel SerClasses SendClasses WireModel ObjModel StartModel TellModel PoolModel PoolSpec PoolProofs9 LibModel RdSpec HearSpec HearProofs HearProofs2.
From Coq Require Import Permutation.
Require Import Lia ZifyBool ZifyNat ZifyN.
Local Open Scope list_scope.

Section Waited.
  Context {HS RK : Type} (x : outside HS RK) (fuel : nat) (heap : list hobj) (hs : option host) (key : option bytes).
  Let ci := option_map (x_cipher x) key.
  Let E := library_env x fuel heap hs.
  Lemma state_of e m : heard x key e m -> fit ci (x_float x) e -> fst e = PIPELINE_STATE ->
    exists g, carried m = Some g /\ (forall z, says_state (snd e) z -> fst (ev_pipe_state E g) = z) /\
      match failure (snd e) with
      | [] => snd (ev_pipe_state E g) = None
      | p :: _ => failure (snd e) = [p] /\ exists o, snd (ev_pipe_state E g) = Some o /\ had ci (x_float x) (fst p) (snd p) o
      end.
  Proof.
    intros (T & H) F Es. destruct H as [H|(g & Cg & Hg & Hi)]; [rewrite Es in H; discriminate H|]. exists g. split; [exact Cg|].
    assert (N : fst e <> PIPELINE_OUTPUT) by (rewrite Es; discriminate). destruct (state_attributes x key e g Es F Hg (Hi N)) as (A & B).
    split; [exact A|]. cbn [E library_env ev_pipe_state snd]. destruct (failure (snd e)) as [|p l].
    - rewrite B. reflexivity.
    - destruct B as (B1 & B2 & B3). split; [exact B1|]. exists (fst g, attribute "error_record" g). split; [|exact B3]. destruct (attribute "error_record" g); try reflexivity. contradiction.
  Qed.
  Lemma errors_heard items ms : Forall2 (heard x key) items ms -> Forall (fit ci (x_float x)) items ->
    Forall2 (fun p => had ci (x_float x) (fst p) (snd p)) (flat_map error_in items) (errors E ms).
  Proof.
    induction 1 as [|e m items ms H _ IH]; intros F; [constructor|]. specialize (IH (Forall_inv_tail F)). apply Forall_inv in F. cbn [flat_map]. unfold errors in *. cbn [flat_map].
    apply Forall2_app; [|exact IH]. clear IH. destruct H as (T & H'). pose proof (conj T H') as H. change (heard x key e m) in H. rewrite T. unfold error_in. destruct (Z.eqb_spec (fst e) ERROR_RECORD) as [Er|Er].
    - destruct H' as [H'|(g & -> & (r & K & Hd) & _)]; [rewrite Er in H'; discriminate H'|]. constructor; [|constructor]. cbn [fst snd].
      rewrite Er in K. change (kind_of ERROR_RECORD) with (Some (Instance (lit "ErrorRecordMessage"))) in K. apply Some_inj in K. subst r. exact Hd.
    - destruct (Z.eqb_spec (fst e) PIPELINE_STATE) as [Es|Es].
      + destruct (state_of e m H F Es) as (g & -> & _ & B). destruct (failure (snd e)) as [|p l]; [rewrite B; constructor|]. destruct B as (B1 & o & -> & B2). rewrite B1. constructor; [exact B2|constructor].
      + destruct (carried m); constructor.
  Qed.
  Lemma states_heard items ms : Forall2 (heard x key) items ms -> Forall (fit ci (x_float x)) items ->
    forall zs, Forall2 (fun e => says_state (snd e)) (of_type PIPELINE_STATE items) zs -> forall z, final_state E z ms = last zs z /\ any_failed E ms = existsb (Z.eqb pl_failed) zs.
  Proof.
    induction 1 as [|e m items ms H _ IH]; intros F zs Z z; unfold of_type in Z; cbn [filter] in Z.
    - inversion Z. subst. split; reflexivity.
    - specialize (IH (Forall_inv_tail F)). apply Forall_inv in F. pose proof (proj1 H) as T. unfold final_state, any_failed in *. cbn [fold_left existsb]. rewrite T.
      destruct (Z.eqb_spec (fst e) PIPELINE_STATE) as [Es|Es]; [|exact (IH zs Z z)].
      inversion Z as [|e0 z1 l0 zs1 S1 Z1]; subst. destruct (state_of e m H F Es) as (g & -> & A & _). rewrite (A z1 S1).
      destruct (IH zs1 Z1 z1) as (I1 & I2). cbn [andb existsb]. rewrite I1, I2. split; [destruct zs1 as [|a l]; [reflexivity|]; cbn [last]; clear; revert a; induction l; intros a0; [reflexivity|]; cbn [last] in *; auto|].
      rewrite (Z.eqb_sym z1). reflexivity.
  Qed.
End Waited.
