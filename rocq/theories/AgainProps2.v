(* Property theorem C80, continued. *)
From Verif Require Import Base BaseProofs Lit NumModel TextModel XmlModel WsmanModel ShellModel ShellSpec FragModel MsgModel PoolModel PoolSpec PoolToy AgainModel AgainSpec AgainProofs3 AgainProps.

(* How far C80_had_errors_refuted goes: whatever is called on the pool and its
   pipelines, and whatever the server answers, a pipeline that had errors once has
   had_errors for good; clearing does not change this either. *)
Theorem C80_never_reset : forall Obj Cmd HS RK (E : env Obj Cmd HS RK) l k w, k < length (w_heap w) -> ps_had_errors (the_ps k w) = true ->
  ps_had_errors (the_ps k (run_ops E l w)) = true /\ ps_had_errors (the_ps k (snd (clear_streams k w))) = true /\ ps_had_errors (the_ps k (snd (clear_commands k w))) = true.
Proof. intros Obj Cmd HS RK E l k w. exact (never_reset E l k w). Qed.
Print Assumptions C80_never_reset.
Example C80_never_reset_case : 0 < length (w_heap ag_first) /\ ps_had_errors (the_ps 0 ag_first) = true /\ ps_had_errors (the_ps 0 (ag_second true)) = true /\ ps_state (the_ps 0 (ag_second true)) = pl_completed.
Proof. split; [apply Nat.ltb_lt; vm_compute; reflexivity|]. split; [vm_compute; reflexivity|]. split; vm_compute; reflexivity. Qed.
