(* What a pipeline has of its runs. *)
From Verif Require Import Base PoolModel.

Section Results.
  Context {Obj Cmd : Type}.
  (* output and streams *)
  Definition results (p : ps Obj Cmd) : list (list Obj) :=
    [ps_output p; ps_error p; ps_debug p; ps_verbose p; ps_warning p; ps_progress p; ps_information p].
  (* the rest but the commands *)
  Definition rest_same (p p' : ps Obj Cmd) : Prop :=
    ps_id p' = ps_id p /\ ps_state p' = ps_state p /\ ps_had_errors p' = ps_had_errors p /\ ps_nested p' = ps_nested p /\
    ps_history p' = ps_history p /\ ps_from_disconnect p' = ps_from_disconnect p /\ ps_command_id p' = ps_command_id p.
End Results.
