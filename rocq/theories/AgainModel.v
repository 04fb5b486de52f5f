(* Model of PowerShell.clear_commands and clear_streams,
   src/pypsrp/powershell.py:1103-1117, on the pipelines of PoolModel.v.  Neither
   touches had_errors, state or the ids. *)
From Verif Require Import Base Lit NumModel TextModel ShellModel PoolModel.

Section Again.
  Context {Obj Cmd HS RK : Type}.
  Notation M A := (world Obj Cmd HS RK -> out A * world Obj Cmd HS RK).
  (* powershell.py:1103-1109 *)
  Definition clear_commands (r : nat) : M unit := updps r (set_ps_commands []).
  (* powershell.py:1111-1117; PSDataStreams() has six empty lists: 1618-1626 *)
  Definition clear_streams (r : nat) : M unit :=
    updps r (fun p => set_ps_output [] (set_ps_error [] (set_ps_debug [] (set_ps_verbose [] (set_ps_warning [] (set_ps_progress [] (set_ps_information [] p))))))).
End Again.
