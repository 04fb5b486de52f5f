(* Which pipeline a call is about.  Apart from what the calls do. *)
From Verif Require Import Base Lit ShellModel PoolModel.

(* the pipeline object a call is made on, or the id of the pipeline it makes and
   runs for itself (get_command_metadata) *)
Inductive subject : Type := OfPool | OfPipeline (r : nat) | OfNew (id : list N).
Definition about {Obj Cmd} (o : op (Obj := Obj) (Cmd := Cmd)) : subject :=
  match o with
  | AddCommand r _ | Begin r _ | Poll r _ | End r | Stop r | Close r | ConnectAsync r => OfPipeline r
  | Metadata id _ => OfNew id
  (* creating a nested pipeline makes a new one and leaves the outer one alone *)
  | PoolOpen _ | PoolClose | PoolConnect | PoolDisconnect | SetMin _ | SetMax _ | Available | Reset | ExchangeKeys | IsAlive _
  | Create _ | Nested _ _ => OfPool
  end.

Section Apart.
  Context {Obj Cmd HS RK : Type}.
  (* the call is about a pipeline, if any, that has another id than the pipeline [k] *)
  Definition elsewhere (k : nat) (o : op (Obj := Obj) (Cmd := Cmd)) (w : world Obj Cmd HS RK) : Prop :=
    match about o with
    | OfPool => True
    | OfPipeline r => (r < length (w_heap w))%nat /\ ps_id (the_ps r w) <> ps_id (the_ps k w)
    | OfNew id => id <> ps_id (the_ps k w)
    end.
End Apart.
