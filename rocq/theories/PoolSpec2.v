(* What was negotiated with the server, from the messages received. *)
From Verif Require Import Base Lit XmlModel WsmanModel ShellModel FragModel MsgModel UtilModel PoolModel PoolSpec.

Section PoolSpec2.
  Context {Obj Cmd HS RK : Type} (E : env Obj Cmd HS RK).
  (* the protocol, PowerShell and serialization versions the server stated *)
  Definition stated (l : list (event Obj Cmd)) : list (option (list N) * option (list N) * option (list N)) :=
    flat_map (fun e => match e with
      | EMsg _ m => if Z.eqb (m_type m) SESSION_CAPABILITY then match carried m with Some o => [ev_capability E o] | None => [] end else []
      | _ => [] end) l.
  (* a version that is at least another; one that was not given is empty *)
  Definition at_least (v : option (list N)) (r : list N) : Prop :=
    version_equal_or_newer (match v with Some t => t | None => [] end) r = Ok true.
  Definition protocol_of (c : option (list N) * option (list N) * option (list N)) : option (list N) := fst (fst c).
End PoolSpec2.
