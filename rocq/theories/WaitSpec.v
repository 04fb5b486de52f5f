(* What a server says to a pool that waits for it. *)
From Verif Require Import Base Lit NumModel TextModel MsgModel UtilModel UtilSpec WsmanModel ShellModel ShellSpec PoolModel PoolSpec.

Section Waiting.
  Context {Obj Cmd HS RK : Type} (E : env Obj Cmd HS RK).
  (* what a server says on opening: events, its data, its limits, a capability with a
     protocol version in numbers, and states other than Broken *)
  Definition greets (m : message Obj) : Prop :=
    In (m_type m) [USER_EVENT; APPLICATION_PRIVATE_DATA; PUBLIC_KEY_REQUEST; RUNSPACEPOOL_INIT_DATA] \/
    (m_type m = SESSION_CAPABILITY /\ forall o, carried m = Some o -> exists v, fst (fst (ev_capability E o)) = Some (dotted v) /\ version_parts v) \/
    (m_type m = RUNSPACEPOOL_STATE /\ forall o, carried m = Some o -> ev_pool_state E o <> rs_broken).
  (* the last state said, or [z] *)
  Definition pool_said (z : Z) (ms : list (message Obj)) : Z :=
    fold_left (fun z m => if Z.eqb (m_type m) RUNSPACEPOOL_STATE then match carried m with Some o => ev_pool_state E o | None => z end else z) ms z.
  (* what may come at any time *)
  Definition remarks (m : message Obj) : Prop := In (m_type m) [USER_EVENT; APPLICATION_PRIVATE_DATA; PUBLIC_KEY_REQUEST].
  (* the call with the id [ci] was answered with yes *)
  Definition confirms (ci : Z) (m : message Obj) : Prop := exists o, carries RUNSPACE_AVAILABILITY m o /\ ev_availability E o = (ci, VBool true).
  (* the call with the id [ci] was answered with a number *)
  Definition counts (ci z : Z) (m : message Obj) : Prop := exists o, carries RUNSPACE_AVAILABILITY m o /\ ev_availability E o = (ci, VInt z).
End Waiting.
(* an answer that says something, if only that there is nothing on any stream *)
Definition not_late (m : said) : Prop := m <> SaidNothing.

(* the session key, sealed for the key pair [k] *)
Definition unlocks {Obj Cmd HS RK : Type} (E : env Obj Cmd HS RK) (k : RK) (d : bytes) (m : message Obj) : Prop :=
  exists o b, carries ENCRYPTED_SESSION_KEY m o /\ b64decode (ev_session_key E o) = Ok b /\ ev_decrypt E k (rev (slice_from b 12)) = Ok d /\
    (length d = 16 \/ length d = 24 \/ length d = 32).
(* every request was taken *)
Definition all_taken (qs : history) : Prop := qs <> [] /\ Forall (fun e => exists b, snd e = WBody b) qs.
(* at most [lim] milliseconds pass until the last of the answers *)
Definition in_time {Obj Cmd HS RK : Type} (E : env Obj Cmd HS RK) (h : history) (answers : list wresult) (lim : Z) : Prop :=
  forall qs, Forall (fun e => q_op (fst e) = OpReceive) qs -> map snd qs = firstn (length qs) answers -> (ev_clock E (h ++ qs) - ev_clock E h <= lim)%Z.
