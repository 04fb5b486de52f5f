(* Model of src/pypsrp/_pool_manager.py: the context that disables new
   connections, and the adapter whose connections obey it.

   Contexts of the contextvars module are those of threads; copies of a context
   (asyncio tasks) are not modelled.  The urllib3 and requests objects are what
   the code uses of them: a pool manager is a table from scheme to a function
   that makes pools, a pool makes connections, a connection connects. *)
From Verif Require Import Base.

(* The context variable of each thread, None when not set, and the token each
   DisableNewConnectionsContext object holds: the thread it was made in and the
   value it restores.  _pool_manager.py:26-27 *)
Record cstate := mkC { cv : nat -> option nat; tok : nat -> option (nat * option nat) }.
Definition put {A} (k : nat) (v : A) (f : nat -> A) : nat -> A := fun x => if Nat.eqb x k then v else f x.

(* __enter__ of the object [i] in thread [t]: _pool_manager.py:37-39 *)
Definition enter (t i : nat) (s : cstate) : cstate :=
  mkC (put t (Some i) (cv s)) (put i (Some (t, cv s t)) (tok s)).
(* __exit__: _pool_manager.py:41-50.  Without a token the attribute lookup
   fails; the token of another thread is refused by ContextVar.reset. *)
Definition leave (t i : nat) (s : cstate) : res unit * cstate :=
  match tok s i with
  | None => (Err AttributeError, s)
  | Some (t', old) =>
      if Nat.eqb t' t then (Ok tt, mkC (put t old (cv s)) (put i None (tok s)))
      else (Err ValueError, s)
  end.

(* What runs in a thread: it may raise, change the state, and touch the
   network; [N] names what was connected to. *)
Definition act (A : Type) : Type := nat -> cstate -> res A * cstate * list N.
Definition abind {A B} (m : act A) (f : A -> act B) : act B :=
  fun t s => let '(r, s1, n1) := m t s in
             match r with
             | Ok a => let '(r2, s2, n2) := f a t s1 in (r2, s2, n1 ++ n2)
             | Err e => (Err e, s1, n1)
             end.
Definition aret {A} (a : A) : act A := fun _ s => (Ok a, s, []).

(* _raise_if_connections_disabled: _pool_manager.py:29-35, 101-103 *)
Definition guard : act unit :=
  fun t s => match cv s t with Some _ => (Err NewConnectionDisabled, s, []) | None => (Ok tt, s, []) end.

(* _wrap: _pool_manager.py:77-98.  [after] changes the object made, so it gives
   back the changed object. *)
Definition wrap {A B} (before : option (act unit)) (after : option (B -> act B)) (func : A -> act B) : A -> act B :=
  fun a =>
    abind (match before with Some b => b | None => aret tt end) (fun _ =>
    abind (func a) (fun r => match after with Some f => f r | None => aret r end)).

Record connection := mkConn { connect : unit -> act unit }.
Record cpool := mkCPool { ConnectionCls : list N -> act connection }.
(* pool_classes_by_scheme *)
Definition schemes : Type := list (list N * (list N -> act cpool)).
(* An adapter of requests has a pool manager for direct connections and, per
   proxy, a manager made by urllib3.poolmanager.proxy_from_url, whose table of
   classes is the module's own. *)
Record adapter := mkAdapter { direct : schemes; proxied : schemes }.

(* _create_new_connection_with_failure, _create_connection_pool:
   _pool_manager.py:106-114 *)
Definition guard_connection (c : connection) : act connection :=
  aret (mkConn (wrap (Some guard) None (connect c))).
Definition guard_pool (p : cpool) : act cpool :=
  aret (mkCPool (wrap None (Some guard_connection) (ConnectionCls p))).
(* create_request_adapter: _pool_manager.py:117-146.  [base] is the module's
   pool_classes_by_scheme. *)
Definition create_request_adapter (base : schemes) : adapter :=
  mkAdapter (map (fun e => (fst e, wrap None (Some guard_pool) (snd e))) base) base.

(* Make a pool of the table, a connection of that pool, and connect it. *)
Definition open_connection (tbl : schemes) (scheme host arg : list N) : act unit :=
  match dict_get str_eqb scheme tbl with
  | None => fun _ s => (Err KeyError, s, [])
  | Some mk => abind (mk host) (fun p => abind (ConnectionCls p arg) (fun c => connect c tt))
  end.

(* ---- programs that use the context ---- *)
(* [Attempt] makes a connection of an adapter and connects it, [Fail] raises,
   [Within i] is a with statement on the object [i], [Guarded] is a try
   statement with an except clause that catches everything. *)
Inductive prog :=
| Skip | Attempt (c : N) | Fail (e : exn) | Then (p q : prog) | Within (i : nat) (p : prog) | Guarded (p q : prog).

Section Run.
  (* the outcome of connecting when it is not refused *)
  Context (net : N -> res unit).
  Definition attempt (c : N) : act unit :=
    wrap (Some guard) None (fun _ : unit => fun t s => (net c, s, [c])) tt.

  (* The with statement calls __exit__ however the body ends; an exception of
     __exit__ replaces that of the body, and __exit__ gives None so none is
     swallowed. *)
  Fixpoint run (p : prog) : act unit :=
    match p with
    | Skip => aret tt
    | Attempt c => attempt c
    | Fail e => fun _ s => (Err e, s, [])
    | Then p q => abind (run p) (fun _ => run q)
    | Within i p => fun t s =>
        let '(r, s1, n1) := run p t (enter t i s) in
        let '(x, s2) := leave t i s1 in
        (match x with Err e => Err e | Ok _ => r end, s2, n1)
    | Guarded p q => fun t s =>
        let '(r, s1, n1) := run p t s in
        match r with
        | Ok _ => (r, s1, n1)
        | Err _ => let '(r2, s2, n2) := run q t s1 in (r2, s2, n1 ++ n2)
        end
    end.

  (* ---- several threads: one step each, in any order ---- *)
  Inductive cevent := CEnter (i : nat) | CLeave (i : nat) | CAttempt (c : N).
  Definition cstep (t : nat) (e : cevent) (s : cstate) : res unit * cstate * list N :=
    match e with
    | CEnter i => (Ok tt, enter t i s, [])
    | CLeave i => let '(x, s') := leave t i s in (x, s', [])
    | CAttempt c => attempt c t s
    end.
  Fixpoint csteps (l : list (nat * cevent)) (s : cstate) : list (res unit * list N) * cstate :=
    match l with
    | [] => ([], s)
    | (t, e) :: l' => let '(r, s1, n) := cstep t e s in
                      let '(rs, s2) := csteps l' s1 in ((r, n) :: rs, s2)
    end.
End Run.
