(* What disabling connections should mean: a with block disables them for what
   runs inside it, and nothing else does. *)
From Verif Require Import Base ConnModel.

(* The meaning of a program when connections are disabled around it or not. *)
Fixpoint means (net : N -> res unit) (disabled : bool) (p : prog) : res unit * list N :=
  match p with
  | Skip => (Ok tt, [])
  | Attempt c => if disabled then (Err NewConnectionDisabled, []) else (net c, [c])
  | Fail e => (Err e, [])
  | Then p q => let '(r, n) := means net disabled p in
                match r with Ok _ => let '(r', n') := means net disabled q in (r', n ++ n') | Err e => (Err e, n) end
  | Within _ p => means net true p
  | Guarded p q => let '(r, n) := means net disabled p in
                   match r with Ok _ => (r, n) | Err _ => let '(r', n') := means net disabled q in (r', n ++ n') end
  end.

(* No object is used for a block inside its own block; [open] are the objects
   whose blocks surround the program. *)
Fixpoint separate (open : list nat) (p : prog) : Prop :=
  match p with
  | Then p q | Guarded p q => separate open p /\ separate open q
  | Within i p => ~ In i open /\ separate (i :: open) p
  | _ => True
  end.

(* Threads.  [open t] are the open blocks of a thread, innermost first.  A
   block is entered with an object no open block of any thread uses, and the
   innermost block is the one left.  [told] is what each step should do. *)
Inductive schedule (net : N -> res unit) : (nat -> list nat) -> list (nat * cevent) -> list (res unit * list N) -> Prop :=
| SDone o : schedule net o [] []
| SEnter o t i l r : (forall t', ~ In i (o t')) -> schedule net (put t (i :: o t) o) l r ->
    schedule net o ((t, CEnter i) :: l) ((Ok tt, []) :: r)
| SLeave o t i rest l r : o t = i :: rest -> schedule net (put t rest o) l r ->
    schedule net o ((t, CLeave i) :: l) ((Ok tt, []) :: r)
| SRefused o t c l r : o t <> [] -> schedule net o l r ->
    schedule net o ((t, CAttempt c) :: l) ((Err NewConnectionDisabled, []) :: r)
| SAllowed o t c l r : o t = [] -> schedule net o l r ->
    schedule net o ((t, CAttempt c) :: l) ((net c, [c]) :: r).
