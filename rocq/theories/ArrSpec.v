(* Arrays of any number of dimensions, apart from how they are flattened. *)
From Verif Require Import Base NumModel SerModel.
Local Open Scope list_scope.

(* a rectangular array of these lengths *)
Fixpoint rectangular (dims : list nat) (v : value) : Prop :=
  match dims with
  | [] => True
  | n :: dims => exists l, v = VList l /\ length l = n /\ Forall (rectangular dims) l
  end.
(* whose elements are no lists *)
Fixpoint simple_elements (dims : list nat) (v : value) : Prop :=
  match dims with
  | [] => match v with VList _ => False | _ => True end
  | _ :: dims => match v with VList l => Forall (simple_elements dims) l | _ => False end
  end.
(* a[i][j]...[k] *)
Fixpoint element (idx : list nat) (v : value) : option value :=
  match idx with
  | [] => Some v
  | i :: idx => match v with VList l => match nth_error l i with Some w => element idx w | None => None end | _ => None end
  end.
Definition within (idx dims : list nat) : Prop := Forall2 lt idx dims.
(* where [MS-PSRP] 2.2.6.1.4 puts it: the last index moves first *)
Fixpoint position (idx dims : list nat) : nat :=
  match idx, dims with i :: idx, _ :: dims => i * fold_right Nat.mul 1 dims + position idx dims | _, _ => 0 end.
Definition size (dims : list nat) : nat := fold_right Nat.mul 1 dims.
