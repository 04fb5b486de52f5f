(* Shared vocabulary of the model: Python exceptions as values, byte strings,
   slices, fixed width integers of the [struct] module and dictionaries.

   Conventions used in every model file:
   - a Python [bytes] value is a [list N] whose members are below 256
     ([bytes_ok]); a Python [str] is a [list N] of code points;
   - a Python [int] is a [Z] (or an [N] where it is known not to be negative);
   - a function that may raise returns [res A]. *)
From Coq Require Export List NArith ZArith Bool.
Export ListNotations.

(* The exception classes that the modelled code can raise.  The ones defined
   by the library are those of src/pypsrp/exceptions.py:9-162; the others are
   raised by the Python runtime or by the libraries called.  [OutOfFuel] is
   not a Python exception: it marks an exhausted recursion bound and every
   theorem excludes it. *)
Inductive exn : Type :=
| StructError            (* struct.error *)
| ValueError
| KeyError
| TypeError
| IndexError
| AttributeError
| StopIteration
| NotImplementedError
| FragmentError          (* exceptions.py:155 *)
| SerializationError     (* exceptions.py:160 *)
| WinRMError             (* exceptions.py:9 *)
| AuthenticationError    (* exceptions.py:14 *)
| WinRMTransportError    (* exceptions.py:19 *)
| WSManFaultError        (* exceptions.py:46 *)
| InvalidRunspacePoolStateError (* exceptions.py:137 *)
| InvalidPipelineStateError     (* exceptions.py:143 *)
| InvalidPSRPOperation          (* exceptions.py:149 *)
| NewConnectionDisabled         (* _pool_manager.py *)
| ReadTimeout                   (* requests.exceptions.ReadTimeout *)
| ConnectTimeout                (* requests.exceptions.ConnectTimeout, a requests ConnectionError *)
| RequestsConnectionError       (* requests.exceptions.ConnectionError *)
| BuiltinTimeoutError           (* TimeoutError *)
| OtherError                    (* any other exception *)
| OutOfFuel.

Inductive res (A : Type) : Type :=
| Ok (a : A)
| Err (e : exn).
Arguments Ok {A} _.
Arguments Err {A} _.

Definition bind {A B : Type} (x : res A) (f : A -> res B) : res B :=
  match x with Ok a => f a | Err e => Err e end.

Notation "'do' x <- a ; b" := (bind a (fun x => b))
  (at level 200, x name, a at level 100, b at level 200).
Notation "'do' ' p <- a ; b" := (bind a (fun p => b))
  (at level 200, p strict pattern, a at level 100, b at level 200).

Fixpoint mapM {A B : Type} (f : A -> res B) (l : list A) : res (list B) :=
  match l with
  | [] => Ok []
  | x :: xs => do y <- f x; do ys <- mapM f xs; Ok (y :: ys)
  end.

Notation byte := N (only parsing).
Notation bytes := (list N) (only parsing).
Definition is_byte (b : N) : bool := N.ltb b 256.
Definition bytes_ok (l : bytes) : Prop := Forall (fun b => (b < 256)%N) l.

Definition zlen {A : Type} (l : list A) : Z := Z.of_nat (length l).

(* Python's index normalisation for slices without a step: negative indices
   count from the end and everything is clamped to [0, n]. *)
Definition slice_index (n i : Z) : Z :=
  if (i <? 0)%Z then Z.max 0 (n + i)%Z else Z.min i n.

(* l[a:b] *)
Definition py_slice {A : Type} (l : list A) (a b : Z) : list A :=
  let n := zlen l in
  let a' := slice_index n a in
  let b' := slice_index n b in
  firstn (Z.to_nat (b' - a')) (skipn (Z.to_nat a') l).

(* l[:b] and l[a:] *)
Definition slice_to {A : Type} (l : list A) (b : Z) : list A := py_slice l 0 b.
Definition slice_from {A : Type} (l : list A) (a : Z) : list A :=
  py_slice l a (zlen l).

(* The integers of range(0, n, k): ValueError for k = 0, empty for k < 0
   (n is never negative here). *)
Definition py_range0 (n k : Z) : res (list Z) :=
  if (k =? 0)%Z then Err ValueError
  else if (k <? 0)%Z then Ok []
  else Ok (map (fun j => Z.of_nat j * k)%Z
               (seq 0 (Z.to_nat ((n + k - 1) / k)))).

(* Little endian and big endian representation on [w] bytes; the value is
   taken modulo 256^w, callers check the range first. *)
Fixpoint le_bytes (w : nat) (v : N) : bytes :=
  match w with
  | O => []
  | S w' => (v mod 256)%N :: le_bytes w' (v / 256)%N
  end.

Fixpoint le_val (l : bytes) : N :=
  match l with
  | [] => 0%N
  | b :: l' => (b + 256 * le_val l')%N
  end.

Definition be_bytes (w : nat) (v : N) : bytes := rev (le_bytes w v).
Definition be_val (l : bytes) : N := le_val (rev l).

(* struct.pack of one unsigned integer of [w] bytes: struct.error when the
   value is out of range. *)
Definition struct_pack_be (w : nat) (v : Z) : res bytes :=
  if (0 <=? v)%Z && (v <? 256 ^ Z.of_nat w)%Z
  then Ok (be_bytes w (Z.to_N v)) else Err StructError.

Definition struct_pack_le (w : nat) (v : Z) : res bytes :=
  if (0 <=? v)%Z && (v <? 256 ^ Z.of_nat w)%Z
  then Ok (le_bytes w (Z.to_N v)) else Err StructError.

(* struct.unpack of one unsigned integer: the buffer must have exactly the
   size of the format. *)
Definition struct_unpack_be (w : nat) (l : bytes) : res N :=
  if Nat.eqb (length l) w then Ok (be_val l) else Err StructError.

Definition struct_unpack_le (w : nat) (l : bytes) : res N :=
  if Nat.eqb (length l) w then Ok (le_val l) else Err StructError.

(* Python dictionaries as association lists in insertion order. *)
Section Dict.
  Context {K V : Type} (eqb : K -> K -> bool).

  Fixpoint dict_get (k : K) (d : list (K * V)) : option V :=
    match d with
    | [] => None
    | (k', v) :: d' => if eqb k k' then Some v else dict_get k d'
    end.

  Fixpoint dict_set (k : K) (v : V) (d : list (K * V)) : list (K * V) :=
    match d with
    | [] => [(k, v)]
    | (k', v') :: d' =>
        if eqb k k' then (k', v) :: d' else (k', v') :: dict_set k v d'
    end.

  Fixpoint dict_del (k : K) (d : list (K * V)) : list (K * V) :=
    match d with
    | [] => []
    | (k', v') :: d' =>
        if eqb k k' then dict_del k d' else (k', v') :: dict_del k d'
    end.
End Dict.

(* Equality of byte strings / strings. *)
Fixpoint list_eqb {A : Type} (eqb : A -> A -> bool) (a b : list A) : bool :=
  match a, b with
  | [], [] => true
  | x :: a', y :: b' => eqb x y && list_eqb eqb a' b'
  | _, _ => false
  end.
Definition str_eqb : list N -> list N -> bool := list_eqb N.eqb.
