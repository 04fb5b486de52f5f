(* Independent specification for the fragment layer: what a message in
   transit is, what a well-formed sequence of its fragments is, and how a
   sequence-checking receiver must behave. *)
From Verif Require Import Base FragModel.

(* A message in transit: its object id and the pieces its bytes were cut
   into. *)
Record transit := mkTransit { t_oid : Z; t_pieces : list bytes }.
Definition t_msg (t : transit) : bytes := concat (t_pieces t).

(* Fragment number i of a message in transit: MS-PSRP 2.2.4.  Ids count from
   0, the first fragment has the start flag, the last one the end flag. *)
Definition frag_of (t : transit) (i : nat) : fragment :=
  mkFrag (t_oid t) (Z.of_nat i) (nth i (t_pieces t) [])
         (Nat.eqb i 0) (Nat.eqb (S i) (length (t_pieces t))).

(* A word: a sequence of fragments, each named by its message and number. *)
Notation word := (list (transit * nat)) (only parsing).

(* All fragments of a message in order. *)
Definition stream (t : transit) : word :=
  map (fun i => (t, i)) (seq 0 (length (t_pieces t))).

Definition is_last (x : transit * nat) : bool :=
  Nat.eqb (S (snd x)) (length (t_pieces (fst x))).

(* [data] is the wire image of the word [w]. *)
Definition word_wire (w : word) (data : bytes) : Prop :=
  exists bs, mapM (fun x => frag_pack (frag_of (fst x) (snd x))) w = Ok bs
             /\ data = concat bs.

(* Every name in a word is a fragment of one of the messages [ts]. *)
Definition word_over (ts : list transit) (w : word) : Prop :=
  Forall (fun x => In (fst x) ts /\ snd x < length (t_pieces (fst x))) w.

(* The pieces of a message cut at [k] bytes: all of length [k] but the last,
   which is not empty. *)
Definition cut_at (k : Z) (ps : list bytes) : Prop :=
  exists qs q, ps = qs ++ [q] /\ Forall (fun p => zlen p = k) qs
               /\ (1 <= zlen q <= k)%Z.

(* The sequence-checking receiver: for each object id the number of the next
   fragment it expects.  A call delivers the messages whose last fragments it
   accepted ([Some]) or fails at the first fragment out of sequence
   ([None]). *)
Definition expect : Type := Z -> nat.
Definition expect0 : expect := fun _ => 0.
Definition upd (e : expect) (k : Z) (v : nat) : expect :=
  fun x => if Z.eqb x k then v else e x.

Fixpoint spec_recv (e : expect) (w : word) : expect * option (list bytes) :=
  match w with
  | [] => (e, Some [])
  | (t, i) :: w' =>
      if Nat.eqb i (e (t_oid t)) then
        let last := is_last (t, i) in
        let '(e', o) := spec_recv (upd e (t_oid t) (if last then 0 else S i)) w' in
        (e', option_map (fun ms => (if last then [t_msg t] else []) ++ ms) o)
      else (e, None)
  end.

Fixpoint spec_calls (e : expect) (ws : list word)
  : expect * list (option (list bytes)) :=
  match ws with
  | [] => (e, [])
  | w :: ws' =>
      let '(e', o) := spec_recv e w in
      let '(e'', os) := spec_calls e' ws' in
      (e'', o :: os)
  end.

(* What the caller observes: the messages, or FragmentError. *)
Definition observe (o : option (list bytes)) : res (list bytes) :=
  match o with Some ms => Ok ms | None => Err FragmentError end.

(* The messages delivered over a history in which no call raised. *)
Definition delivered (outs : list (res (list bytes))) : res (list bytes) :=
  do ls <- mapM (fun x => x) outs; Ok (concat ls).

(* The messages a word completes, in order. *)
Definition completes (w : word) : list bytes :=
  map (fun x => t_msg (fst x)) (filter is_last w).

(* Order preserving interleavings of several sequences. *)
Inductive interleave {A : Type} : list (list A) -> list A -> Prop :=
| il_nil : forall ls, Forall (fun l => l = []) ls -> interleave ls []
| il_cons : forall l1 x s l2 w,
    interleave (l1 ++ s :: l2) w -> interleave (l1 ++ (x :: s) :: l2) (x :: w).

(* The same table up to the order of its entries. *)
Definition same_table (r r' : receiver) : Prop :=
  forall k, dict_get Z.eqb k r = dict_get Z.eqb k r'.

(* Histories of sends, used for the object id claim. *)
Fixpoint run_sends (s : sender) (ops : list send_op)
  : res (sender * list (list bytes)) :=
  match ops with
  | [] => Ok (s, [])
  | o :: ops' =>
      do '(s', bs) <- send_step s o;
      do '(s'', bss) <- run_sends s' ops';
      Ok (s'', bs :: bss)
  end.

Definition op_msgs (o : send_op) : list bytes :=
  match o with SendOne m => [m] | SendMany ms => ms end.

Fixpoint strictly_increasing (l : list Z) : Prop :=
  match l with
  | [] => True
  | x :: l' => (forall y, In y l' -> (x < y)%Z) /\ strictly_increasing l'
  end.

(* The number written in base 256 with the most significant digit first. *)
Definition big_endian (l : list N) : N :=
  fold_left (fun acc b => 256 * acc + b)%N l 0%N.
