(* Python text primitives used all over the library: str.strip, str.split,
   str.splitlines, str.join, int(text) and str(int). *)
From Verif Require Import Base.

(* str.isspace characters, those removed by str.strip() *)
Definition is_space (c : N) : bool :=
  ((N.leb 9 c && N.leb c 13) || (N.leb 28 c && N.leb c 32) || N.eqb c 133 || N.eqb c 160 ||
   N.eqb c 5760 || (N.leb 8192 c && N.leb c 8202) || N.eqb c 8232 || N.eqb c 8233 ||
   N.eqb c 8239 || N.eqb c 8287 || N.eqb c 12288)%bool.

Fixpoint drop_while {A} (p : A -> bool) (s : list A) : list A :=
  match s with c :: s' => if p c then drop_while p s' else s | [] => [] end.

(* s.strip(chars) for the set of characters [p] *)
Definition strip_by (p : N -> bool) (s : list N) : list N :=
  rev (drop_while p (rev (drop_while p s))).
Definition py_strip (s : list N) : list N := strip_by is_space s.

(* s.split(c) for a single character separator: never empty *)
Fixpoint split_on (sep : N) (s : list N) : list (list N) :=
  match s with
  | [] => [[]]
  | c :: s' =>
      if N.eqb c sep then [] :: split_on sep s'
      else match split_on sep s' with
           | p :: ps => (c :: p) :: ps
           | [] => [[c]]
           end
  end.

(* sep.join(parts) *)
Fixpoint join (sep : list N) (parts : list (list N)) : list N :=
  match parts with
  | [] => []
  | [p] => p
  | p :: ps => p ++ sep ++ join sep ps
  end.

(* s.startswith(p), s.endswith(p) *)
Fixpoint starts_with (p s : list N) : bool :=
  match p, s with
  | [], _ => true
  | x :: p', y :: s' => (N.eqb x y && starts_with p' s')%bool
  | _, [] => false
  end.
Definition ends_with (p s : list N) : bool := starts_with (rev p) (rev s).

(* str.splitlines(): the line boundaries of Python's str *)
Definition is_break (c : N) : bool :=
  ((N.leb 10 c && N.leb c 13) || (N.leb 28 c && N.leb c 30) || N.eqb c 133 ||
   N.eqb c 8232 || N.eqb c 8233)%bool.

(* [cur] is the current line in reverse; CR LF is one boundary *)
Fixpoint splitlines_aux (cur : list N) (s : list N) : list (list N) :=
  match s with
  | [] => match cur with [] => [] | _ => [rev cur] end
  | c :: s' =>
      if is_break c then
        rev cur ::
        match s' with
        | d :: s'' =>
            if (N.eqb c 13 && N.eqb d 10)%bool then splitlines_aux [] s''
            else splitlines_aux [] s'
        | [] => splitlines_aux [] s'
        end
      else splitlines_aux (c :: cur) s'
  end.
Definition splitlines (s : list N) : list (list N) := splitlines_aux [] s.

(* int(text) in base 10: surrounding blanks, an optional sign, ASCII digits
   with single underscores between them.  Simplified: digits of other scripts,
   which Python accepts too, raise ValueError here. *)
Definition is_digit (c : N) : bool := (N.leb 48 c && N.leb c 57)%bool.

Fixpoint int_digits (acc : N) (s : list N) : res N :=
  match s with
  | [] => Ok acc
  | c :: s' =>
      if is_digit c then int_digits (10 * acc + (c - 48))%N s'
      else if N.eqb c 95 then
        match s' with
        | d :: s'' =>
            if is_digit d then int_digits (10 * acc + (d - 48))%N s'' else Err ValueError
        | [] => Err ValueError
        end
      else Err ValueError
  end.

Definition int_body (s : list N) : res N :=
  match s with
  | c :: s' => if is_digit c then int_digits (c - 48) s' else Err ValueError
  | [] => Err ValueError
  end.

Definition py_int (s : list N) : res Z :=
  let t := py_strip s in
  match t with
  | c :: t' =>
      if N.eqb c 45 then do n <- int_body t'; Ok (- Z.of_N n)%Z
      else if N.eqb c 43 then do n <- int_body t'; Ok (Z.of_N n)
      else do n <- int_body t; Ok (Z.of_N n)
  | [] => Err ValueError
  end.

(* str(int) *)
Fixpoint dec_digits (fuel : nat) (n : N) (acc : list N) : list N :=
  match fuel with
  | O => acc
  | S fuel' =>
      if N.ltb n 10 then (48 + n)%N :: acc
      else dec_digits fuel' (n / 10) ((48 + n mod 10)%N :: acc)
  end.
Definition dec (n : N) : list N := dec_digits (S (N.to_nat (N.log2 n))) n [].
Definition py_str (z : Z) : list N :=
  if Z.ltb z 0 then 45%N :: dec (Z.to_N (- z)) else dec (Z.to_N z).
