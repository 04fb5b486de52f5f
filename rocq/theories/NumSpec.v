(* What a decimal numeral is for int(text), apart from the digits of other
   scripts: Python's language reference, "Integer literals", and the
   documentation of int. *)
From Verif Require Import Base.

Definition blanks : list N :=
  [9; 10; 11; 12; 13; 28; 29; 30; 31; 32; 133; 160; 5760; 8192; 8193; 8194; 8195; 8196; 8197; 8198; 8199; 8200; 8201; 8202; 8232; 8233; 8239; 8287; 12288]%N.
Definition decimal_digit (c : N) : Prop := In c [48; 49; 50; 51; 52; 53; 54; 55; 56; 57]%N.
(* groups of digits with single underscores between them, and their value *)
Inductive groups : list N -> N -> Prop :=
| gr_one : forall c, decimal_digit c -> groups [c] (c - 48)
| gr_more : forall s v c, groups s v -> decimal_digit c -> groups (s ++ [c]) (10 * v + (c - 48))
| gr_under : forall s v c, groups s v -> decimal_digit c -> groups (s ++ [95; c]%N) (10 * v + (c - 48)).
Inductive numeral : list N -> Z -> Prop :=
| nu_bare : forall s v, groups s v -> numeral s (Z.of_N v)
| nu_plus : forall s v, groups s v -> numeral (43%N :: s) (Z.of_N v)
| nu_minus : forall s v, groups s v -> numeral (45%N :: s) (- Z.of_N v)
| nu_before : forall c s z, In c blanks -> numeral s z -> numeral (c :: s) z
| nu_after : forall c s z, In c blanks -> numeral s z -> numeral (s ++ [c]) z.
