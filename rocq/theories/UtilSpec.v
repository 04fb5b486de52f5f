(* Specification vocabulary for versions and scripts; independent of the model. *)
From Verif Require Import Base Lit.

(* ---- versions ---- *)
(* the number written by a string of decimal digits, most significant first *)
Definition digit_string (s : list N) : Prop := s <> [] /\ Forall (fun c => (48 <= c <= 57)%N) s.
Fixpoint number (s : list N) : N :=
  match s with
  | [] => 0
  | c :: s' => ((c - 48) * 10 ^ N.of_nat (length s') + number s')%N
  end.

(* components separated by dots *)
Fixpoint dotted (parts : list (list N)) : list N :=
  match parts with
  | [] => []
  | [p] => p
  | p :: ps => p ++ 46%N :: dotted ps
  end.

(* the i-th component; missing components count as zero *)
Definition component (parts : list (list N)) (i : nat) : N := number (nth i parts []).

Definition version_parts (parts : list (list N)) : Prop := parts <> [] /\ Forall digit_string parts.

(* v is older than r: the first difference is to r's advantage *)
Definition older (v r : list (list N)) : Prop :=
  exists i, (forall j, (j < i)%nat -> component v j = component r j) /\
            (component v i < component r i)%N.

(* ---- scripts ---- *)
Definition blank (c : N) : Prop :=
  In c ([9; 10; 11; 12; 13; 28; 29; 30; 31; 32; 133; 160; 5760; 8192; 8193; 8194; 8195; 8196; 8197;
         8198; 8199; 8200; 8201; 8202; 8232; 8233; 8239; 8287; 12288])%N.
Definition line_break (c : N) : Prop := In c ([10; 11; 12; 13; 28; 29; 30; 133; 8232; 8233])%N.

(* text without blanks at either end *)
Definition trimmed (s : list N) : Prop :=
  (forall c s', s = c :: s' -> ~ blank c) /\ (forall s' c, s = s' ++ [c] -> ~ blank c).

(* one logical piece of a script: a code line, a comment line, an empty line,
   or a block comment of at least two lines.  [pre] and [post] are blanks. *)
Inductive piece : Type :=
| Code (pre body post : list N)
| Comment (pre body post : list N)
| Empty (pre : list N)
| Block (first : list N * list N) (middle : list (list N)) (last : list N * list N).

Definition prefix_of (p s : list N) : Prop := exists t, s = p ++ t.
Definition suffix_of (p s : list N) : Prop := exists t, s = t ++ p.
Definition blanks (s : list N) : Prop := Forall blank s.
Definition one_line (s : list N) : Prop := Forall (fun c => ~ line_break c) s.

Definition piece_lines (p : piece) : list (list N) :=
  match p with
  | Code pre body post => [pre ++ body ++ post]
  | Comment pre body post => [pre ++ lit "#" ++ body ++ post]
  | Empty pre => [pre]
  | Block (pre, body) middle (last, post) =>
      (pre ++ lit "<#" ++ body) :: middle ++ [last ++ lit "#>" ++ post]
  end.

Definition piece_ok (p : piece) : Prop :=
  Forall one_line (piece_lines p) /\
  match p with
  | Code pre body post =>
      blanks pre /\ blanks post /\ body <> [] /\ trimmed body /\
      ~ prefix_of (lit "#") body /\ ~ prefix_of (lit "<#") body
  | Comment pre body post => blanks pre
  | Empty pre => blanks pre
  | Block (pre, body) middle (last, post) =>
      blanks pre /\ blanks post /\
      (* the comment is not closed at the end of an inner line *)
      Forall (fun l => forall a b, blanks b -> l <> a ++ lit "#>" ++ b) middle
  end.

(* what should remain of a piece *)
Definition kept (p : piece) : list (list N) :=
  match p with Code _ body _ => [body] | _ => [] end.

(* a text made of lines, each ended by a line feed *)
Definition text_of (lines : list (list N)) : list N := concat (map (fun l => l ++ [10%N]) lines).
(* lines separated by line feeds *)
Fixpoint lines_joined (lines : list (list N)) : list N :=
  match lines with
  | [] => []
  | [l] => l
  | l :: ls => l ++ 10%N :: lines_joined ls
  end.

(* order-preserving selection *)
Inductive selection {A : Type} : list A -> list A -> Prop :=
| sel_nil : selection [] []
| sel_keep x a b : selection a b -> selection (x :: a) (x :: b)
| sel_skip x a b : selection a b -> selection a (x :: b).
