(* The regular expression and substring operations of Python used by the
   library (re.split, re.sub with an empty replacement, bytes.split and
   bytes.replace), for a matcher given as a function: [m s] is the length of
   the match that starts at the beginning of [s], if there is one.  The scan is
   the leftmost, non overlapping one of Python; matchers never match the empty
   string here. *)
From Verif Require Import Base.

(* re.split / bytes.split; [skip] is the number of characters of the current
   match that are still to be dropped *)
Fixpoint re_split (m : list N -> option nat) (skip : nat) (s : list N) : list (list N) :=
  match s with
  | [] => [[]]
  | c :: s' =>
      match skip with
      | S k => re_split m k s'
      | O =>
          match m s with
          | Some (S k) => [] :: re_split m k s'
          | _ => match re_split m 0 s' with
                 | p :: ps => (c :: p) :: ps
                 | [] => [[c]]
                 end
          end
      end
  end.

(* re.sub(pattern, b"", s) / s.replace(pattern, b"") *)
Fixpoint re_del (m : list N -> option nat) (skip : nat) (s : list N) : list N :=
  match s with
  | [] => []
  | c :: s' =>
      match skip with
      | S k => re_del m k s'
      | O => match m s with
             | Some (S k) => re_del m k s'
             | _ => c :: re_del m 0 s'
             end
      end
  end.

(* the rest of [s] after the literal [p] *)
Fixpoint after (p s : list N) : option (list N) :=
  match p, s with
  | [], _ => Some s
  | x :: p', y :: s' => if N.eqb x y then after p' s' else None
  | _ :: _, [] => None
  end.

(* matcher for a literal *)
Definition m_lit (p : list N) (s : list N) : option nat :=
  match after p s with Some _ => Some (length p) | None => None end.
