(* Which pipelines a request names.  Apart from how requests are made. *)
From Verif Require Import Base Lit XmlModel ShellModel.

(* the CommandId attributes of an element and of all elements in it *)
Fixpoint named (x : xml) : list (list N) :=
  match x with
  | Elem _ attrs _ children => map snd (filter (fun a => str_eqb (fst a) (lit "CommandId")) attrs) ++ flat_map named children
  end.
Definition names (q : sreq) : list (list N) := match q_body q with Some b => named b | None => [] end.
