(* Queues and stacks whose values are told apart by one tag. *)
From Verif Require Import Base Lit NumModel TextModel TextSpec MsgModel MsgSpec XmlModel SerModel SerSpec SerSpec2 ClsSpec.

(* a scalar that the first value says how to write; None is taken for a string *)
Definition first_tag (l : list value) : list N := match l with [] | VNone :: _ => lit "S" | v :: _ => natural v end.
Definition alike ci float_of said raw (l : list value) : Prop := Forall (fun v => v = VNone \/ bears ci float_of said raw (first_tag l) v) l.
