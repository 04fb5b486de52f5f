(* What the messages for a pool say, by the names of [MS-PSRP] 2.2.2. *)
From Verif Require Import Base Lit NumModel TextModel XmlModel SerModel WireModel RdSpec.
Local Open Scope list_scope.

(* the message has an extended property of this name *)
Definition says_property (t : item) (name : String.string) (p : item) : Prop :=
  exists id n text sets ad ex, t = Object id n text sets ad ex /\ In (lit name, p) ex.
Definition integer (tag : String.string) (z : Z) : item := Scalar (lit tag) (Some (py_str z)).
Definition version (v : list N) : item := Scalar (lit "Version") (Some v).
Definition truth (b : bool) : item := Scalar (lit "B") (Some (if b then lit "true" else lit "false")).
(* an enumeration: an object with its number as the only value *)
Definition constant_of (t : item) (z : Z) : Prop := exists id n text ad ex, t = Object id n text [integer "I32" z] ad ex.
