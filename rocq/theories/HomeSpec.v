(* Elements with a default namespace: a tree with an attribute xmlns is read as
   one whose names are in that namespace.  Only for elements without children
   and without other attributes, which is what the library writes. *)
From Verif Require Import Base Lit TextSpec XmlModel XtSpec.

Fixpoint homed (x : xml) : xml :=
  match x with
  | Elem t a txt kids =>
      match a, kids with
      | [(k, u)], [] => if str_eqb k (lit "xmlns") then Elem (qname u t) [] txt [] else x
      | _, _ => Elem t a txt (map homed kids)
      end
  end.
(* trees that can be written, such elements in them *)
Fixpoint homable (x : xml) : Prop :=
  match x with
  | Elem t a txt kids =>
      (exists u, a = [(lit "xmlns", u)] /\ kids = [] /\ nc_name t /\ ns_name u /\ u <> lit "http://www.w3.org/XML/1998/namespace" /\
         forall s, txt = Some s -> Forall xml_char s) \/
      (xml_name t /\ NoDup (map fst a) /\
       Forall (fun kv => xml_name (fst kv) /\ fst kv <> lit "xmlns" /\ Forall xml_char (snd kv)) a /\
       (forall s, txt = Some s -> Forall xml_char s) /\
       (fix all (l : list xml) : Prop := match l with [] => True | y :: l' => homable y /\ all l' end) kids)
  end.
