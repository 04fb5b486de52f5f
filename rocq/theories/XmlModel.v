(* XML elements as xml.etree.ElementTree presents them. *)
From Verif Require Import Base Lit.

(* Element.tag, .attrib (a dictionary), .text and the child elements.  Tails
   are not modelled: the library never reads nor writes one. *)
Inductive xml : Type :=
| Elem (tag : list N) (attrib : list (list N * list N)) (text : option (list N)) (children : list xml).

Definition x_tag (x : xml) : list N := match x with Elem t _ _ _ => t end.
Definition x_attrib (x : xml) : list (list N * list N) := match x with Elem _ a _ _ => a end.
Definition x_text (x : xml) : option (list N) := match x with Elem _ _ t _ => t end.
Definition x_children (x : xml) : list xml := match x with Elem _ _ _ c => c end.

(* "{%s}%s" % (namespace, name) *)
Definition qname (ns name : list N) : list N := lit "{" ++ ns ++ lit "}" ++ name.

(* Element.findall / Element.find with a path of child tags a/b/c *)
Fixpoint find_all (path : list (list N)) (x : xml) : list xml :=
  match path with
  | [] => [x]
  | t :: path' => flat_map (find_all path') (filter (fun c => str_eqb (x_tag c) t) (x_children x))
  end.
Definition find_first (path : list (list N)) (x : xml) : option xml :=
  match find_all path x with y :: _ => Some y | [] => None end.

(* Element.attrib.get(key) *)
Definition attr_get (k : list N) (x : xml) : option (list N) := dict_get str_eqb k (x_attrib x).
