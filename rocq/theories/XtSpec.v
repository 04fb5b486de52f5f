(* Element trees that can be written as XML, apart from the writer and the reader. *)
From Verif Require Import Base Lit TextSpec XmlModel.

(* ---- names: https://www.w3.org/TR/xml-names/#NT-NCName, in ASCII ---- *)
Definition name_first (c : N) : Prop := (65 <= c <= 90 \/ 97 <= c <= 122 \/ c = 95)%N.
Definition name_more (c : N) : Prop := (name_first c \/ 48 <= c <= 57 \/ c = 45 \/ c = 46)%N.
Definition nc_name (s : list N) : Prop :=
  match s with c :: s' => name_first c /\ Forall name_more s' | [] => False end.
(* names of namespaces: not that of the declarations *)
Definition ns_name (u : list N) : Prop :=
  u <> [] /\ Forall xml_char u /\ ~ In 125%N u /\ u <> lit "http://www.w3.org/2000/xmlns/".
(* "local" or "{uri}local" *)
Definition xml_name (n : list N) : Prop :=
  nc_name n \/ exists u l, n = qname u l /\ ns_name u /\ nc_name l.

(* ---- trees ---- *)
Fixpoint writable (x : xml) : Prop :=
  match x with
  | Elem t a txt kids =>
      xml_name t /\ NoDup (map fst a) /\
      Forall (fun kv => xml_name (fst kv) /\ fst kv <> lit "xmlns" /\ Forall xml_char (snd kv)) a /\
      (forall s, txt = Some s -> Forall xml_char s) /\
      (fix all (l : list xml) : Prop := match l with [] => True | y :: l' => writable y /\ all l' end) kids
  end.
(* no carriage return in a text *)
Fixpoint unreturned (x : xml) : Prop :=
  match x with
  | Elem _ _ txt kids =>
      (forall s, txt = Some s -> ~ In 13%N s) /\
      (fix all (l : list xml) : Prop := match l with [] => True | y :: l' => unreturned y /\ all l' end) kids
  end.

(* ---- prefixes that can be used together ---- *)
Definition numbered (p : list N) : Prop := exists d, p = lit "ns" ++ d /\ Forall (fun c => (48 <= c <= 57)%N) d.
Definition usable_registry (reg : list (list N * list N)) : Prop :=
  NoDup (map fst reg) /\ NoDup (map snd reg) /\
  In (lit "http://www.w3.org/XML/1998/namespace", lit "xml") reg /\
  Forall (fun e => nc_name (snd e) /\ snd e <> lit "xmlns" /\ ~ numbered (snd e)) reg.

(* ---- line ends: what XML makes of carriage returns in texts ---- *)
Inductive line_fed : list N -> list N -> Prop :=
| lf_nil : line_fed [] []
| lf_char : forall c s t, c <> 13%N -> line_fed s t -> line_fed (c :: s) (c :: t)
| lf_pair : forall s t, line_fed s t -> line_fed (13 :: 10 :: s)%N (10%N :: t)
| lf_lone : forall s t, (forall s', s <> 10%N :: s') -> line_fed s t -> line_fed (13%N :: s) (10%N :: t).
(* the same names, attributes and children; texts with line feeds only; no text
   for the empty one *)
Inductive arrives : xml -> xml -> Prop :=
| ar_elem : forall t a txt txt' kids kids',
    (match txt with
     | None => txt' = None
     | Some s => exists s', line_fed s s' /\ (s' = [] /\ txt' = None \/ s' <> [] /\ txt' = Some s')
     end) ->
    Forall2 arrives kids kids' -> arrives (Elem t a txt kids) (Elem t a txt' kids').
