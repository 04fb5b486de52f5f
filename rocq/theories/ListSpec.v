(* What a server that lists its shells and their commands says, and what it is asked.
   Apart from the code that reads it. *)
From Verif Require Import Base Lit NumModel TextModel XmlModel WsmanModel ShellModel.
Local Open Scope list_scope.

Definition of_enumeration (name : String.string) : list N := qname (lit "http://schemas.xmlsoap.org/ws/2004/09/enumeration") (lit name).
Definition of_wsman (name : String.string) : list N := qname (lit "http://schemas.dmtf.org/wbem/wsman/1/wsman.xsd") (lit name).
Definition of_shell (name : String.string) : list N := qname (lit "http://schemas.microsoft.com/wbem/wsman/1/windows/shell") (lit name).

(* a listed thing: its id, and what else is told of it before and after that *)
Record entry := mkEntry { e_id : list N; e_before : list xml; e_after : list xml }.
Definition entry_elem (name id_name : String.string) (e : entry) : xml :=
  Elem (of_shell name) [] None (e_before e ++ Elem (of_shell id_name) [] (Some (e_id e)) [] :: e_after e).
(* the id is told once *)
Definition entry_ok (id_name : String.string) (e : entry) : Prop := Forall (fun x => x_tag x <> of_shell id_name) (e_before e).
(* the answer to an enumeration; [rest] is what comes after the items, such as
   the mark of the end *)
Definition listing (name id_name : String.string) (es : list entry) (rest : list xml) : xml :=
  Elem (lit "Body") [] None [Elem (of_enumeration "EnumerateResponse") [] None (Elem (of_wsman "Items") [] None (map (entry_elem name id_name) es) :: rest)].
Definition rest_ok (rest : list xml) : Prop := Forall (fun x => x_tag x <> of_wsman "Items") rest.

(* ---- the requests ---- *)
Definition enumeration (kind : String.string) (filter : list xml) : sreq :=
  {| q_op := OpEnumerate; q_uri := Some (lit kind);
     q_body := Some (Elem (of_enumeration "Enumerate") [] None
       ([Elem (of_wsman "OptimizeEnumeration") [] None []; Elem (of_wsman "MaxElements") [] (Some (lit "32000")) []] ++ filter));
     q_options := None; q_selectors := None; q_timeout := None |}.
Definition ask_shells : sreq := enumeration "http://schemas.microsoft.com/wbem/wsman/1/windows/shell" [].
Definition ask_commands (id : list N) : sreq :=
  enumeration "http://schemas.microsoft.com/wbem/wsman/1/windows/shell/Command"
    [Elem (of_wsman "Filter") [(lit "Dialect", lit "http://schemas.dmtf.org/wbem/wsman/1/wsman/SelectorFilter")] None
      [Elem (of_wsman "SelectorSet") [] None [Elem (of_wsman "Selector") [(lit "Name", lit "ShellId")] (Some id) []]]].

(* a server with these shells, each with its commands *)
Definition has_shells (srv : history -> sreq -> wresult) (l : list (entry * list entry)) : Prop :=
  (exists rest, rest_ok rest /\ forall h, srv h ask_shells = WBody (Some (listing "Shell" "ShellId" (map fst l) rest))) /\
  (forall s, In s l -> entry_ok "ShellId" (fst s) /\ Forall (entry_ok "CommandId") (snd s) /\
     exists rest, rest_ok rest /\ forall h, srv h (ask_commands (e_id (fst s))) = WBody (Some (listing "Command" "CommandId" (snd s) rest))).
