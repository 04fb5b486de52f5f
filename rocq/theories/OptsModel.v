(* Model of WinRS.open with an OptionSet of the caller: src/pypsrp/shell.py:157-219.
   The set is not copied: add_option (src/pypsrp/wsman.py:702-709) changes it. *)
From Verif Require Import Base Lit NumModel TextModel XmlModel WsmanModel ShellModel.

Section Opens.
  Context (srv : list (sreq * wresult) -> sreq -> wresult).
  (* shell.py:171-172, 205-212: the set after the call, also if the request fails *)
  Definition options_after (s : shell) (o : wset) : wset := if sh_opened s then o else shell_options s (Some o).
  (* shells opened one after the other with one OptionSet; a caller that goes on
     after exceptions.  A shell is opened once here: opening it again after a
     failure is like opening another one with its settings. *)
  Fixpoint open_all (l : list (shell * option xml)) (o : wset) (h : list (sreq * wresult))
    : list (out (option xml) * shell) * wset * list (sreq * wresult) :=
    match l with
    | [] => ([], o, h)
    | (s, content) :: l' =>
        let '(r, s', h') := shell_open srv (Some o) content s h in
        let '(rs, o', h'') := open_all l' (options_after s o) h' in
        ((r, s') :: rs, o', h'')
    end.
End Opens.
