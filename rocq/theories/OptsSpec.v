(* The options that the settings of a shell ask for, [MS-WSMV] 3.1.4.1.24, and what
   a request asks. *)
From Verif Require Import Base Lit NumModel TextModel XmlModel WsmanModel ShellModel.
Local Open Scope list_scope.

Notation entry := (list N * list N * list (list N * list N))%type.
Definition own (s : shell) : list entry :=
  (if sh_no_profile s then [(lit "WINRS_NOPROFILE", lit "TRUE", [(lit "MustComply", lit "true")])] else []) ++
  match sh_codepage s with Some z => [(lit "WINRS_CODEPAGE", py_str z, [])] | None => [] end.
(* the options of a request *)
Definition asks (q : sreq) : list entry := match q_options q with Some o => ws_values o | None => [] end.
