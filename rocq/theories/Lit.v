(* String literals: [lit "abc"] is the list of code points of an ASCII text. *)
From Coq Require Export Ascii String List.
From Verif Require Export Base.
Definition lit (s : string) : list N := map N_of_ascii (list_ascii_of_string s).
