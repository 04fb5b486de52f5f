(* What a user expects of copied and fetched files. *)
From Verif Require Import Base FileModel.

(* the same files with the same content *)
Definition same_files (fs fs' : list (list N * bytes)) : Prop :=
  forall p, dict_get str_eqb p fs' = dict_get str_eqb p fs.
(* [path] holds exactly [b], every other file is as before *)
Definition now_holds (path : list N) (b : bytes) (fs fs' : list (list N * bytes)) : Prop :=
  dict_get str_eqb path fs' = Some b /\ forall p, p <> path -> dict_get str_eqb p fs' = dict_get str_eqb p fs.
(* each item is base64 text (as .NET reads it) of the data *)
Definition items_carry (items : list (list N)) (ds : list bytes) : Prop := Forall2 (fun i d => net_b64 i = Ok d) items ds.
(* a text of digits and letters *)
Definition plain_ascii (b : bytes) : Prop := Forall (fun c => (c < 128)%N) b.
(* what the theorems ask of .NET: equal texts are the same, and ASCII bytes are
   the text of the same characters *)
Definition sane (h : host) : Prop := (forall t, h_same h t t = true) /\ (forall b, plain_ascii b -> h_utf8 h b = b).
