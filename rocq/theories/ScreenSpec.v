(* C72: what a server can read about the host of a client.  A reader that knows
   trees, names of members, numbers and strings, and nothing of the classes and
   metadata of the library; [settings] is the list of MS-PSRP 2.2.3.14. *)
From Verif Require Import Base Lit NumModel TextSpec PeerSpec XmlModel ObjModel.
Local Open Scope list_scope.

Inductive told : Type :=
| Number (z : Z)
| Text (s : list N)
| Fields (l : list (list N * Z)).

Definition called (n : list N) (x : xml) : bool := match attr_get (lit "N") x with Some k => str_eqb k n | None => false end.
(* the extended properties of an object *)
Definition members (x : xml) : list xml := flat_map (fun c => if str_eqb (x_tag c) (lit "MS") then x_children c else []) (x_children x).
Definition member (n : list N) (x : xml) : option xml := find (called n) (members x).
Definition number (x : xml) : option Z :=
  match x_text x with
  | Some t => if str_eqb (x_tag x) (lit "I32") then match py_int t with Ok z => Some z | Err _ => None end else None
  | None => None
  end.
Definition word (x : xml) : option (list N) :=
  if str_eqb (x_tag x) (lit "S") then Some (match x_text x with Some t => peer_reads t | None => [] end) else None.
Definition flag (x : xml) : option bool :=
  match x_text x with
  | Some t => if str_eqb (x_tag x) (lit "B") then (if str_eqb t (lit "true") then Some true else if str_eqb t (lit "false") then Some false else None) else None
  | None => None
  end.
Fixpoint every {A B} (f : A -> option B) (l : list A) : option (list B) :=
  match l with
  | [] => Some []
  | a :: l' => match f a, every f l' with Some b, Some bs => Some (b :: bs) | _, _ => None end
  end.
Definition field (x : xml) : option (list N * Z) :=
  match attr_get (lit "N") x, number x with Some k, Some z => Some (k, z) | _, _ => None end.
Definition datum (x : xml) : option told :=
  if str_eqb (x_tag x) (lit "I32") then option_map Number (number x)
  else if str_eqb (x_tag x) (lit "S") then option_map Text (word x)
  else if str_eqb (x_tag x) (lit "Obj") then option_map Fields (every field (members x))
  else None.
(* a value with the name of its type, 2.2.3.14 *)
Definition typed_datum (x : xml) : option (list N * told) :=
  match member (lit "T") x, member (lit "V") x with
  | Some t, Some v => match word t, datum v with Some s, Some d => Some (s, d) | _, _ => None end
  | _, _ => None
  end.
Definition entry (e : xml) : option (Z * (list N * told)) :=
  match find (called (lit "Key")) (x_children e), find (called (lit "Value")) (x_children e) with
  | Some k, Some v => match number k, typed_datum v with Some z, Some d => Some (z, d) | _, _ => None end
  | _, _ => None
  end.
(* the entries of the dictionary in the member called data *)
Definition screen (x : xml) : option (list (Z * (list N * told))) :=
  match member (lit "_hostDefaultData") x with
  | Some d =>
      match member (lit "data") d with
      | Some t => match find (fun c => str_eqb (x_tag c) (lit "DCT")) (x_children t) with Some c => every entry (x_children c) | None => None end
      | None => None
      end
  | None => None
  end.
Definition told_flag (n : list N) (x : xml) : option bool := match member n x with Some b => flag b | None => None end.

Definition console_color : list N := lit "System.ConsoleColor".
Definition coordinates (p : Z * Z) : list N * told := (lit "System.Management.Automation.Host.Coordinates", Fields [(lit "x", fst p); (lit "y", snd p)]).
Definition size (p : Z * Z) : list N * told := (lit "System.Management.Automation.Host.Size", Fields [(lit "height", snd p); (lit "width", fst p)]).
Definition settings (r : raw_ui) : list (Z * (list N * told)) :=
  [(0, (console_color, Number (r_fg r))); (1, (console_color, Number (r_bg r)));
   (2, coordinates (r_cursor r)); (3, coordinates (r_window r)); (4, (lit "System.Int32", Number (r_cursor_size r)));
   (5, size (r_buffer r)); (6, size (r_wsize r)); (7, size (r_maxw r)); (8, size (r_maxp r));
   (9, (lit "System.String", Text (r_title r)))]%Z.
(* 2.2.3.14: whether there is no host, no user interface, no raw user interface, and
   whether the host of the runspace is to be used *)
Definition missing (hs : option host) : bool * bool * bool * bool :=
  match hs with
  | None => (true, true, true, true)
  | Some None => (false, true, true, false)
  | Some (Some None) => (false, false, true, false)
  | Some (Some (Some _)) => (false, false, false, false)
  end.
Definition flags (x : xml) : option (bool * bool * bool * bool) :=
  match told_flag (lit "_isHostNull") x, told_flag (lit "_isHostUINull") x, told_flag (lit "_isHostRawUINull") x, told_flag (lit "_useRunspaceHost") x with
  | Some a, Some b, Some c, Some d => Some (a, b, c, d)
  | _, _, _, _ => None
  end.
(* a title is a text *)
Definition clear_title (hs : option host) : Prop :=
  match hs with Some (Some (Some r)) => scalars (r_title r) | _ => True end.
Definition screen_of (hs : option host) : option (list (Z * (list N * told))) :=
  match hs with Some (Some (Some r)) => Some (settings r) | _ => None end.
