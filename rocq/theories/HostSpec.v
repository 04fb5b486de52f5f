(* What the host calls of MS-PSRP 2.2.3.17 ask for: which object they are for
   and what the method is called; and what a server writes through the user
   interface. *)
From Verif Require Import Base Lit HostModel.
Open Scope string_scope.

Inductive place := OnHost | OnUI | OnRawUI.

(* methods 1 to 10, 11 to 26 and 27 to 51, in order *)
Definition host_methods : list string :=
  ["GetName"; "GetVersion"; "GetInstanceId"; "GetCurrentCulture"; "GetCurrentUICulture"; "SetShouldExit";
   "EnterNestedPrompt"; "ExitNestedPrompt"; "NotifyBeginApplication"; "NotifyEndApplication"].
Definition ui_methods : list string :=
  ["ReadLine"; "ReadLineAsSecureString"; "Write1"; "Write2"; "WriteLine1"; "WriteLine2"; "WriteLine3";
   "WriteErrorLine"; "WriteDebugLine"; "WriteProgress"; "WriteVerboseLine"; "WriteWarningLine"; "Prompt";
   "PromptForCredential1"; "PromptForCredential2"; "PromptForChoice"].
Definition raw_methods : list string :=
  ["GetForegroundColor"; "SetForegroundColor"; "GetBackgroundColor"; "SetBackgroundColor";
   "GetCursorPosition"; "SetCursorPosition"; "GetWindowPosition"; "SetWindowPosition";
   "GetCursorSize"; "SetCursorSize"; "GetBufferSize"; "SetBufferSize"; "GetWindowSize"; "SetWindowSize";
   "GetWindowTitle"; "SetWindowTitle"; "GetMaxWindowSize"; "GetMaxPhysicalWindowSize"; "GetKeyAvailable";
   "ReadKey"; "FlushInputBuffer"; "SetBufferContents1"; "SetBufferContents2"; "GetBufferContents";
   "ScrollBufferContents"].
Close Scope string_scope.

(* method [mi] is the method [name] of the object at [p] *)
Inductive assigned : Z -> place -> list N -> Prop :=
| AHost k s : nth_error host_methods k = Some s -> assigned (1 + Z.of_nat k) OnHost (lit s)
| AUi k s : nth_error ui_methods k = Some s -> assigned (11 + Z.of_nat k) OnUI (lit s)
| ARaw k s : nth_error raw_methods k = Some s -> assigned (27 + Z.of_nat k) OnRawUI (lit s).

(* the object there; None when the host has none *)
Definition object_at {Val HS} (H : host Val HS) (st : HS) (p : place) : option (attributes Val HS) :=
  match p with
  | OnHost => Some (h_own H)
  | OnUI => h_ui H st
  | OnRawUI => match h_ui H st with Some _ => h_raw H st | None => None end
  end.

(* What a well formed writing call adds to the output and to the error text. *)
Inductive writes : Z * list pyval -> list N -> list N -> Prop :=
| WWrite s : writes (13%Z, [PStr s]) s []
| WWriteColor f b s : writes (14%Z, [f; b; PStr s]) s []
| WLine : writes (15%Z, []) [13; 10]%N []
| WWriteLine s : writes (16%Z, [PStr s]) (s ++ [13; 10]%N) []
| WWriteLineColor f b s : writes (17%Z, [f; b; PStr s]) (s ++ [13; 10]%N) []
| WError s : writes (18%Z, [PStr s]) [] (s ++ [13; 10]%N)
| WDebug s : writes (19%Z, [PStr s]) (lit "DEBUG: " ++ s ++ [13; 10]%N) []
| WProgress a b : writes (20%Z, [a; b]) [] []
| WVerbose s : writes (21%Z, [PStr s]) (lit "VERBOSE: " ++ s ++ [13; 10]%N) []
| WWarning s : writes (22%Z, [PStr s]) (lit "WARNING: " ++ s ++ [13; 10]%N) [].

(* the text of a list of pieces: "".join(pieces) *)
Fixpoint joined (l : list pyval) : option (list N) :=
  match l with
  | [] => Some []
  | PStr s :: l' => option_map (fun t => s ++ t) (joined l')
  | _ => None
  end.

(* [set]/[get] pairs: call [set] with an argument, then [get] gives [v] *)
Inductive set_then_get : Z -> pyval -> Z -> pyval -> Prop :=
| SGFore v : set_then_get 28 v 27 (PColor v)
| SGBack v : set_then_get 30 v 29 (PColor v)
| SGCursor o x y : dict_get str_eqb (lit "x") o = Some x -> dict_get str_eqb (lit "y") o = Some y ->
    set_then_get 32 (PObj o) 31 (PCoord x y)
| SGWindow o x y : dict_get str_eqb (lit "x") o = Some x -> dict_get str_eqb (lit "y") o = Some y ->
    set_then_get 34 (PObj o) 33 (PCoord x y)
| SGCursorSize v : v <> PNone -> set_then_get 36 v 35 v
| SGBuffer o w h : dict_get str_eqb (lit "width") o = Some w -> dict_get str_eqb (lit "height") o = Some h ->
    set_then_get 38 (PObj o) 37 (PSize w h)
| SGWindowSize o w h : dict_get str_eqb (lit "width") o = Some w -> dict_get str_eqb (lit "height") o = Some h ->
    set_then_get 40 (PObj o) 39 (PSize w h)
| SGTitle v : v <> PNone -> set_then_get 42 v 41 v.
