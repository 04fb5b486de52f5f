(* What the theorems about execute_ps and sanitise_clixml say. *)
From Verif Require Import Base Lit TextModel XmlModel WsmanModel ShellModel FragModel MsgModel ObjModel PoolModel PoolSpec TextSpec.

Section ClientSpec.
  Context {V : Type} (of_text : list N -> V) (py_true py_none : V).

  (* what a command says: its name, whether it is a script, its scope and its
     arguments *)
  Definition spoken (c : command V) : list N * bool * option bool * list (option (list N) * V) :=
    (c_cmd c, c_script c, c_scope c, c_args c).
  Definition cmdlet (name : list N) (params : list (list N * V)) := (name, false, @None bool, map (fun p => (Some (fst p), snd p)) params).
  (* New-Item -Path env: -Name k -Value v -Force:$true | Out-Null *)
  Definition set_variable (kv : list N * list N) :=
    [cmdlet (lit "New-Item") [(lit "Path", of_text (lit "env:")); (lit "Name", of_text (fst kv)); (lit "Value", of_text (snd kv)); (lit "Force", py_true)];
     cmdlet (lit "Out-Null") []].
  (* Invoke-Expression -Command script | Out-String -Stream *)
  Definition run_script (script : list N) :=
    [cmdlet (lit "Invoke-Expression") [(lit "Command", of_text script)]; cmdlet (lit "Out-String") [(lit "Stream", py_none)]].
  Definition script_statements (environment : list (list N * list N)) (script : list N) :=
    map set_variable environment ++ [run_script script].
  (* the commands of a pipeline, cut into statements, say so *)
  Definition says_script (environment : list (list N * list N)) (script : list N) (cs : list (command V)) : Prop :=
    exists ss, get_statements cs = Ok ss /\ map (map spoken) ss = script_statements environment script.
End ClientSpec.

Section ClientWorld.
  Context {Obj Cmd HS RK : Type}.
  (* a pool as constructed: not opened, no key *)
  Definition unused (w : world Obj Cmd HS RK) : Prop :=
    rp_state (w_pool w) = rs_before_open /\ sh_opened (rp_shell (w_pool w)) = false /\
    rp_exchange (w_pool w) = None /\ rp_cipher (w_pool w) = None.
  (* the pipelines a log creates *)
  Definition created (l : list (event Obj Cmd)) : list (option (list N) * omsg Obj Cmd) :=
    filter (fun p => match snd p with OCreate _ _ _ _ _ _ _ _ => true | _ => false end) (sent l).
End ClientWorld.

(* lines with a newline between each two *)
Inductive lined : list (list N) -> list N -> Prop :=
| lined_none : lined [] []
| lined_one : forall x, lined [x] x
| lined_more : forall x l t, l <> [] -> lined l t -> lined (x :: l) (x ++ 10%N :: t).

(* ---- CLIXML ---- *)
(* what a CLIXML document holds: strings, each of a stream, and other elements *)
Inductive item := Line (stream text : list N) | Other (x : xml).
(* a name in a namespace, or in none *)
Definition tag_in (ns name : list N) : list N := match ns with [] => name | _ => lit "{" ++ ns ++ lit "}" ++ name end.
(* how PowerShell writes it *)
Definition written (ns : list N) (i : item) : xml :=
  match i with
  | Line stream t => Elem (tag_in ns (lit "S")) [(lit "S", stream)] (match t with [] => None | _ => Some (serialize_string t) end) []
  | Other x => x
  end.
Definition other_ok (ns : list N) (i : item) : Prop := match i with Line _ _ => True | Other x => x_tag x <> tag_in ns (lit "S") end.
Definition error_texts (l : list item) : list (list N) :=
  flat_map (fun i => match i with Line stream t => if str_eqb stream (lit "Error") then [t] else [] | Other _ => [] end) l.
Definition ends_underscore (s : list N) : Prop := exists t, s = t ++ [95%N].
(* no text that ends with "_" before one that begins, empty ones apart, with x or X *)
Fixpoint separated (l : list (list N)) : Prop :=
  match l with
  | [] => True
  | s :: l' => (ends_underscore s -> ~ starts_with_x (concat l')) /\ separated l'
  end.
