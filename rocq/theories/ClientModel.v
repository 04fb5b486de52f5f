(* Model of Client.execute_ps and Client.sanitise_clixml,
   src/pypsrp/client.py:181-233 and 296-321. *)
From Verif Require Import Base Lit NumModel TextModel XmlModel WsmanModel ShellModel FragModel MsgModel UtilModel TransModel ObjModel PoolModel.

(* "\n".join(items) for items that are str *)
Fixpoint join_lines (l : list (list N)) : list N :=
  match l with
  | [] => []
  | [x] => x
  | x :: l' => x ++ 10%N :: join_lines l'
  end.

Section Execute.
  Context {Obj HS RK : Type} (E : env Obj (command Obj) HS RK).
  Notation world := (world Obj (command Obj) HS RK).
  Notation M A := (world -> out A * world).
  (* a str, True and None as values of parameters, and an item of the output as
     str.join takes it: TypeError unless it is a str *)
  Context (of_text : list N -> Obj) (py_true py_none : Obj) (to_text : Obj -> res (list N)).

  (* client.py:214-222 *)
  Fixpoint add_environment (e : list (list N * list N)) : bop Obj :=
    match e with
    | [] => fun b => (b, Done)
    | (k, v) :: e' =>
        then_do (add_new (lit "New-Item") false None)
       (then_do (add_parameter (lit "Path") (of_text (lit "env:")))
       (then_do (add_parameter (lit "Name") (of_text k))
       (then_do (add_parameter (lit "Value") (of_text v))
       (then_do (add_parameter (lit "Force") py_true)
       (then_do (add_new (lit "Out-Null") false None)
       (then_do add_statement (add_environment e')))))))
    end.
  (* client.py:214-230; [environment] is {} when it is None *)
  Definition build_script (environment : list (list N * list N)) (script : list N) : bop Obj :=
    then_do (add_environment environment)
   (then_do (add_new (lit "Invoke-Expression") false None)
   (then_do (add_parameter (lit "Command") (of_text script))
   (then_do (add_new (lit "Out-String") false None)
            (add_parameter (lit "Stream") py_none)))).

  (* with RunspacePool(...) as pool: powershell.py:274-284; close is called
     however the body ends, but only if open returned *)
  Definition with_pool {A} (fuel : nat) (body : M A) : M A :=
    fun w =>
      match pool_open E fuel None w with
      | (Raise x, w1) => (Raise x, w1)
      | (Ret _, w1) =>
          let '(r, w2) := body w1 in
          let '(c, w3) := pool_close E w2 in
          match c with Raise x => (Raise x, w3) | Ret _ => (r, w3) end
      end.

  (* invoke() without arguments: powershell.py:1294-1317 *)
  Definition plain_args : invoke_args (Obj := Obj) := mkArgs None false None false (Some 15%Z).
  Definition invoke (fuel : nat) (r : nat) : M (list Obj) := mbind (begin_invoke E r plain_args) (fun _ => end_invoke E fuel r).

  (* client.py:211-233 in a world whose pool is the new RunspacePool; [id] is
     the uuid of the PowerShell object, which is given back with its streams *)
  Definition execute_ps (fuel : nat) (id : list N) (environment : list (list N * list N)) (script : list N) : M (list N * nat * bool) :=
    mbind (with_pool fuel
      (mbind (create_ps id) (fun r =>
       mbind (getp rp_protocol) (fun v =>
       match build_script environment script {| b_commands := []; b_version := v |} with
       | (b, Raised e) => throw e
       | (b, Done) =>
           mbind (updps r (set_ps_commands (b_commands b))) (fun _ =>
           mbind (invoke fuel r) (fun _ => ret r))
       end))))
    (fun r => mbind (getps r (fun p => p)) (fun p =>
       match mapM to_text (ps_output p) with
       | Err e => throw e
       | Ok l => ret (join_lines l, r, ps_had_errors p)
       end)).
End Execute.

(* ---- sanitise_clixml ---- *)
Fixpoint is_prefix (p s : list N) : bool :=
  match p, s with
  | [], _ => true
  | x :: p', y :: s' => (N.eqb x y && is_prefix p' s')%bool
  | _ :: _, [] => false
  end.
(* s[s.index("<"):] *)
Fixpoint from_angle (s : list N) : res (list N) :=
  match s with
  | [] => Err ValueError
  | c :: s' => if N.eqb c 60 then Ok s else from_angle s'
  end.
(* tag.replace("Objs", "") *)
Fixpoint drop_objs (s : list N) : list N :=
  match s with
  | [] => []
  | c :: s' => if is_prefix (lit "Objs") s then match s' with _ :: _ :: _ :: r => drop_objs r | _ => [] end else c :: drop_objs s'
  end.
(* s[1:-1] *)
Definition inner (s : list N) : list N := removelast (tl s).
(* the tag that the path "{ns}S" asks for: xml.etree.ElementPath reads "{}S" as
   "S" *)
Definition path_tag (ns name : list N) : list N := match ns with [] => name | _ => qname ns name end.
(* client.py:296-321 on a str; [parse] is ET.fromstring *)
Definition sanitise_clixml (parse : list N -> res xml) (clixml : list N) : res (list N) :=
  if is_prefix (lit "#< CLIXML") clixml then
    do body <- from_angle (skipn 2 clixml);
    do element <- parse body;
    let ns := inner (drop_objs (x_tag element)) in
    let errors := filter (fun e => (str_eqb (x_tag e) (path_tag ns (lit "S"))
                                    && match attr_get (lit "S") e with Some v => str_eqb v (lit "Error") | None => false end)%bool)
                    (x_children element) in
    deserialize_string (Some (concat (map (fun e => match x_text e with Some t => t | None => [] end) errors)))
  else Ok clixml.
