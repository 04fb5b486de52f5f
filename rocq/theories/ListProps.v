(* C77: the pools that are listed are those of the server. *)
From Verif Require Import Base BaseProofs Lit NumModel TextModel XmlModel WsmanModel ShellModel FragModel MsgModel UtilModel TransModel PoolModel ListSpec ListProofs.
Local Open Scope list_scope.

(* For a server that tells all its shells at once and has nothing but pools of the default
   configuration: one pool per shell, in order, each disconnected, to be connected as a
   new client and addressed by its own id, with one pipeline per command, in order, each
   found under its id; and nothing is asked but the shells, once, and the commands of
   each, once. *)
Theorem C77_listed_partial : forall Obj Cmd RK srv env pay l h, has_shells srv l ->
  exists (ps : list (pool Obj RK * list (PoolModel.ps Obj Cmd))) qs, get_runspace_pools srv env pay h = (Ret ps, h ++ qs) /\
    Forall2 (fun s p => rp_id (fst p) = e_id (fst s) /\ sh_id (rp_shell (fst p)) = Some (e_id (fst s)) /\
        sh_uri (rp_shell (fst p)) = Some (lit "http://schemas.microsoft.com/powershell/Microsoft.PowerShell") /\
        rp_state (fst p) = rs_disconnected /\ rp_new_client (fst p) = true /\ sh_opened (rp_shell (fst p)) = true /\
        map ps_id (snd p) = map e_id (snd s) /\ Forall (fun x => ps_state x = pl_disconnected /\ ps_command_id x = Some (ps_id x)) (snd p) /\
        (NoDup (map e_id (snd s)) -> rp_pipelines (fst p) = combine (map e_id (snd s)) (List.seq 0 (length (snd s))))) l ps /\
    map fst qs = ask_shells :: map (fun s => ask_commands (e_id (fst s))) l.
Proof. exact (fun Obj Cmd RK srv env pay l h => @pools_listed Obj Cmd RK srv env pay l h). Qed.
Print Assumptions C77_listed_partial.

(* Whatever a server says, and however the call ends, nothing else is asked. *)
Theorem C77_requests : forall Obj Cmd RK srv env pay h (r : out (list (pool Obj RK * list (ps Obj Cmd)))) h', get_runspace_pools srv env pay h = (r, h') ->
  exists a qs, h' = h ++ (ask_shells, a) :: qs /\ Forall (fun e => exists id, fst e = ask_commands id) qs.
Proof. exact (fun Obj Cmd RK => @list_requests Obj Cmd RK). Qed.
Print Assumptions C77_requests.

(* ---- a case: two pools, one with two pipelines ---- *)
Definition told (name text : String.string) : xml := Elem (of_shell name) [] (Some (lit text)) [].
Definition an_entry (id : String.string) : entry := mkEntry (lit id) [told "Owner" "me"] [told "State" "Disconnected"].
Definition end_mark : xml := Elem (of_wsman "EndOfSequence") [] None [].
Definition ls_shells : list (entry * list entry) := [(an_entry "A", [an_entry "a1"; an_entry "a2"]); (an_entry "B", [])].
Definition a_server (l : list (entry * list entry)) (rest : list xml) (h : history) (q : sreq) : wresult :=
  match q_body q with
  | Some b =>
      if str_eqb (match q_uri q with Some u => u | None => [] end) (lit "http://schemas.microsoft.com/wbem/wsman/1/windows/shell") then WBody (Some (listing "Shell" "ShellId" (map fst l) rest))
      else match find (fun s => match find_all [of_wsman "Filter"; of_wsman "SelectorSet"; of_wsman "Selector"] b with
                                | [x] => str_eqb (match x_text x with Some t => t | None => [] end) (e_id (fst s)) | _ => false end) l with
           | Some s => WBody (Some (listing "Command" "CommandId" (snd s) [end_mark]))
           | None => WBody None
           end
  | None => WBody None
  end.
Example C77_case : has_shells (a_server ls_shells [end_mark]) ls_shells /\
  exists (ps : list (pool N N * list (PoolModel.ps N N))) h, get_runspace_pools (a_server ls_shells [end_mark]) 153600 100000 [] = (Ret ps, h) /\ length h = 3 /\
    map (fun p => rp_id (fst p)) ps = [lit "A"; lit "B"] /\ map (fun p => rp_pipelines (fst p)) ps = [[(lit "a1", 0); (lit "a2", 1)]; []].
Proof.
  split.
  - split; [exists [end_mark]; split; [constructor; [discriminate|constructor]|intros h; vm_compute; reflexivity]|].
    intros s [<- | [<- | []]]; (split; [constructor; [discriminate|constructor]|]); (split; [repeat (constructor; [constructor; [discriminate|constructor]|]); constructor|]);
      (exists [end_mark]; split; [constructor; [discriminate|constructor]|intros h; vm_compute; reflexivity]).
  - do 2 eexists. split; [vm_compute; reflexivity|]. split; [reflexivity|]. split; reflexivity.
Qed.

(* Not every shell is a pool: a command shell is given as one, and so is a pool of another
   configuration; both would be connected to as pools of the default configuration. *)
Definition of_kind (id uri : String.string) : entry := mkEntry (lit id) [told "ResourceUri" uri] [].
Theorem C77_other_shells_refuted : exists srv l, has_shells srv l /\
  map fst l = [of_kind "C" "http://schemas.microsoft.com/wbem/wsman/1/windows/shell/cmd"; of_kind "D" "http://schemas.microsoft.com/powershell/PowerShell.7"] /\
  exists (p1 p2 : pool N N * list (ps N N)) h, get_runspace_pools srv 153600 100000 [] = (Ret [p1; p2], h) /\
    rp_id (fst p1) = lit "C" /\ sh_uri (rp_shell (fst p1)) = Some (lit "http://schemas.microsoft.com/powershell/Microsoft.PowerShell") /\
    rp_id (fst p2) = lit "D" /\ sh_uri (rp_shell (fst p2)) = Some (lit "http://schemas.microsoft.com/powershell/Microsoft.PowerShell").
Proof.
  set (l := [(of_kind "C" "http://schemas.microsoft.com/wbem/wsman/1/windows/shell/cmd", @nil entry); (of_kind "D" "http://schemas.microsoft.com/powershell/PowerShell.7", [])]).
  exists (a_server l [end_mark]), l. split.
  - split; [exists [end_mark]; split; [constructor; [discriminate|constructor]|intros h; vm_compute; reflexivity]|].
    intros s [<- | [<- | []]]; (split; [constructor; [discriminate|constructor]|]); (split; [constructor|]);
      (exists [end_mark]; split; [constructor; [discriminate|constructor]|intros h; vm_compute; reflexivity]).
  - split; [reflexivity|]. do 3 eexists. split; [vm_compute; reflexivity|]. repeat split.
Qed.
Print Assumptions C77_other_shells_refuted.
(* A server may answer with a part and the means to go on; the rest is not asked for. *)
Definition go_on : xml := Elem (of_enumeration "EnumerationContext") [] (Some (lit "uuid:1")) [].
Theorem C77_part_refuted : exists srv rest (es : list entry) (ps : list (pool N N * list (PoolModel.ps N N))) h,
  (forall h, srv h ask_shells = WBody (Some (listing "Shell" "ShellId" es rest))) /\ In go_on rest /\ ~ In end_mark rest /\
  get_runspace_pools srv 153600 100000 [] = (Ret ps, h) /\ map (fun p => rp_id (fst p)) ps = map e_id es /\
  map fst h = ask_shells :: map (fun e => ask_commands (e_id e)) es.
Proof.
  exists (a_server [(an_entry "A", [])] [go_on]), [go_on], [an_entry "A"]. do 2 eexists. split; [intros h; vm_compute; reflexivity|]. split; [left; reflexivity|]. split; [intros [C|[]]; discriminate C|].
  split; [vm_compute; reflexivity|]. split; vm_compute; reflexivity.
Qed.
Print Assumptions C77_part_refuted.
