(* C72: what a server is told about the host of a client. *)
From Verif Require Import Base BaseProofs Lit NumModel TextModel TextSpec Utf8Model MsgModel MsgSpec XmlModel XtModel SerModel SerClasses WireModel SendClasses ObjModel StartModel StartProps TellModel LibModel FormSpec2 ScreenSpec ScreenProofs2 TellProps.
From Verif Require PoolModel PoolToy.
Import PoolToy (rpid, pid1).
Import PoolModel (omsg, OCapability, OInit, OConnect, OSetMin, OSetMax, OAvailable, OReset, OPublicKey, OPoolResponse, OPipelineResponse, OCreate, OMetadata, OInput, OEnd).
Local Open Scope list_scope.

(* The message that opens a pool and the one that creates a pipeline, whatever else
   they say: their body is the text of a tree in which the member HostInfo says
   which parts of the host there are, and, of a host with a raw user interface, the
   ten settings of the screen, each under its number and with its type. *)
Theorem C72_screen : forall HS RK (x : outside HS RK) fuel heap hs key rid pid o b,
  PoolModel.packed (library_env x fuel heap hs) key rid pid o = Ok b ->
  match o with OInit _ _ _ _ _ => True | OCreate _ _ _ _ commands _ _ _ => commands <> [] | _ => False end ->
  match hs with Some (Some (Some r)) => scalars (r_title r) | _ => True end ->
  exists r p body t, guid_parse rid = Ok r /\ match pid with Some s => guid_parse s | None => Ok guid_zero end = Ok p /\ b = opening o ++ stored_guid r ++ stored_guid p ++ body /\
    tostring (x_registry x) t = Ok body /\
    exists h, member (lit "HostInfo") t = Some h /\ flags h = Some (missing hs) /\ screen h = match hs with Some (Some (Some r)) => Some (settings r) | _ => None end.
Proof. intros HS RK x fuel heap hs key rid pid o b. exact (packed_host x fuel heap hs key rid pid o b). Qed.
Print Assumptions C72_screen.

(* ---- a case: a console of 120 by 3000 with a window of 120 by 50 ---- *)
Definition console : raw_ui := {| r_fg := 7; r_bg := 5; r_cursor := (3, 41); r_window := (0, 12); r_cursor_size := 25; r_buffer := (120, 3000); r_wsize := (120, 50); r_maxw := (120, 84); r_maxp := (240, 90); r_title := lit "a <b> _x0041_ title" |}%Z.
Definition console_host : option host := Some (Some (Some console)).
Definition told_by (o : omsg graph (command value)) : option (option (bool * bool * bool * bool) * option (list (Z * (list N * told)))) :=
  match serialize None (fun _ => []) sending (fst (sent [] console_host o)) 12 (snd (sent [] console_host o)) any_meta with
  | Ok (Some t) => option_map (fun h => (flags h, screen h)) (member (lit "HostInfo") t)
  | _ => None
  end.
Definition lib_open : omsg graph (command value) := OInit (PoolModel.VInt 1) (PoolModel.VInt 5) 0 2 None.
Lemma made {A} (r : res A) : match r with Ok _ => true | Err _ => false end = true -> exists b, r = Ok b.
Proof. destruct r as [b|e]; intros H; [exists b; reflexivity|discriminate H]. Qed.
Example C72_case :
  scalars (r_title console) /\
  (exists b, PoolModel.packed (library_env lib_outside 12 [] console_host) None rpid (Some pid1) lib_create = Ok b) /\
  (exists b, PoolModel.packed (library_env lib_outside 12 [] console_host) None rpid None lib_open = Ok b) /\
  told_by lib_create = told_by lib_open /\
  told_by lib_open = Some (Some (false, false, false, false),
    Some [(0, (lit "System.ConsoleColor", Number 7)); (1, (lit "System.ConsoleColor", Number 5));
          (2, (lit "System.Management.Automation.Host.Coordinates", Fields [(lit "x", 3); (lit "y", 41)]));
          (3, (lit "System.Management.Automation.Host.Coordinates", Fields [(lit "x", 0); (lit "y", 12)]));
          (4, (lit "System.Int32", Number 25));
          (5, (lit "System.Management.Automation.Host.Size", Fields [(lit "height", 3000); (lit "width", 120)]));
          (6, (lit "System.Management.Automation.Host.Size", Fields [(lit "height", 50); (lit "width", 120)]));
          (7, (lit "System.Management.Automation.Host.Size", Fields [(lit "height", 84); (lit "width", 120)]));
          (8, (lit "System.Management.Automation.Host.Size", Fields [(lit "height", 90); (lit "width", 240)]));
          (9, (lit "System.String", Text (lit "a <b> _x0041_ title")))]%Z).
Proof.
  split; [|split]. 2: { apply made. vm_compute. reflexivity. } 2: split. 2: { apply made. vm_compute. reflexivity. } 2: split. 2: { vm_compute. reflexivity. } 2: { vm_compute. reflexivity. }
  let l := eval vm_compute in (lit "a <b> _x0041_ title") in change (r_title console) with l. repeat (apply Forall_cons; [left; reflexivity|]). apply Forall_nil.
Qed.
