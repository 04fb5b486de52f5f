(* C77: listing the pools of a server. *)
From Verif Require Import Base BaseProofs Lit NumModel TextModel XmlModel WsmanModel ShellModel FragModel MsgModel UtilModel TransModel PoolModel ListSpec.
Require Import Lia ZifyBool ZifyNat ZifyN.
Local Open Scope list_scope.

Section Lists.
  Context {Obj Cmd RK : Type} (srv : history -> sreq -> wresult).

  Lemma no_tag t l : Forall (fun x => x_tag x <> t) l -> filter (fun c => str_eqb (x_tag c) t) l = [].
  Proof.
    induction 1 as [|x l H F IH]; [reflexivity|]. cbn [filter]. destruct (str_eqb (x_tag x) t) eqn:E; [|exact IH]. exfalso. apply H. apply str_eqb_spec. exact E.
  Qed.
  Lemma id_read name id_name e : entry_ok id_name e -> sub_text (lit id_name) (entry_elem name id_name e) = Ok (e_id e).
  Proof.
    intros H. unfold sub_text, find_first. cbn [find_all entry_elem x_children]. change (rsp (lit id_name)) with (of_shell id_name). rewrite filter_app, (no_tag _ _ H). cbn [app filter x_tag].
    rewrite str_eqb_refl. reflexivity.
  Qed.
  Lemma all_tag t l : Forall (fun x => x_tag x = t) l -> filter (fun c => str_eqb (x_tag c) t) l = l.
  Proof. induction 1 as [|x l H F IH]; [reflexivity|]. cbn [filter]. rewrite H, str_eqb_refl, IH. reflexivity. Qed.
  Lemma single l : flat_map (find_all []) l = l.
  Proof. induction l as [|x l IH]; [reflexivity|]. change (x :: flat_map (find_all []) l = x :: l). rewrite IH. reflexivity. Qed.
  Lemma items_read name id_name es rest : rest_ok rest -> items (lit name) (listing name id_name es rest) = map (entry_elem name id_name) es.
  Proof.
    intros R. unfold items. change (qname ns_wsen (lit "EnumerateResponse")) with (of_enumeration "EnumerateResponse"). change (qname ns_wsman (lit "Items")) with (of_wsman "Items"). change (rsp (lit name)) with (of_shell name).
    unfold listing. set (t1 := of_enumeration "EnumerateResponse"). set (t2 := of_wsman "Items") in *. set (t3 := of_shell name). cbn [find_all x_children]. cbn [filter x_tag]. rewrite str_eqb_refl. cbn [flat_map x_children filter x_tag].
    rewrite str_eqb_refl. unfold rest_ok in R. fold t2 in R. rewrite (no_tag _ _ R). cbn [flat_map x_children]. rewrite single, !app_nil_r. apply all_tag.
    apply Forall_map. apply Forall_forall. intros e _. reflexivity.
  Qed.
  Lemma add_read cs : forall (objs : list (ps Obj Cmd)) reg, Forall (entry_ok "CommandId") cs ->
    exists objs' reg', add_commands (map (entry_elem "Command" "CommandId") cs) objs reg = Ok (objs ++ objs', reg') /\
      map ps_id objs' = map e_id cs /\ Forall (fun x => ps_state x = pl_disconnected /\ ps_command_id x = Some (ps_id x)) objs' /\
      reg' = fold_left (fun r e => dict_set str_eqb (fst e) (snd e) r) (combine (map e_id cs) (seq (length objs) (length cs))) reg.
  Proof.
    induction cs as [|c cs IH]; intros objs reg F; cbn [map add_commands].
    - exists [], reg. rewrite app_nil_r. split; [reflexivity|]. split; [reflexivity|]. split; [constructor|reflexivity].
    - rewrite (id_read "Command" "CommandId" c (Forall_inv F)). cbn [bind].
      set (o := set_ps_state pl_disconnected (set_ps_command_id (Some (e_id c)) (new_ps (e_id c)))).
      destruct (IH (objs ++ [o]) (dict_set str_eqb (e_id c) (length objs) reg) (Forall_inv_tail F)) as (objs' & reg' & H1 & H2 & H3 & H4).
      exists (o :: objs'), reg'. split; [rewrite H1, <- app_assoc; reflexivity|]. split; [cbn [map]; rewrite H2; reflexivity|]. split; [constructor; [split; reflexivity|exact H3]|].
      rewrite H4, app_length. cbn [length combine seq fold_left fst snd]. rewrite Nat.add_1_r. reflexivity.
  Qed.
  Lemma set_fresh (i : list N) (j : nat) : forall r, ~ In i (map fst r) -> dict_set str_eqb i j r = r ++ [(i, j)].
  Proof.
    induction r as [|[a b] r IH]; intros N; [reflexivity|]. cbn [dict_set app]. cbn [map fst] in N.
    destruct (str_eqb i a) eqn:E; [exfalso; apply N; left; symmetry; apply str_eqb_spec; exact E|]. rewrite IH; [reflexivity|]. intros C. apply N. right. exact C.
  Qed.
  Lemma fold_fresh : forall (l : list (list N * nat)) r, NoDup (map fst (r ++ l)) -> fold_left (fun r e => dict_set str_eqb (fst e) (snd e) r) l r = r ++ l.
  Proof.
    induction l as [|[i j] l IH]; intros r N; cbn [fold_left fst snd]; [rewrite app_nil_r; reflexivity|].
    rewrite set_fresh.
    - rewrite IH; [rewrite <- app_assoc; reflexivity|]. rewrite <- app_assoc. exact N.
    - rewrite map_app in N. cbn [map fst] in N. apply NoDup_remove_2 in N. intros C. apply N. apply in_or_app. left. exact C.
  Qed.
  Lemma combine_fst (a : list (list N)) : forall (b : list nat), length a = length b -> map fst (combine a b) = a.
  Proof. induction a as [|x a IH]; intros [|y b] L; cbn [length combine map fst] in *; try discriminate L; [reflexivity|]. rewrite IH; [reflexivity|]. lia. Qed.

  Definition listed (s : entry * list entry) (p : pool Obj RK * list (ps Obj Cmd)) : Prop :=
    rp_id (fst p) = e_id (fst s) /\ sh_id (rp_shell (fst p)) = Some (e_id (fst s)) /\ sh_uri (rp_shell (fst p)) = Some (lit "http://schemas.microsoft.com/powershell/Microsoft.PowerShell") /\
    rp_state (fst p) = rs_disconnected /\ rp_new_client (fst p) = true /\ sh_opened (rp_shell (fst p)) = true /\
    map ps_id (snd p) = map e_id (snd s) /\ Forall (fun x => ps_state x = pl_disconnected /\ ps_command_id x = Some (ps_id x)) (snd p) /\
    (NoDup (map e_id (snd s)) -> rp_pipelines (fst p) = combine (map e_id (snd s)) (seq 0 (length (snd s)))).
  Lemma shell_read env pay s h : has_shells srv [s] \/ (entry_ok "ShellId" (fst s) /\ Forall (entry_ok "CommandId") (snd s) /\
     exists rest, rest_ok rest /\ forall h, srv h (ask_commands (e_id (fst s))) = WBody (Some (listing "Command" "CommandId" (snd s) rest))) ->
    exists p b, @pool_of_shell Obj Cmd RK srv env pay (entry_elem "Shell" "ShellId" (fst s)) h = (Ret p, h ++ [(ask_commands (e_id (fst s)), WBody b)]) /\ listed s p.
  Proof.
    intros [H|H]; [destruct H as (_ & H); specialize (H s (or_introl eq_refl))|]; destruct H as (O1 & O2 & rest & Ro & A); unfold pool_of_shell; rewrite (id_read "Shell" "ShellId" _ O1);
      unfold enumerate, call; match goal with |- context [srv h ?q] => change q with (ask_commands (e_id (fst s))) end; rewrite A, (items_read "Command" "CommandId" _ _ Ro);
      destruct (add_read (snd s) [] [] O2) as (objs & reg & H1 & H2 & H3 & H4); rewrite H1; cbn [app];
      do 2 eexists; (split; [reflexivity|]); (repeat (split; [first [reflexivity | exact H2 | exact H3]|])); intros N; cbn [fst set_rp_pipelines rp_pipelines]; rewrite H4; cbn [length];
      (rewrite fold_fresh; [reflexivity|]); cbn [app]; rewrite combine_fst by (rewrite map_length, seq_length; reflexivity); exact N.
  Qed.
  Lemma shells_read env pay l : (forall s, In s l -> entry_ok "ShellId" (fst s) /\ Forall (entry_ok "CommandId") (snd s) /\
     exists rest, rest_ok rest /\ forall h, srv h (ask_commands (e_id (fst s))) = WBody (Some (listing "Command" "CommandId" (snd s) rest))) -> forall h,
    exists ps qs, @pools_of_shells Obj Cmd RK srv env pay (map (entry_elem "Shell" "ShellId") (map fst l)) h = (Ret ps, h ++ qs) /\ Forall2 listed l ps /\ map fst qs = map (fun s => ask_commands (e_id (fst s))) l.
  Proof.
    induction l as [|s l IH]; intros H h; cbn [map pools_of_shells].
    - exists [], []. rewrite app_nil_r. split; [reflexivity|]. split; [constructor|reflexivity].
    - destruct (shell_read env pay s h (or_intror (H s (or_introl eq_refl)))) as (p & b & -> & Lp).
      destruct (IH (fun s0 I0 => H s0 (or_intror I0)) (h ++ [(ask_commands (e_id (fst s)), WBody b)])) as (ps & qs & -> & F & Q).
      exists (p :: ps), ((ask_commands (e_id (fst s)), WBody b) :: qs). split; [rewrite <- app_assoc; reflexivity|]. split; [constructor; assumption|]. cbn [map fst]. rewrite Q. reflexivity.
  Qed.
  Lemma pools_listed env pay l h : has_shells srv l ->
    exists ps qs, @get_runspace_pools Obj Cmd RK srv env pay h = (Ret ps, h ++ qs) /\ Forall2 listed l ps /\ map fst qs = ask_shells :: map (fun s => ask_commands (e_id (fst s))) l.
  Proof.
    intros ((rest & Ro & A) & H). unfold get_runspace_pools, enumerate, call. match goal with |- context [srv h ?q] => change q with ask_shells end. rewrite A.
    rewrite (items_read "Shell" "ShellId" _ _ Ro). match goal with |- context [pools_of_shells srv env pay _ ?h0] => destruct (shells_read env pay l H h0) as (ps & qs & -> & F & Q) end.
    exists ps. eexists ((_, _) :: qs). split; [rewrite <- app_assoc; reflexivity|]. split; [exact F|]. cbn [map fst]. rewrite Q. reflexivity.
  Qed.
  (* whatever the server says, the first question is for the shells and all others are for
     the commands of one *)
  Lemma pools_requests env pay es : forall h r h', @pools_of_shells Obj Cmd RK srv env pay es h = (r, h') -> exists qs, h' = h ++ qs /\ Forall (fun e => exists id, fst e = ask_commands id) qs.
  Proof.
    induction es as [|e es IH]; intros h r h' H; cbn [pools_of_shells] in H.
    - apply pair_inj in H as [_ <-]. exists []. rewrite app_nil_r. split; [reflexivity|constructor].
    - assert (One : exists qs, snd (@pool_of_shell Obj Cmd RK srv env pay e h) = h ++ qs /\ Forall (fun e => exists id, fst e = ask_commands id) qs).
      { unfold pool_of_shell. destruct (sub_text (lit "ShellId") e) as [id|x]; [|exists []; rewrite app_nil_r; split; [reflexivity|constructor]].
        unfold enumerate, call. match goal with |- context [srv h ?q] => change q with (ask_commands id) end.
        exists [(ask_commands id, srv h (ask_commands id))]. split; [|constructor; [exists id; reflexivity|constructor]].
        destruct (srv h (ask_commands id)) as [[b|]| | |]; cbn [fst snd]; try reflexivity. destruct (add_commands (items (lit "Command") b) [] []) as [[objs reg]|x]; reflexivity. }
      destruct One as (qs & E & F). destruct (pool_of_shell srv env pay e h) as [[p|x] h1]; cbn [snd] in E; subst h1.
      + destruct (pools_of_shells srv env pay es (h ++ qs)) as [r2 h2] eqn:P. destruct (IH _ _ _ P) as (qs2 & -> & F2). exists (qs ++ qs2). split; [|apply Forall_app; auto].
        destruct r2; apply pair_inj in H as [_ <-]; rewrite <- app_assoc; reflexivity.
      + apply pair_inj in H as [_ <-]. exists qs. auto.
  Qed.
  Lemma list_requests env pay h r h' : @get_runspace_pools Obj Cmd RK srv env pay h = (r, h') -> exists a qs, h' = h ++ (ask_shells, a) :: qs /\ Forall (fun e => exists id, fst e = ask_commands id) qs.
  Proof.
    unfold get_runspace_pools, enumerate, call. match goal with |- context [srv h ?q] => change q with ask_shells end.
    exists (srv h ask_shells). destruct (srv h ask_shells) as [[b|]| | |]; try (apply pair_inj in H as [_ <-]; exists []; split; [reflexivity|constructor]).
    destruct (pools_requests _ _ _ _ _ _ H) as (qs & -> & F). exists qs. rewrite <- app_assoc. split; [reflexivity|exact F].
  Qed.
End Lists.
