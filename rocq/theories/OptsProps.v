(* C79: shells opened with one set of options.  Missing from the partial theorem:
   that the set stays what it was, which is false. *)
From Verif Require Import Base BaseProofs Lit NumModel TextModel XmlModel WsmanModel ShellModel OptsModel OptsSpec OptsProofs.
Local Open Scope list_scope.

(* Whatever the server answers, one request is made for each shell, with the
   options given, in their order, those of its own settings - and those of all
   shells opened before it, which the set given has then too. *)
Theorem C79_opened_partial : forall srv l o h, Forall (fun e => sh_opened (fst e) = false) l ->
  let '(rs, o', h') := open_all srv l o h in
  length rs = length l /\
  ws_element o' = ws_element o /\ ws_child o' = ws_child o /\ ws_must o' = ws_must o /\ ws_values o' = ws_values o ++ flat_map (fun e => own (fst e)) l /\
  exists qs, h' = h ++ qs /\ length qs = length l /\
    forall i e, nth_error qs i = Some e -> q_op (fst e) = OpCreate /\ asks (fst e) = ws_values o ++ flat_map (fun e => own (fst e)) (firstn (S i) l).
Proof. intros srv l o h F. exact (opens srv l o h F). Qed.
Print Assumptions C79_opened_partial.

(* Shells that load the profile and have no code page: the set stays what it was,
   and is what each of them is asked for with. *)
Theorem C79_kept : forall srv l o h, Forall (fun e => sh_opened (fst e) = false) l ->
  Forall (fun e => sh_no_profile (fst e) = false /\ sh_codepage (fst e) = None) l ->
  ws_values (snd (fst (open_all srv l o h))) = ws_values o /\
  forall e, In e (skipn (length h) (snd (open_all srv l o h))) -> asks (fst e) = ws_values o.
Proof.
  intros srv l o h F W. pose proof (opens srv l o h F) as H. destruct (open_all srv l o h) as ((rs & o') & h'). destruct H as (_ & _ & _ & _ & V & qs & -> & L & Q). cbn [fst snd].
  split; [rewrite V, (owned_nothing l W); apply app_nil_r|]. intros e I1. rewrite skipn_app, skipn_all, Nat.sub_diag in I1. cbn [app skipn] in I1.
  apply In_nth_error in I1. destruct I1 as (i & K). rewrite (proj2 (Q i e K)).
  rewrite (owned_nothing (firstn (S i) l)); [apply app_nil_r|]. apply Forall_forall. intros a Ia. rewrite Forall_forall in W. apply W. rewrite <- (firstn_skipn (S i) l). apply in_or_app. left. exact Ia.
Qed.
Print Assumptions C79_kept.

(* ---- a case: one without a profile and with a code page, then a plain one ---- *)
Definition opt_shell (no_profile : bool) (codepage : option Z) : shell := {|
  sh_opened := false; sh_id := None; sh_uri := Some (lit "uri"); sh_input := lit "stdin"; sh_output := Some (lit "stdout stderr"); sh_codepage := codepage; sh_env := None; sh_idle := None;
  sh_lifetime := None; sh_name := None; sh_no_profile := no_profile; sh_dir := None; sh_owner := None; sh_client_ip := None; sh_run_time := None; sh_inactivity := None; sh_selectors := None |}.
Definition opt_given : wset := add_option option_set (lit "mine") (lit "1") [].
Definition opt_shells : list (shell * option xml) := [(opt_shell true (Some 65001%Z), None); (opt_shell false None, None)].
Definition opt_srv : list (sreq * wresult) -> sreq -> wresult := fun _ _ => WBody (Some (Elem (lit "Body") [] None [])).
Example C79_case : Forall (fun e => sh_opened (fst e) = false) opt_shells /\
  Forall (fun e => sh_no_profile (fst e) = false /\ sh_codepage (fst e) = None) [(opt_shell false None, @None xml); (opt_shell false None, None)] /\
  map (fun e => asks (fst e)) (snd (open_all opt_srv opt_shells opt_given [])) =
    [[(lit "mine", lit "1", []); (lit "WINRS_NOPROFILE", lit "TRUE", [(lit "MustComply", lit "true")]); (lit "WINRS_CODEPAGE", lit "65001", [])];
     [(lit "mine", lit "1", []); (lit "WINRS_NOPROFILE", lit "TRUE", [(lit "MustComply", lit "true")]); (lit "WINRS_CODEPAGE", lit "65001", [])]] /\
  map (fun r => match fst r with Ret _ => true | Raise _ => false end) (fst (fst (open_all opt_srv opt_shells opt_given []))) = [true; true].
Proof.
  split; [repeat constructor|]. split; [repeat constructor|]. split; vm_compute; reflexivity.
Qed.

(* A shell is not opened with the options given and its own settings: the plain
   one is opened without its profile, for the code page of the other, and the
   options given are no longer those given. *)
Theorem C79_settings_refuted : exists srv s1 s2 o,
  let '(rs, o', h') := open_all srv [(s1, None); (s2, None)] o [] in
  sh_opened s1 = false /\ sh_opened s2 = false /\ own s2 = [] /\
  (exists q1 q2 a1 a2, h' = [(q1, a1); (q2, a2)] /\ asks q1 = ws_values o ++ own s1 /\ asks q2 <> ws_values o ++ own s2 /\ asks q2 = asks q1) /\ o' <> o.
Proof.
  exists opt_srv, (opt_shell true (Some 65001%Z)), (opt_shell false None), opt_given.
  match goal with |- context [open_all ?a ?b ?c ?d] => let v := eval vm_compute in (open_all a b c d) in change (open_all a b c d) with v end.
  split; [reflexivity|]. split; [reflexivity|]. split; [reflexivity|]. split; [|discriminate].
  do 4 eexists. split; [reflexivity|]. split; [vm_compute; reflexivity|]. split; [vm_compute; discriminate|vm_compute; reflexivity].
Qed.
Print Assumptions C79_settings_refuted.

(* An attempt that fails leaves its settings in the set all the same: the second
   attempt asks for them twice. *)
Theorem C79_retried_refuted : exists srv s o x s' h',
  sh_opened s = false /\ shell_open srv (Some o) None s [] = (Raise x, s', h') /\ s' = s /\
  let '(_, _, h'') := shell_open srv (Some (options_after s o)) None s' h' in
  exists q1 q2 a1 a2, h'' = [(q1, a1); (q2, a2)] /\ asks q1 = ws_values o ++ own s /\ asks q2 = ws_values o ++ own s ++ own s /\ own s <> [].
Proof.
  exists (fun h _ => match h with [] => WHttp 500 (lit "busy") | _ => WBody (Some (Elem (lit "Body") [] None [])) end), (opt_shell true (Some 65001%Z)), opt_given, (XHttp 500 (lit "busy")).
  do 2 eexists. split; [reflexivity|]. split; [reflexivity|]. split; [reflexivity|].
  match goal with |- context [shell_open ?a ?b ?c ?d ?e] => let v := eval vm_compute in (shell_open a b c d e) in change (shell_open a b c d e) with v end.
  do 4 eexists. split; [reflexivity|]. split; [vm_compute; reflexivity|]. split; [vm_compute; reflexivity|discriminate].
Qed.
Print Assumptions C79_retried_refuted.
