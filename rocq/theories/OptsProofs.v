(* C79 *)
From Verif Require Import Base BaseProofs Lit NumModel TextModel XmlModel WsmanModel ShellModel OptsModel OptsSpec.
Local Open Scope list_scope.

Lemma options_own s o : ws_values (shell_options s (Some o)) = ws_values o ++ own s.
Proof.
  unfold shell_options, own. destruct (sh_no_profile s), (sh_codepage s); cbn [add_option ws_values app]; rewrite <- ?app_assoc, ?app_nil_r; reflexivity.
Qed.
Lemma options_frame s o : let o' := shell_options s (Some o) in ws_element o' = ws_element o /\ ws_child o' = ws_child o /\ ws_must o' = ws_must o.
Proof. unfold shell_options. destruct (sh_no_profile s), (sh_codepage s); repeat split. Qed.
Lemma asks_create s o content : asks (create_request s (Some o) content) = ws_values o ++ own s.
Proof. unfold asks, create_request. cbn [q_options]. rewrite <- options_own. destruct (ws_values (shell_options s (Some o))) eqn:E; [reflexivity|exact E]. Qed.

Section Opens.
  Context (srv : list (sreq * wresult) -> sreq -> wresult).
  Lemma opened_history o content s h : sh_opened s = false -> snd (shell_open srv (Some o) content s h) = h ++ [(create_request s (Some o) content, srv h (create_request s (Some o) content))].
  Proof.
    intros E. unfold shell_open. rewrite E. unfold call. destruct (srv h _) as [b|f|c t|e]; try reflexivity.
    destruct (parse_shell_create b s) as (r & s'). destruct r; reflexivity.
  Qed.
  Theorem opens l : forall o h, Forall (fun e => sh_opened (fst e) = false) l ->
    let '(rs, o', h') := open_all srv l o h in
    length rs = length l /\
    ws_element o' = ws_element o /\ ws_child o' = ws_child o /\ ws_must o' = ws_must o /\ ws_values o' = ws_values o ++ flat_map (fun e => own (fst e)) l /\
    exists qs, h' = h ++ qs /\ length qs = length l /\
      forall i e, nth_error qs i = Some e -> q_op (fst e) = OpCreate /\ asks (fst e) = ws_values o ++ flat_map (fun e => own (fst e)) (firstn (S i) l).
  Proof.
    induction l as [|(s & content) l IH]; intros o h F; cbn [open_all].
    - split; [reflexivity|]. do 3 (split; [reflexivity|]). split; [symmetry; apply app_nil_r|]. exists []. split; [symmetry; apply app_nil_r|]. split; [reflexivity|]. intros [|i] e K; discriminate K.
    - pose proof (Forall_inv F) as Os. cbn [fst] in Os. pose proof (opened_history o content s h Os) as Hh.
      destruct (shell_open srv (Some o) content s h) as ((r & s') & h1). cbn [snd] in Hh. subst h1.
      set (q := create_request s (Some o) content) in *.
      specialize (IH (options_after s o) (h ++ [(q, srv h q)]) (Forall_inv_tail F)).
      destruct (open_all srv l (options_after s o) (h ++ [(q, srv h q)])) as ((rs & o') & h').
      destruct IH as (Ln & E1 & E2 & E3 & Ev & qs & -> & Lq & Hq).
      assert (V : ws_values (options_after s o) = ws_values o ++ own s) by (unfold options_after; rewrite Os; apply options_own).
      assert (Fr : ws_element (options_after s o) = ws_element o /\ ws_child (options_after s o) = ws_child o /\ ws_must (options_after s o) = ws_must o) by (unfold options_after; rewrite Os; apply options_frame).
      destruct Fr as (G1 & G2 & G3). rewrite V in *.
      split; [cbn [length]; congruence|]. split; [congruence|]. split; [congruence|]. split; [congruence|]. split; [cbn [flat_map fst]; rewrite Ev, <- app_assoc; reflexivity|].
      exists ((q, srv h q) :: qs). split; [rewrite <- app_assoc; reflexivity|]. split; [cbn [length]; congruence|].
      intros [|i] e K.
      + cbn [nth_error] in K. apply Some_inj in K. subst e. split; [reflexivity|]. cbn [fst firstn flat_map]. rewrite app_nil_r. apply asks_create.
      + cbn [nth_error] in K. destruct (Hq i e K) as (A & B). split; [exact A|]. rewrite B. cbn [firstn flat_map fst]. rewrite <- !app_assoc. reflexivity.
  Qed.
  Lemma owned_nothing l : Forall (fun e => sh_no_profile (fst e) = false /\ sh_codepage (fst e) = None) l -> flat_map (fun e : shell * option xml => own (fst e)) l = [].
  Proof. induction 1 as [|e l (A & B) _ IH]; [reflexivity|]. cbn [flat_map]. unfold own at 1. rewrite A, B, IH. reflexivity. Qed.
End Opens.
