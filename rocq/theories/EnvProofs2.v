(* Uses of a shell are read by the server as what was asked. *)
From Verif Require Import Base BaseProofs Lit NumModel NumProofs TextModel TextSpec TextProofs Utf8Model XmlModel XtModel XtSpec XtProofs XtProofs3
  WfSpec WfProofs WsmanModel WsmanSpec ShellModel ShellSpec EnvModel EnvSpec EnvProofs.
Require Import Lia ZifyBool ZifyNat ZifyN.
Local Open Scope list_scope.

(* ---- texts of an answer ---- *)
Lemma spoken_kids x : spoken x -> Forall spoken (x_children x).
Proof.
  destruct x as [t a txt kids]. cbn [spoken x_children]. intros (_ & _ & K). induction kids as [|y kids IH]; [constructor|].
  destruct K as (K1 & K2). constructor; [exact K1|apply IH, K2].
Qed.
Lemma spoken_text x : spoken x -> fit_opt (x_text x).
Proof. destruct x as [t a txt kids]. intros (_ & H & _). exact H. Qed.
Lemma spoken_attr x k v : spoken x -> attr_get k x = Some v -> fit v.
Proof.
  destruct x as [t a txt kids]. intros (H & _). unfold attr_get. cbn [x_attrib]. induction H as [|[k' v'] a H _ IH]; cbn [dict_get]; [discriminate|].
  destruct (str_eqb k k'); [|exact IH]. intros E. apply Some_inj in E. subst v'. exact H.
Qed.
Lemma spoken_first : forall path x y, spoken x -> find_first path x = Some y -> spoken y.
Proof.
  intros path x y H E. assert (L := WsmanProofs.find_first_lookup path x). rewrite E in L. cbn [lookup] in L. clear E.
  revert x H L. induction path as [|t path IH]; intros x H L; cbn [first_at] in L; [subst; exact H|].
  destruct L as (before & c & after & E & _ & F & _). apply (IH c); [|exact F]. apply spoken_kids in H. rewrite E in H.
  apply Forall_app in H. destruct H as (_ & H). exact (Forall_inv H).
Qed.
Lemma given_fit b name old : spoken b -> fit_opt old -> fit_opt (given b name old).
Proof.
  intros B O. unfold given. destruct (find_first _ b) as [e|] eqn:E; [|exact O]. exact (spoken_text e (spoken_first _ _ _ B E)).
Qed.
Lemma selectors_built : forall cs es, Forall spoken cs -> Forall fit_entry es ->
  exists es', snd (add_selectors cs (built selector_set es)) = built selector_set es' /\ Forall fit_entry es'.
Proof.
  induction cs as [|c cs IH]; intros es S F; cbn [add_selectors snd]; [exists es; auto|].
  destruct (attr_get (lit "Name") c) as [n|] eqn:E; [|exists es; auto].
  set (e := (n, match x_text c with Some t => t | None => [] end, @nil (list N * list N))).
  replace (add_option (built selector_set es) n (match x_text c with Some t => t | None => [] end) []) with (built selector_set (es ++ [e])).
  2:{ unfold built. rewrite fold_left_app. reflexivity. }
  apply IH; [exact (Forall_inv_tail S)|]. apply Forall_app. split; [exact F|]. constructor; [|constructor].
  split; [exact (spoken_attr _ _ _ (Forall_inv S) E)|]. split; [|split; constructor]. cbn [e fst snd]. assert (T := spoken_text _ (Forall_inv S)).
  destruct (x_text c); [exact T|constructor].
Qed.
Lemma parse_ready response s : (forall b, response = Some b -> spoken b) -> ready s -> ready (snd (parse_shell_create response s)).
Proof.
  intros B R. destruct response as [b|]; [|exact R]. specialize (B b eq_refl). destruct R as ((F1 & F2 & F3 & F4 & F5 & F6 & F7 & F8) & ses & S & FS).
  unfold parse_shell_create.
  match goal with |- context [find_first p_selectors b] => destruct (find_first p_selectors b) as [e|] eqn:E end.
  - destruct (add_selectors (x_children e) selector_set) as [r w] eqn:A. cbn [snd].
    destruct (selectors_built (x_children e) [] (spoken_kids _ (spoken_first _ _ _ B E)) (Forall_nil _)) as (es' & A' & F').
    change (built selector_set []) with selector_set in A'. rewrite A in A'. cbn [snd] in A'.
    split; [|exists (Some es'); split; [unfold selected; cbn [set_selectors sh_selectors option_map]; rewrite A'; reflexivity|exact F']].
    unfold fit_shell. cbn [set_selectors sh_id sh_uri sh_input sh_output sh_idle sh_name sh_dir sh_env].
    repeat (split; [first [apply given_fit; assumption|assumption]|]). exact F8.
  - cbn [snd]. split; [|exists ses; split; [exact S|exact FS]].
    unfold fit_shell. cbn [sh_id sh_uri sh_input sh_output sh_idle sh_name sh_dir sh_env].
    repeat (split; [first [apply given_fit; assumption|assumption]|]). exact F8.
Qed.

(* ---- a use keeps a shell writable ---- *)
Lemma ready_more b i s : fit_opt i -> ready s -> ready (set_opened b (set_id i s)) .
Proof.
  intros I ((F1 & F) & ses & S & FS). split; [split; [exact I|exact F]|exists ses; split; [exact S|exact FS]].
Qed.
Lemma ready_opened b s : ready s -> ready (set_opened b s).
Proof. intros ((F1 & F) & ses & S & FS). split; [split; [exact F1|exact F]|exists ses; split; [exact S|exact FS]]. Qed.
Lemma use_ready srv o s h : speaks srv -> ready s -> ready (fst (use srv o s h)).
Proof.
  intros V R. destruct o; cbn [use fst]; try exact R.
  - unfold shell_open. destruct (sh_opened s); [exact R|]. unfold call. set (q := create_request s base content).
    destruct (srv h q) as [b|f|c t|e] eqn:E; try exact R.
    assert (P := parse_ready b s). destruct (parse_shell_create b s) as [r' s']. cbn [snd] in P.
    assert (Q : ready s') by (apply P; [intros b' ->; exact (V _ _ _ E)|exact R]). destruct r'; [apply ready_opened, Q|exact Q].
  - unfold shell_close. destruct (negb (sh_opened s)); [exact R|]. unfold call. destruct (srv h _); try exact R. cbn [fst]. apply ready_more; [exact I|exact R].
Qed.
Lemma uses_ready srv os : forall s h, speaks srv -> ready s -> ready (fst (uses srv os s h)).
Proof.
  unfold uses. induction os as [|o os IH]; intros s h V R; cbn [fold_left fst snd]; [exact R|].
  destruct (use srv o s h) as [s1 h1] eqn:E. apply IH; [exact V|]. assert (K := use_ready srv o s h V R). rewrite E in K. exact K.
Qed.

(* ---- what is read ---- *)
Definition read (w : wsman) (uuid : list N) (q : sreq) (P : xml -> Prop) : Prop := exists b, request_bytes w uuid q = Ok b /\ received b P.
Lemma read_impl w uuid q (P Q : xml -> Prop) : (forall y, P y -> Q y) -> read w uuid q P -> read w uuid q Q.
Proof. intros H (b & E & K & s & y & D & Y & Z). exists b. split; [exact E|]. split; [exact K|]. exists s, y. split; [exact D|]. split; [exact Y|apply H, Z]. Qed.
Lemma read_uri w uuid o body oes ses timeout (uri : option (list N)) P :
  read w uuid (the_request {| a_op := o; a_uri := match uri with Some u => u | None => [] end; a_options := oes; a_selectors := ses; a_timeout := timeout |} body) P ->
  read w uuid {| q_op := o; q_uri := uri; q_body := body; q_options := sets option_set oes; q_selectors := sets selector_set ses; q_timeout := timeout |} P.
Proof. intros H. destruct uri; exact H. Qed.
Lemma read_request w uuid o uri body oes ses timeout (P : xml -> Prop) :
  fit_wsman w -> fit uuid -> fit_opt uri -> fit_set oes -> fit_set ses -> (forall x, body = Some x -> writable x) ->
  (forall y bd, asks w uuid {| a_op := o; a_uri := match uri with Some u => u | None => [] end; a_options := oes; a_selectors := ses; a_timeout := timeout |} y bd ->
     Forall2 XtSpec.arrives (match body with Some x => [x] | None => [] end) (x_children bd) -> P y) ->
  read w uuid {| q_op := o; q_uri := uri; q_body := body; q_options := sets option_set oes; q_selectors := sets selector_set ses; q_timeout := timeout |} P.
Proof.
  intros W U R O S B H. apply read_uri.
  apply (read_impl w uuid _ (fun y => exists bd, asks w uuid {| a_op := o; a_uri := match uri with Some u => u | None => [] end; a_options := oes; a_selectors := ses; a_timeout := timeout |} y bd /\
     Forall2 XtSpec.arrives (match body with Some x => [x] | None => [] end) (x_children bd))).
  - intros y (bd & K & L). exact (H y bd K L).
  - apply request_received; [exact W|exact U| |exact B]. split; [destruct uri; [exact R|constructor]|split; [exact O|exact S]].
Qed.
Lemma no_kids bd : Forall2 XtSpec.arrives [] (x_children bd) -> x_children bd = [].
Proof. intros F. inversion F. reflexivity. Qed.

Definition op_of (o : shop) : wop :=
  match o with
  | SOpen _ _ => OpCreate | SClose => OpDelete | SCommand _ _ _ _ => OpCommand | SReceive _ _ _ => OpReceive
  | SSend _ _ _ _ => OpSend | SSignal _ _ => OpSignal | SGet _ => OpGet
  end.
Theorem use_read srv o s h ses : fit_shell s -> selected s ses -> fit_set ses -> fit_use o ->
  (idle o s /\ use srv o s h = (s, h)) \/
  (~ idle o s /\ exists q, snd (use srv o s h) = h ++ [(q, srv h q)] /\ q_op q = op_of o /\
     forall w uuid, fit_wsman w -> fit uuid -> read w uuid q (read_as w uuid o s ses)).
Proof.
  intros F S FS U. assert (FU : fit_opt (sh_uri s)) by apply F.
  destruct o as [base content| |x a n i|x i t|x d i e|code i|t]; cbn [use fit_use] in *.
  - destruct U as (C & es & -> & E). unfold shell_open. destruct (sh_opened s) eqn:O.
    + left. split; [left; split; [exact O|eauto]|reflexivity].
    + right. split; [intros [(K & _)|(_ & K)]; [congruence|discriminate]|]. exists (create_request s (option_map (built option_set) es) content). split; [|split; [reflexivity|]].
      * unfold call. destruct (srv h _) as [b|f|c t|e]; [destruct (parse_shell_create b s) as [[|] s']| | |]; reflexivity.
      * intros w uuid W I. assert (X := shell_writable s content F C).
        assert (R : read w uuid {| q_op := OpCreate; q_uri := sh_uri s; q_body := Some (shell_content s content); q_options := sets option_set (some_if (settings s es));
            q_selectors := sets selector_set None; q_timeout := None |} (read_as w uuid (SOpen (option_map (built option_set) es) content) s ses)).
        { apply read_request; [exact W|exact I|exact FU| |exact Logic.I| |].
          - assert (K := settings_fit s es E). destruct (settings s es); [exact Logic.I|exact K].
          - intros y K. apply Some_inj in K. subst y. exact X.
          - intros y bd K L. exists bd. cbn [read_as]. exists es. split; [reflexivity|]. split; [unfold some_if in K; destruct (settings s es); exact K|]. apply shell_settles; assumption. }
        unfold create_request. fold (sets option_set es). rewrite shell_built, built_values. change (ws_values option_set) with (@nil entry). cbn [app].
        unfold some_if, sets in R. destruct (settings s es); exact R.
  - unfold shell_close. destruct (sh_opened s) eqn:O; cbn [negb].
    + right. split; [intros [(_ & b & c & K)|(K & _)]; [discriminate|congruence]|]. exists (request OpDelete s None None None). split; [unfold call; destruct (srv h _); reflexivity|]. split; [reflexivity|].
      intros w uuid W I. unfold request. rewrite S. apply (read_request w uuid OpDelete (sh_uri s) None None ses None _ W I FU Logic.I FS); [intros y K; discriminate|].
      intros y bd K L. exists bd. split; [exact K|apply no_kids, L].
    + left. split; [right; split; [exact O|reflexivity]|reflexivity].
  - right. destruct U as (X & A & J). split; [intros [(_ & b & c & K)|(_ & K)]; discriminate|]. eexists. split; [reflexivity|]. split; [reflexivity|]. intros w uuid W I.
    unfold request. rewrite S. apply (read_request w uuid OpCommand (sh_uri s) (Some (command_line x a i)) (Some [(lit "WINRS_SKIP_CMD_SHELL", py_bool n, [])]) ses None _ W I FU); [|exact FS| |].
    + constructor; [|constructor]. split; [apply fit_lit; reflexivity|]. split; [destruct n; apply fit_lit; reflexivity|]. split; constructor.
    + intros y K. apply Some_inj in K. subst y. apply command_writable; assumption.
    + intros y bd K L. exists bd. split; [exact K|]. apply command_runs, L.
  - right. destruct U as (X & J). split; [intros [(_ & b & c & K)|(_ & K)]; discriminate|]. exists (request OpReceive s (Some (receive_body x i)) (Some keepalive) t).
    split; [unfold shell_receive, call; destruct (srv h _); reflexivity|]. split; [reflexivity|]. intros w uuid W I.
    unfold request. rewrite S. apply (read_request w uuid OpReceive (sh_uri s) (Some (receive_body x i)) (Some [(lit "WSMAN_CMDSHELL_OPTION_KEEPALIVE", lit "True", [])]) ses t _ W I FU); [|exact FS| |].
    + constructor; [|constructor]. split; [apply fit_lit; reflexivity|]. split; [apply fit_lit; reflexivity|]. split; constructor.
    + intros y K. apply Some_inj in K. subst y. apply receive_writable; assumption.
    + intros y bd K L. exists bd. split; [exact K|]. apply receive_polls, L.
  - right. destruct U as (X & D & J). split; [intros [(_ & b & c & K)|(_ & K)]; discriminate|]. eexists. split; [reflexivity|]. split; [reflexivity|]. intros w uuid W I.
    unfold request. rewrite S. apply (read_request w uuid OpSend (sh_uri s) (Some (send_body x d i e)) None ses None _ W I FU Logic.I FS).
    + intros y K. apply Some_inj in K. subst y. apply send_writable; assumption.
    + intros y bd K L. exists bd. split; [exact K|]. apply send_feeds; assumption.
  - right. destruct U as (X & J). split; [intros [(_ & b & c & K)|(_ & K)]; discriminate|]. eexists. split; [reflexivity|]. split; [reflexivity|]. intros w uuid W I.
    unfold request. rewrite S. apply (read_request w uuid OpSignal (sh_uri s) (Some (signal_body code i)) None ses None _ W I FU Logic.I FS).
    + intros y K. apply Some_inj in K. subst y. apply signal_writable; assumption.
    + intros y bd K L. exists bd. split; [exact K|]. apply signal_signals, L.
  - right. split; [intros [(_ & b & c & K)|(_ & K)]; discriminate|].
    exists {| q_op := OpGet; q_uri := Some ns_rsp; q_body := None; q_options := None; q_selectors := sh_selectors s; q_timeout := t |}.
    split; [unfold get_shell, call; destruct (srv h _) as [[b|]| | |]; reflexivity|]. split; [reflexivity|]. intros w uuid W I.
    rewrite S. apply (read_request w uuid OpGet (Some ns_rsp) None None ses t _ W I); [apply fit_lit; vm_compute; reflexivity|exact Logic.I|exact FS|intros y K; discriminate|].
    intros y bd K L. exists bd. split; [exact K|apply no_kids, L].
Qed.
Theorem uses_read srv os o s0 h0 : speaks srv -> ready s0 -> fit_use o ->
  let s := fst (uses srv os s0 h0) in let h := snd (uses srv os s0 h0) in
  (idle o s /\ use srv o s h = (s, h)) \/
  (~ idle o s /\ exists q ses, snd (use srv o s h) = h ++ [(q, srv h q)] /\ selected s ses /\
     forall w uuid, fit_wsman w -> fit uuid -> exists b, request_bytes w uuid q = Ok b /\ received b (read_as w uuid o s ses)).
Proof.
  intros V R U s h. destruct (uses_ready srv os s0 h0 V R) as (F & ses & S & FS).
  destruct (use_read srv o s h ses F S FS U) as [K|(K & q & E & _ & P)]; [left; exact K|]. right. split; [exact K|]. exists q, ses. split; [exact E|]. split; [exact S|exact P].
Qed.

(* ---- a whole command ---- *)
Definition step (command : list N) env (o : shop) (s : shell) : Prop :=
  match o with
  | SOpen b c => b = None /\ c = None /\ s = new_shell env
  | SCommand x a n i => x = command /\ a = None /\ n = false /\ i = None
  | SReceive _ _ _ => True | SSignal _ _ => True | SClose => True
  | _ => False
  end.
Definition stepped command env (e : sreq * wresult) : Prop :=
  exists o s ses, step command env o s /\ q_op (fst e) = op_of o /\ forall w uuid, fit_wsman w -> fit uuid -> read w uuid (fst e) (read_as w uuid o s ses).
Definition extends command env (h h' : history) : Prop := exists es, h' = h ++ es /\ Forall (stepped command env) es.
Lemma extends_refl command env h : extends command env h h.
Proof. exists []. split; [rewrite app_nil_r; reflexivity|constructor]. Qed.
Lemma extends_trans command env h1 h2 h3 : extends command env h1 h2 -> extends command env h2 h3 -> extends command env h1 h3.
Proof.
  intros (a & E1 & F1) (b & E2 & F2). exists (a ++ b). split; [rewrite E2, E1, <- app_assoc; reflexivity|]. apply Forall_app. split; assumption.
Qed.
Lemma use_extends command env srv o s h : ready s -> fit_use o -> step command env o s -> extends command env h (snd (use srv o s h)).
Proof.
  intros (F & ses & S & FS) U T. destruct (use_read srv o s h ses F S FS U) as [(_ & ->)|(_ & q & E & Q & P)]; [apply extends_refl|].
  rewrite E. exists [(q, srv h q)]. split; [reflexivity|]. constructor; [|constructor]. exists o, s, ses. split; [exact T|]. split; [exact Q|exact P].
Qed.
Lemma poll_extends command env srv t s p h : ready s -> fit_opt (pr_id p) ->
  extends command env h (snd (process_poll srv t s p h)) /\ pr_id (snd (fst (process_poll srv t s p h))) = pr_id p.
Proof.
  intros R I. assert (K := use_extends command env srv (SReceive (lit "stdout stderr") (pr_id p) t) s h R (conj (fit_lit (lit "stdout stderr") eq_refl) I) Logic.I).
  cbn [use snd] in K. unfold process_poll. destruct (shell_receive srv (lit "stdout stderr") (pr_id p) t s h) as [[[[st rc] bu]|x] h'].
  - destruct (dict_get str_eqb (lit "stdout") bu), (dict_get str_eqb (lit "stderr") bu); split; try exact K; reflexivity.
  - split; [exact K|reflexivity].
Qed.
Lemma end_extends command env srv fuel : forall s p h, ready s -> fit_opt (pr_id p) ->
  extends command env h (snd (process_end srv fuel s p h)) /\ pr_id (snd (fst (process_end srv fuel s p h))) = pr_id p.
Proof.
  induction fuel as [|fuel IH]; intros s p h R I; cbn [process_end].
  - destruct (str_eqb (pr_state p) cs_done); split; first [apply extends_refl|reflexivity].
  - destruct (str_eqb (pr_state p) cs_done); [split; [apply extends_refl|reflexivity]|].
    destruct (poll_extends command env srv None s p h R I) as (A & B). destruct (process_poll srv None s p h) as [[r p'] h']. cbn [fst snd] in A, B.
    destruct r as [u|x]; [|split; [exact A|exact B]]. destruct (IH s p' h' R) as (C & D); [rewrite B; exact I|].
    split; [eapply extends_trans; [exact A|exact C]|rewrite D; exact B].
Qed.
Lemma invoke_extends command env srv fuel s h : speaks srv -> fit command -> ready s ->
  extends command env h (snd (process_invoke srv fuel s (new_process command None) h)) /\
  fit_opt (pr_id (snd (fst (process_invoke srv fuel s (new_process command None) h)))).
Proof.
  intros V C R. assert (K := use_extends command env srv (SCommand command None false None) s h R (conj C (conj (Forall_nil _) Logic.I)) (conj eq_refl (conj eq_refl (conj eq_refl eq_refl)))).
  cbn [use snd] in K. unfold process_invoke, process_begin. cbn [new_process pr_executable pr_arguments pr_no_shell].
  unfold shell_command, call in *. cbn [snd] in K. match type of K with context [srv h ?q] => set (q0 := q) in * end.
  destruct (srv h q0) as [[b|]|f|c t|e] eqn:E; cbn [fst snd pr_id new_process]; try (split; [exact K|exact Logic.I]).
  match goal with |- context [process_end srv fuel s ?p ?h'] => destruct (end_extends command env srv fuel s p h' R) as (A & B) end.
  - cbn [pr_id]. destruct (find_first _ b) as [x|] eqn:Fx; [|exact Logic.I]. exact (spoken_text x (spoken_first _ _ _ (V _ _ _ E) Fx)).
  - split; [eapply extends_trans; [exact K|exact A]|]. rewrite B. cbn [pr_id].
    destruct (find_first _ b) as [x|] eqn:Fx; [|exact Logic.I]. exact (spoken_text x (spoken_first _ _ _ (V _ _ _ E) Fx)).
Qed.
Lemma new_ready env : match env with Some e => Forall (fun kv => fit (fst kv) /\ fit (snd kv)) e | None => True end -> ready (new_shell env).
Proof.
  intros E. split; [|exists None; split; [reflexivity|exact I]]. unfold fit_shell. cbn [new_shell sh_id sh_uri sh_input sh_output sh_idle sh_name sh_dir sh_env].
  split; [exact I|]. split; [apply fit_lit; vm_compute; reflexivity|]. split; [apply fit_lit; reflexivity|]. split; [apply fit_lit; reflexivity|].
  split; [exact I|]. split; [exact I|]. split; [exact I|exact E].
Qed.
Theorem execute_extends srv fuel command env h : speaks srv -> fit command ->
  match env with Some e => Forall (fun kv => fit (fst kv) /\ fit (snd kv)) e | None => True end ->
  extends command env h (snd (execute_cmd srv fuel command env h)).
Proof.
  intros V C E. assert (R0 := new_ready env E).
  assert (U0 : fit_use (SOpen None None)) by (split; [intros x; discriminate|exists None; split; [reflexivity|exact I]]).
  assert (K := use_extends command env srv (SOpen None None) (new_shell env) h R0 U0 (conj eq_refl (conj eq_refl eq_refl))).
  assert (R := use_ready srv (SOpen None None) (new_shell env) h V R0). cbn [use] in K, R. unfold execute_cmd.
  destruct (shell_open srv None None (new_shell env) h) as [[r s] h1]. cbn [fst snd] in K, R.
  destruct r as [o|x]; [|exact K].
  destruct (invoke_extends command env srv fuel s h1 V C R) as (A & I). destruct (process_invoke srv fuel s (new_process command None) h1) as [[r p] h2]. cbn [fst snd] in A, I.
  assert (B : exists r2 h3, match r with Raise x => (Raise x, h2) | Ret _ => process_signal srv ctrl_c s p h2 end = (r2, h3) /\ extends command env h2 h3).
  { destruct r as [u|x]; [|eexists; eexists; split; [reflexivity|apply extends_refl]].
    assert (G : fit (match pr_id p with Some i => i | None => [] end)) by (destruct (pr_id p); [exact I|constructor]).
    assert (J := use_extends command env srv (SSignal ctrl_c (match pr_id p with Some i => i | None => [] end)) s h2 R (conj (fit_lit ctrl_c eq_refl) G) Logic.I).
    cbn [use snd] in J. unfold process_signal. destruct (shell_signal srv ctrl_c _ s h2) as [r2 h3]. exists r2, h3. split; [reflexivity|exact J]. }
  destruct B as (r2 & h3 & -> & B).
  assert (D := use_extends command env srv SClose s h3 R Logic.I Logic.I). cbn [use] in D.
  destruct (shell_close srv s h3) as [[c s'] h4]. cbn [snd] in D.
  assert (Z : extends command env h h4) by (eapply extends_trans; [exact K|]; eapply extends_trans; [exact A|]; eapply extends_trans; [exact B|exact D]).
  destruct c; [destruct r2|]; exact Z.
Qed.
Theorem execute_read srv fuel command env h : speaks srv -> fit command ->
  match env with Some e => Forall (fun kv => fit (fst kv) /\ fit (snd kv)) e | None => True end ->
  exists es, snd (execute_cmd srv fuel command env h) = h ++ es /\
  forall e, In e es ->
    (q_op (fst e) = OpCommand -> exists s ses, forall w uuid, fit_wsman w -> fit uuid ->
       exists b, request_bytes w uuid (fst e) = Ok b /\ received b (read_as w uuid (SCommand command None false None) s ses)) /\
    (q_op (fst e) = OpCreate -> forall w uuid, fit_wsman w -> fit uuid ->
       exists b, request_bytes w uuid (fst e) = Ok b /\ received b (read_as w uuid (SOpen None None) (new_shell env) None)).
Proof.
  intros V C E. destruct (execute_extends srv fuel command env h V C E) as (es & H & F). exists es. split; [exact H|].
  intros e I. rewrite Forall_forall in F. destruct (F e I) as (o & s & ses & T & Q & P). split; intros O; rewrite O in Q.
  - destruct o as [b c| |x a n i|x i t|x d i en|code i|t]; cbn [op_of] in Q; try discriminate. destruct T as (-> & -> & -> & ->). exists s, ses. exact P.
  - destruct o as [b c| |x a n i|x i t|x d i en|code i|t]; cbn [op_of] in Q; try discriminate. destruct T as (-> & -> & ->). exact P.
Qed.
