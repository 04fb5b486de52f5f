(* Proofs about execute_ps. *)
From Verif Require Import Base BaseProofs Lit NumModel TextModel XmlModel WsmanModel ShellModel ShellSpec FragModel FragSpec FragProofs FragProofs2 FragProofs3 FragProofs4 MsgModel UtilModel TransModel ObjModel ObjSpec ObjProofs2 PoolModel PoolSpec PoolProofs PoolProofs2 PoolProofs3 PoolProofs4 PoolProofs5 PoolProofs6 PoolProofs7 PoolProofs8 PoolProofs9 PoolProofs12 PoolProofs13 ClientModel ClientSpec.
Require Import Lia ZifyBool ZifyNat ZifyN.

(* ---- lines ---- *)
Lemma join_lined l : lined l (join_lines l).
Proof.
  induction l as [|x l IH]; [constructor|]. cbn [join_lines]. destruct l as [|y l]; [constructor|]. constructor; [discriminate|exact IH].
Qed.

(* ---- the commands ---- *)
Section Build.
  Context {V : Type} (of_text : list N -> V) (py_true py_none : V).
  Notation build := (build_script of_text py_true py_none).

  Lemma add_environment_split e : forall b b', add_environment of_text py_true e b = (b', Done) ->
    exists cs, b_commands b' = b_commands b ++ cs /\ b_version b' = b_version b /\
      forall rest, map (map spoken) (split_statements [] (cs ++ rest)) =
                   map (set_variable of_text py_true) e ++ map (map spoken) (split_statements [] rest).
  Proof.
    induction e as [|[k v] e IH]; intros b b' H; cbn [add_environment] in H.
    - apply pair_inj in H as [<- _]. exists []. rewrite app_nil_r. repeat split.
    - unfold then_do at 1, add_new at 1 in H. unfold command_new in H at 1.
      destruct (version_equal_or_newer (version_or_empty (b_version b)) (lit "2.2")) as [b22|] eqn:V22; [|discriminate H].
      destruct (version_equal_or_newer (version_or_empty (b_version b)) (lit "2.3")) as [b23|] eqn:V23; [|discriminate H].
      cbn [bind] in H. cbv iota beta in H.
      do 4 (unfold then_do at 1, add_parameter at 1, on_last at 1 in H; cbn [b_commands with_commands] in H; rewrite update_last_app in H; cbv iota beta in H).
      unfold then_do at 1, add_new at 1, command_new in H. cbn [b_version with_commands] in H. rewrite V22, V23 in H. cbn [bind] in H. cbv iota beta in H.
      unfold then_do at 1, add_statement, on_last in H; cbn [b_commands with_commands] in H; rewrite update_last_app in H; cbv iota beta in H.
      destruct (IH _ _ H) as (cs & C & Vs & S). cbn [b_commands b_version with_commands] in C, Vs. rewrite <- !app_assoc in C.
      eexists. split; [exact C|]. split; [exact Vs|]. intros rest. cbn [app split_statements c_end set_end add_arg map spoken c_cmd c_script c_scope c_args].
      rewrite S. reflexivity.
  Qed.
  Lemma build_says e s v b : build e s {| b_commands := []; b_version := v |} = (b, Done) -> says_script of_text py_true py_none e s (b_commands b) /\ b_commands b <> [].
  Proof.
    unfold build_script. unfold then_do at 1. destruct (add_environment _ _ _ _) as [b1 [|x]] eqn:A; [|discriminate].
    apply add_environment_split in A as (cs & C & Vs & S). cbn [b_commands b_version app] in C, Vs. intros H.
    unfold then_do at 1, add_new at 1, command_new in H.
    destruct (version_equal_or_newer (version_or_empty (b_version b1)) (lit "2.2")) as [b22|] eqn:V22; [|discriminate H].
    destruct (version_equal_or_newer (version_or_empty (b_version b1)) (lit "2.3")) as [b23|] eqn:V23; [|discriminate H].
    cbn [bind] in H. cbv iota beta in H.
    unfold then_do at 1, add_parameter at 1, on_last at 1 in H; cbn [b_commands with_commands] in H; rewrite update_last_app in H; cbv iota beta in H.
    unfold then_do at 1, add_new at 1, command_new in H. cbn [b_version with_commands] in H. rewrite V22, V23 in H. cbn [bind] in H. cbv iota beta in H.
    unfold add_parameter, on_last in H; cbn [b_commands with_commands] in H; rewrite update_last_app in H; cbv iota beta in H.
    apply pair_inj in H as [<- _]. cbn [b_commands with_commands]. rewrite C. split; [|intros X; apply app_eq_nil in X as [_ X]; discriminate X].
    unfold says_script. rewrite get_statements_eq. eexists. split; [reflexivity|]. rewrite <- app_assoc. rewrite S. reflexivity.
  Qed.
End Build.

(* ---- the messages sent and the key ---- *)
Section Calm.
  Context {Obj Cmd HS RK : Type} (E : env Obj Cmd HS RK).
  Notation world := (world Obj Cmd HS RK).
  Notation M A := (world -> out A * world).
  Context (P : option (list N) -> omsg Obj Cmd -> Prop).
  Context (Hr : forall pid o, (match o with OCreate _ _ _ _ _ _ _ _ => False | _ => True end) -> P pid o).

  Record calm (w w' : world) : Prop := {
    cm_log : exists l, since w w' l /\ forall pid o, In (EOut pid o) l -> P pid o;
    cm_keys : rp_exchange (w_pool w) = None -> rp_exchange (w_pool w') = None /\ rp_cipher (w_pool w') = rp_cipher (w_pool w);
    cm_opened : sh_opened (rp_shell (w_pool w)) = true -> sh_opened (rp_shell (w_pool w')) = true }.
  Lemma calm_silent w w' : w_log w' = w_log w -> rp_exchange (w_pool w') = rp_exchange (w_pool w) -> rp_cipher (w_pool w') = rp_cipher (w_pool w) ->
    sh_opened (rp_shell (w_pool w')) = sh_opened (rp_shell (w_pool w)) -> calm w w'.
  Proof.
    intros L X C O. split.
    - exists []. split; [unfold since; rewrite app_nil_r; exact L|]. intros pid o [].
    - rewrite X, C. auto.
    - rewrite O. auto.
  Qed.
  Lemma calm_refl w : calm w w. Proof. apply calm_silent; reflexivity. Qed.
  Lemma calm_trans a b c : calm a b -> calm b c -> calm a c.
  Proof.
    intros [[l [L F]] K O] [[l' [L' F']] K' O']. split.
    - exists (l ++ l'). split; [eapply since_trans; eauto|]. intros pid o I. apply in_app_or in I as [I|I]; eauto.
    - intros X. destruct (K X) as [X1 C1]. destruct (K' X1) as [X2 C2]. split; congruence.
    - auto.
  Qed.
  Lemma calm_handle pl m : steps calm (handle E pl m).
  Proof.
    intros w. destruct (handle_effect E pl m w) as [F [l [L [A _]]] _ _ _ _ _ K _]. set (w' := snd _) in *. split.
    - exists (EMsg pl m :: l). split; [exact L|]. intros pid o [I|I]; [discriminate I|]. rewrite Forall_forall in A. apply A in I. apply Hr. destruct o; auto; destruct I.
    - intros X. destruct K as [[-> [_ ->]]|[o [k [b [d [_ [C _]]]]]]]; [auto|congruence].
    - rewrite (fr_shell _ _ F). auto.
  Qed.
  Lemma calm_receiver rc : steps calm (updp (set_rp_receiver rc)).
  Proof. intros w. apply calm_silent; reflexivity. Qed.
  Lemma calm_shell {A} (f : (history -> sreq -> wresult) -> shell -> history -> out A * history) : steps calm (on_shell E f).
  Proof. intros w. unfold on_shell. destruct (f _ _ _) as [r h]. apply calm_silent; reflexivity. Qed.
  Lemma calm_updps r f : steps calm (updps r f).
  Proof. intros w. apply calm_silent; reflexivity. Qed.
  Lemma calm_observe pid o : P pid o -> steps calm (observe (EOut pid o)).
  Proof.
    intros H w. split; [|auto|auto]. exists [EOut pid o]. split; [reflexivity|]. intros pid' o' [I|[]]. assert (pid' = pid /\ o' = o) as [-> ->] by (injection I; auto). exact H.
  Qed.
  Lemma calm_shell_open b c : steps calm (on_shell_state E (fun srv => shell_open srv b c)).
  Proof.
    intros w. unfold on_shell_state. pose proof (eq_refl (shell_open (ev_srv E (w_disabled w)) b c (rp_shell (w_pool w)) (w_hist w))) as X.
    unfold shell_open at 1 in X. destruct (sh_opened (rp_shell (w_pool w))) eqn:O.
    - rewrite <- X. apply calm_silent; auto.
    - destruct (shell_open _ _ _ _ _) as [[r s] h]. split; [|auto|intros K; rewrite O in K; discriminate K].
      exists []. split; [unfold since; rewrite app_nil_r; reflexivity|]. intros pid o [].
  Qed.
  Lemma calm_end fuel r : steps calm (end_invoke E fuel r).
  Proof. apply steps_end; [exact calm_refl|exact calm_trans|exact calm_handle|exact calm_receiver|intros; apply calm_shell|intros; apply calm_updps]. Qed.
  Lemma calm_until fuel done : steps calm (receive_until E fuel done).
  Proof. apply steps_receive_until; [exact calm_refl|exact calm_trans|exact calm_handle|exact calm_receiver|intros; apply calm_shell]. Qed.
  Ltac calm_prim := first [apply calm_end | apply calm_until | apply calm_shell | apply calm_shell_open | apply calm_updps
    | apply calm_observe; first [apply Hr; exact I | assumption] | (intros ?w; apply calm_silent; reflexivity)].
  Lemma calm_open fuel a : steps calm (pool_open E fuel a).
  Proof.
    unfold pool_open, fragment_many, first_fragment. cbn [each].
    walk calm_refl calm_trans calm_prim.
  Qed.
  Lemma calm_invoke r o w : P (Some (ps_id (the_ps r w))) o -> calm w (snd (ps_invoke E r o w)).
  Proof.
    intros H. unfold ps_invoke. rewrite mbind_getps. match goal with |- calm w (snd (?m w)) => assert (S : steps calm m); [|exact (S w)] end.
    unfold fragment_one, first_fragment, send. walk calm_refl calm_trans calm_prim.
  Qed.
End Calm.

Lemma list_upd_last {A} (f : A -> A) l x : list_upd (length l) f (l ++ [x]) = l ++ [f x].
Proof. induction l as [|y l IH]; [reflexivity|]. cbn [length app list_upd]. rewrite IH. reflexivity. Qed.

(* ---- starting a pipeline ---- *)
Section Start.
  Context {Obj Cmd HS RK : Type} (E : env Obj Cmd HS RK).
  Notation world := (world Obj Cmd HS RK).
  (* nothing has been received for it *)
  Definition same_got (p p' : ps Obj Cmd) : Prop :=
    ps_id p' = ps_id p /\ ps_output p' = ps_output p /\ ps_had_errors p' = ps_had_errors p /\ grown E p p' [].
  Record starts (r : nat) (w w' : world) : Prop := {
    ss_got : same_got (the_ps r w) (the_ps r w');
    ss_heap : length (w_heap w') = length (w_heap w);
    ss_exchange : rp_exchange (w_pool w') = rp_exchange (w_pool w);
    ss_cipher : rp_cipher (w_pool w') = rp_cipher (w_pool w);
    ss_receiver : rp_receiver (w_pool w') = rp_receiver (w_pool w) }.
  Lemma same_got_refl p : same_got p p.
  Proof. unfold same_got, grown. cbn [errors objects flat_map]. rewrite !app_nil_r. repeat split. Qed.
  Lemma starts_silent r w w' : w_heap w' = w_heap w -> rp_exchange (w_pool w') = rp_exchange (w_pool w) -> rp_cipher (w_pool w') = rp_cipher (w_pool w) ->
    rp_receiver (w_pool w') = rp_receiver (w_pool w) -> starts r w w'.
  Proof. intros H X C R. split; auto; [unfold the_ps; rewrite H; apply same_got_refl|rewrite H; reflexivity]. Qed.
  Lemma starts_refl r w : starts r w w. Proof. apply starts_silent; reflexivity. Qed.
  Lemma starts_trans r a b c : starts r a b -> starts r b c -> starts r a c.
  Proof.
    intros [(A1 & A2 & A3 & A4) H X C R] [(B1 & B2 & B3 & B4) H' X' C' R']. split; try congruence.
    unfold same_got, grown in *. cbn [errors objects flat_map] in *. rewrite !app_nil_r in *. intuition congruence.
  Qed.
  Lemma starts_updps r f : (forall p, same_got p (f p)) -> steps (starts r) (updps r f).
  Proof.
    intros H w. split; try reflexivity; [|cbn; rewrite list_upd_length; reflexivity].
    unfold the_ps, updps, upd. cbn [snd w_heap set_w_heap]. destruct (Nat.ltb_spec r (length (w_heap w))) as [L|L].
    - rewrite nth_list_upd_same by exact L. apply H.
    - rewrite list_upd_beyond by exact L. apply same_got_refl.
  Qed.
  Lemma starts_shell {A} r (f : (history -> sreq -> wresult) -> shell -> history -> out A * history) : steps (starts r) (on_shell E f).
  Proof. intros w. unfold on_shell. destruct (f _ _ _) as [x h]. apply starts_silent; reflexivity. Qed.
  Lemma starts_invoke r o : steps (starts r) (ps_invoke E r o).
  Proof.
    unfold ps_invoke, fragment_one, first_fragment, send.
    walk (starts_refl r) (starts_trans r) ltac:(first [apply starts_shell | apply starts_updps; intros ?p; exact (same_got_refl p) | (intros ?w; apply starts_silent; reflexivity)]).
  Qed.
End Start.

(* ---- execute_ps ---- *)
Section Executed.
  Context {Obj HS RK : Type} (E : env Obj (command Obj) HS RK).
  Notation world := (world Obj (command Obj) HS RK).
  Context (of_text : list N -> Obj) (py_true py_none : Obj) (to_text : Obj -> res (list N)).
  Notation execute := (execute_ps E of_text py_true py_none to_text).
  Notation says := (says_script of_text py_true py_none).

  (* the body of the with statement *)
  Definition body (fuel : nat) (id : list N) e script : world -> out nat * world :=
    (mbind (create_ps id) (fun r =>
       mbind (getp rp_protocol) (fun v =>
       match build_script of_text py_true py_none e script {| b_commands := []; b_version := v |} with
       | (b, Raised e) => throw e
       | (b, Done) =>
           mbind (updps r (set_ps_commands (b_commands b))) (fun _ =>
           mbind (invoke E fuel r) (fun _ => ret r))
       end))).
  (* the world with the pipeline to be started *)
  Definition prepared (id : list N) (cs : list (command Obj)) (w : world) : world :=
    set_w_heap (w_heap w ++ [set_ps_commands cs (new_ps id)]) w.
  Lemma body_cases fuel id e script w :
    (exists x w', body fuel id e script w = (Raise x, w') /\ w_log w' = w_log w /\ w_pool w' = w_pool w) \/
    (exists cs, says e script cs /\ cs <> [] /\
      body fuel id e script w = mbind (invoke E fuel (length (w_heap w))) (fun _ => ret (length (w_heap w))) (prepared id cs w)).
  Proof.
    unfold body, create_ps. match goal with |- context [mbind (mbind ?a ?b) ?c w] => assert (X : mbind a b w = (Ret (length (w_heap w)), set_w_heap (w_heap w ++ [new_ps id]) w)) by reflexivity end.
    rewrite (mbind_some _ _ _ _ _ X). rewrite mbind_getp. destruct (build_script _ _ _ _ _ _) as [b [|x]] eqn:B.
    - right. apply build_says in B as [S N]. exists (b_commands b). split; [exact S|]. split; [exact N|]. rewrite mbind_updps. cbn [w_heap set_w_heap]. rewrite list_upd_last. reflexivity.
    - left. eexists _, _. split; [reflexivity|]. split; reflexivity.
  Qed.
  Lemma prepared_ps id cs w : the_ps (length (w_heap w)) (prepared id cs w) = set_ps_commands cs (new_ps id).
  Proof. unfold the_ps, prepared. cbn [w_heap set_w_heap]. rewrite (app_nth2 _ _ _ (le_n _)), Nat.sub_diag. reflexivity. Qed.

  Lemma execute_done fuel id e script w text r bad w' : execute fuel id e script w = (Ret (text, r, bad), w') ->
    exists w1 w2 w3 cs out ls,
      pool_open E fuel None w = (Ret tt, w1) /\ r = length (w_heap w1) /\ says e script cs /\ cs <> [] /\
      begin_invoke E r plain_args (prepared id cs w1) = (Ret tt, w2) /\
      end_invoke E fuel r w2 = (Ret out, w3) /\ pool_close E w3 = (Ret tt, w') /\
      mapM to_text (ps_output (the_ps r w')) = Ok ls /\ lined ls text /\ bad = ps_had_errors (the_ps r w').
  Proof.
    unfold execute_ps. intros H. apply mbind_ret in H as [r0 [w0 [H H']]]. fold (body fuel id e script) in H.
    unfold with_pool in H. destruct (pool_open E fuel None w) as [[[]|x] w1] eqn:O; [|exfalso; congruence].
    destruct (body fuel id e script w1) as [b w3] eqn:B. destruct (pool_close E w3) as [[[]|x] w4] eqn:C; [|exfalso; congruence].
    apply pair_inj in H as [-> ->]. rewrite mbind_getps in H'.
    destruct (mapM to_text (ps_output (the_ps r0 w0))) as [ls|x] eqn:M; [|exfalso; unfold throw, fail in H'; congruence].
    unfold ret in H'. apply pair_inj in H' as [H' ->]. assert (text = join_lines ls /\ r = r0 /\ bad = ps_had_errors (the_ps r0 w')) as [-> [-> ->]] by (repeat split; congruence).
    destruct (body_cases fuel id e script w1) as [(x & wx & X & _)|(cs & S & Nn & X)]; rewrite X in B; [exfalso; congruence|].
    apply mbind_ret in B as [out [w3' [I B]]]. unfold ret in B. apply pair_inj in B as [B ->]. assert (r0 = length (w_heap w1)) as -> by congruence.
    unfold invoke in I. apply mbind_ret in I as [[] [w2 [I1 I2]]].
    exists w1, w2, w3, cs, out, ls. repeat (split; [first [assumption|reflexivity]|]). split; [apply join_lined|reflexivity].
  Qed.
End Executed.
