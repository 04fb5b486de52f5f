(* Every request of a pool can be written, and is read as it is. *)
From Verif Require Import Base BaseProofs Lit NumModel TextSpec TextModel Utf8Model XmlModel XtModel XtSpec XtProofs XtProofs3
  WsmanModel WsmanSpec ShellModel ShellSpec FragModel MsgModel UtilModel TransModel PoolModel EnvModel EnvSpec EnvProofs EnvProofs2 HomeSpec HomeProofs HomeProofs2.
Require Import Lia ZifyBool ZifyNat ZifyN.
Local Open Scope list_scope.

Lemma fit_pool_upper s : fit s -> fit (upper s).
Proof. intros H. apply Forall_map. eapply Forall_impl; [|exact H]. intros c. unfold upper_char, xml_char. destruct (N.leb 97 c && N.leb c 122)%bool eqn:E; lia. Qed.
Lemma content_homable tag d : nc_name tag -> homable (content_xml tag d).
Proof.
  intros T. left. exists ns_powershell. split; [reflexivity|]. split; [reflexivity|]. split; [exact T|]. split; [|split; [discriminate|intros s K; apply Some_inj in K; rewrite <- K; apply fit_b64]].
  split; [discriminate|]. split; [apply fit_lit; reflexivity|]. split; [|discriminate]. intros K.
  assert (Q : forallb (fun c => negb (N.eqb c 125)) ns_powershell = true) by reflexivity. rewrite forallb_forall in Q. specialize (Q _ K). discriminate Q.
Qed.
Lemma shell_parts s content : exists kids,
  shell_content s None = Elem (rsp (lit "Shell")) (match sh_id s with Some i => [(lit "ShellId", i)] | None => [] end) None kids /\
  shell_content s content = Elem (rsp (lit "Shell")) (match sh_id s with Some i => [(lit "ShellId", i)] | None => [] end) None
    (kids ++ match content with Some x => [x] | None => [] end).
Proof.
  unfold shell_content.
  match goal with |- exists kids, Elem ?t ?a ?n (?b ++ ?c ++ ?d ++ ?e ++ ?f ++ ?g ++ []) = _ /\ _ => exists (b ++ c ++ d ++ e ++ f ++ g) end.
  split; f_equal; rewrite <- ?app_assoc, ?app_nil_r; reflexivity.
Qed.
Lemma shell_homable s content : fit_shell s -> (forall x, content = Some x -> homable x) -> homable (shell_content s content).
Proof.
  intros F C. assert (W : writable (shell_content s None)) by (apply shell_writable; [exact F|intros x K; discriminate]).
  destruct (shell_parts s content) as (kids & E0 & ->). rewrite E0 in W. apply writable_homable, homable_cases in W.
  destruct W as [(u & K & _)|(A & B & D & T & K)]; [exfalso; destruct (sh_id s); [apply cons_inj in K; destruct K as [K _]; apply pair_inj in K; destruct K as [K _]; discriminate K|discriminate K]|].
  apply rooted_homable. repeat (split; [assumption|]). apply Forall_app. split; [exact K|]. destruct content; [constructor; [apply C; reflexivity|constructor]|constructor].
Qed.

(* ---- the requests ---- *)
Lemma request_legible op s body oes timeout : ready s -> (forall x, body = Some x -> homable x) -> fit_set oes ->
  legible (request op s body (sets option_set oes) timeout).
Proof. intros (F & ses & S & FS) B O. apply (legible_ok _ oes ses); try assumption; [reflexivity|apply F]. Qed.
Lemma create_legible s es content : fit_shell s -> (forall x, content = Some x -> homable x) -> fit_set es ->
  legible (create_request s (sets option_set es) content).
Proof.
  intros F C E. unfold create_request. rewrite shell_built, built_values. change (ws_values option_set) with (@nil entry). cbn [app].
  assert (K := settings_fit s es E).
  apply (legible_ok _ (some_if (settings s es)) None); cbn [q_options q_selectors q_uri q_body]; [destruct (settings s es); reflexivity|reflexivity| |exact I|apply F|].
  - destruct (settings s es); [exact I|exact K].
  - intros x Hx. apply Some_inj in Hx. subst x. apply shell_homable; assumption.
Qed.
Lemma selector_fit id : fit id -> fit_set (Some [(lit "ShellId", id, [])]).
Proof. intros H. constructor; [|constructor]. split; [apply fit_lit; reflexivity|]. split; [exact H|]. split; constructor. Qed.
Lemma version_fit : fit_set (Some [(lit "protocolversion", lit "2.3", [(lit "MustComply", lit "true")])]).
Proof.
  constructor; [|constructor]. split; [apply fit_lit; reflexivity|]. split; [apply fit_lit; reflexivity|]. split; [apply one_nodup|].
  constructor; [|constructor]. split; [left; apply ncname_nc; reflexivity|]. split; [discriminate|apply fit_lit; reflexivity].
Qed.

Section Job.
  Context {Obj Cmd HS RK : Type} (E : env Obj Cmd HS RK) (V : forall b, speaks (ev_srv E b)).
  Notation world := (world Obj Cmd HS RK).
  Notation M A := (world -> out A * world).

  (* the texts the pool and its pipelines send can be written *)
  Definition fit_ps (p : ps Obj Cmd) : Prop := fit (ps_id p) /\ fit_opt (ps_command_id p).
  Definition fit_world (w : world) : Prop := ready (rp_shell (w_pool w)) /\ fit (rp_id (w_pool w)) /\ Forall fit_ps (w_heap w).
  Definition posts (w w' : world) : Prop := exists es, w_hist w' = w_hist w ++ es /\ Forall (fun e : sreq * wresult => legible (fst e)) es.
  Definition keeps {A} (Q : A -> Prop) (m : M A) : Prop := forall w, fit_world w ->
    fit_world (snd (m w)) /\ posts w (snd (m w)) /\ match fst (m w) with Ret a => Q a | Raise _ => True end.
  Definition any {A} : A -> Prop := fun _ => True.

  Lemma posts_refl w : posts w w. Proof. exists []. rewrite app_nil_r. split; [reflexivity|constructor]. Qed.
  Lemma posts_same w w' : w_hist w' = w_hist w -> posts w w'. Proof. intros H. exists []. rewrite app_nil_r. split; [exact H|constructor]. Qed.
  Lemma posts_trans a b c : posts a b -> posts b c -> posts a c.
  Proof. intros (x & A & F) (y & B & G). exists (x ++ y). rewrite B, A, app_assoc. split; [reflexivity|]. apply Forall_app. auto. Qed.
  Lemma keeps_ret {A} (Q : A -> Prop) a : Q a -> keeps Q (ret a).
  Proof. intros H w F. split; [exact F|]. split; [apply posts_refl|exact H]. Qed.
  Lemma keeps_fail {A} (Q : A -> Prop) x : keeps Q (fail x).
  Proof. intros w F. split; [exact F|]. split; [apply posts_refl|exact I]. Qed.
  Lemma keeps_lift {A} (r : res A) : keeps any (lift r).
  Proof. destruct r; [apply keeps_ret; exact I|apply keeps_fail]. Qed.
  Lemma keeps_bind {A B} (P : A -> Prop) (Q : B -> Prop) (m : M A) (f : A -> M B) : keeps P m -> (forall a, P a -> keeps Q (f a)) -> keeps Q (mbind m f).
  Proof.
    intros H K w F. destruct (H w F) as (F1 & P1 & R1). unfold mbind. destruct (m w) as [[a|x] w1]; cbn [fst snd] in *; [|split; [exact F1|]; split; [exact P1|exact I]].
    destruct (K a R1 w1 F1) as (F2 & P2 & R2). split; [exact F2|]. split; [eapply posts_trans; [exact P1|exact P2]|exact R2].
  Qed.
  Lemma keeps_then {A B} (Q : B -> Prop) (m : M A) (f : A -> M B) : keeps any m -> (forall a, keeps Q (f a)) -> keeps Q (mbind m f).
  Proof. intros H K. eapply keeps_bind; [exact H|]. intros a _. apply K. Qed.
  Lemma keeps_weaken {A} (P Q : A -> Prop) (m : M A) : (forall a, P a -> Q a) -> keeps P m -> keeps Q m.
  Proof. intros W H w F. destruct (H w F) as (A1 & B & C). split; [exact A1|]. split; [exact B|]. destruct (fst (m w)); [apply W, C|exact I]. Qed.
  Lemma keeps_any {A} (P : A -> Prop) (m : M A) : keeps P m -> keeps any m.
  Proof. apply keeps_weaken. intros; exact I. Qed.
  Lemma keeps_get {A} (Q : A -> Prop) (f : world -> A) : (forall w, fit_world w -> Q (f w)) -> keeps Q (get f).
  Proof. intros H w F. split; [exact F|]. split; [apply posts_refl|exact (H w F)]. Qed.
  Lemma keeps_got {A} (f : world -> A) : keeps any (get f).
  Proof. apply keeps_get. intros; exact I. Qed.
  Lemma keeps_upd (f : world -> world) : (forall w, fit_world w -> fit_world (f w) /\ w_hist (f w) = w_hist w) -> keeps any (upd f).
  Proof. intros H w F. destruct (H w F) as (A & B). split; [exact A|]. split; [apply posts_same, B|exact I]. Qed.
  Lemma keeps_updp f : (forall x, rp_shell (f x) = rp_shell x) -> (forall x, rp_id (f x) = rp_id x) -> keeps any (updp f : M unit).
  Proof. intros H K. apply keeps_upd. intros w F. split; [|reflexivity]. destruct F as (A & B & C). split; [cbn; rewrite H; exact A|]. split; [cbn; rewrite K; exact B|exact C]. Qed.
  Lemma upd_list r f (l : list (ps Obj Cmd)) : (forall p, fit_ps p -> fit_ps (f p)) -> Forall fit_ps l -> Forall fit_ps (list_upd r f l).
  Proof. intros H F. revert r. induction F as [|x l X F IH]; intros r; cbn [list_upd]; [destruct r; constructor|]. destruct r; constructor; auto. Qed.
  Lemma keeps_updps r f : (forall p, fit_ps p -> fit_ps (f p)) -> keeps any (updps r f : M unit).
  Proof. intros H. apply keeps_upd. intros w (A & B & C). split; [|reflexivity]. split; [exact A|]. split; [exact B|]. cbn. apply upd_list; assumption. Qed.
  Lemma keeps_state r z : keeps any (updps r (set_ps_state z) : M unit). Proof. apply keeps_updps. intros p H. exact H. Qed.
  Lemma keeps_each {A} (f : A -> M unit) l : (forall a, keeps any (f a)) -> keeps any (each f l).
  Proof. intros H. induction l as [|a l IH]; cbn [each]; [apply keeps_ret; exact I|]. apply keeps_then; [apply H|]. intros _. exact IH. Qed.
  Lemma keeps_observe e : keeps any (observe e : M unit).
  Proof. apply keeps_upd. intros w F. split; [exact F|reflexivity]. Qed.
  Lemma fit_the_ps r w : fit_world w -> fit_ps (the_ps r w).
  Proof.
    intros (_ & _ & H). unfold the_ps. revert r. induction H as [|x l X H IH]; intros r; destruct r; cbn [nth]; try (split; [constructor|exact I]); [exact X|apply IH].
  Qed.
  Lemma keeps_getps {A} (Q : A -> Prop) r (f : ps Obj Cmd -> A) : (forall p, fit_ps p -> Q (f p)) -> keeps Q (getps r f : M A).
  Proof. intros H. apply keeps_get. intros w F. apply H, fit_the_ps, F. Qed.

  (* ---- requests ---- *)
  Lemma posts_one (w w' : world) q b : legible q -> w_hist w' = snd (call (ev_srv E b) q (w_hist w)) -> posts w w'.
  Proof. intros L H. exists [(q, ev_srv E b (w_hist w) q)]. split; [rewrite H; reflexivity|]. constructor; [exact L|constructor]. Qed.
  Lemma called b q h : match fst (call (ev_srv E b) q h) with Ret (Some x) => spoken x | _ => True end.
  Proof. unfold call. cbn [fst]. pose proof (V b h q) as K. destruct (ev_srv E b h q) as [[x|]|f|c t|e]; try exact I. apply K. reflexivity. Qed.
  Definition spoken_opt (o : option xml) : Prop := forall x, o = Some x -> spoken x.
  Lemma keeps_call (f : (history -> sreq -> wresult) -> shell -> history -> out (option xml) * history) q :
    (forall srv s h, f srv s h = call srv (q s) h) -> (forall s, ready s -> legible (q s)) -> keeps spoken_opt (on_shell E f).
  Proof.
    intros H L w F. pose proof F as (R & I & G). unfold on_shell. rewrite H. pose proof (called (w_disabled w) (q (rp_shell (w_pool w))) (w_hist w)) as C.
    pose proof (fun w' => posts_one w w' (q (rp_shell (w_pool w))) (w_disabled w) (L _ R)) as P.
    destruct (call (ev_srv E (w_disabled w)) (q (rp_shell (w_pool w))) (w_hist w)) as [r h]. cbn [fst snd] in *.
    split; [split; [exact R|]; split; [exact I|exact G]|]. split; [apply P; reflexivity|]. destruct r as [[x|]|]; [|intros x K; discriminate|exact Logic.I].
    intros y K. apply Some_inj in K. subst y. exact C.
  Qed.
  Lemma keeps_raw q : legible q -> keeps spoken_opt (request_raw E q).
  Proof.
    intros L w F. pose proof F as (R & I & G). unfold request_raw. pose proof (called (w_disabled w) q (w_hist w)) as C.
    pose proof (fun w' => posts_one w w' q (w_disabled w) L) as P.
    destruct (call (ev_srv E (w_disabled w)) q (w_hist w)) as [r h]. cbn [fst snd] in *.
    split; [split; [exact R|]; split; [exact I|exact G]|]. split; [apply P; reflexivity|]. destruct r as [[x|]|]; [|intros x K; discriminate|exact Logic.I].
    intros y K. apply Some_inj in K. subst y. exact C.
  Qed.
  Lemma keeps_send st d id : fit st -> fit_opt id -> keeps any (send E st d id).
  Proof.
    intros S I. apply keeps_then; [|intros _; apply keeps_ret; exact Logic.I]. eapply keeps_any, (keeps_call _ (fun s => request OpSend s (Some (send_body st d id None)) None None)); [reflexivity|].
    intros s R. apply (request_legible OpSend s _ None None R); [|exact Logic.I]. intros x K. apply Some_inj in K. subst x. apply writable_homable, send_writable; assumption.
  Qed.
  Lemma stdin_fit : fit (lit "stdin"). Proof. apply fit_lit; reflexivity. Qed.
  Lemma keeps_fragment_one o pid : keeps any (fragment_one E o pid).
  Proof.
    unfold fragment_one. apply keeps_then; [apply keeps_got|intros c]. apply keeps_then; [apply keeps_got|intros i]. apply keeps_then; [apply keeps_got|intros s].
    apply keeps_then; [apply keeps_lift|intros b]. apply keeps_then; [apply keeps_lift|intros r]. apply keeps_then; [apply keeps_updp; reflexivity|intros _].
    apply keeps_then; [apply keeps_observe|intros _]. apply keeps_ret. exact I.
  Qed.
  Lemma keeps_fragment_many os pid : keeps any (fragment_many E os pid).
  Proof.
    unfold fragment_many. apply keeps_then; [apply keeps_got|intros c]. apply keeps_then; [apply keeps_got|intros i]. apply keeps_then; [apply keeps_got|intros s].
    apply keeps_then; [apply keeps_lift|intros b]. apply keeps_then; [apply keeps_lift|intros r]. apply keeps_then; [apply keeps_updp; reflexivity|intros _].
    apply keeps_then; [apply keeps_each; intros o; apply keeps_observe|intros _]. apply keeps_ret. exact I.
  Qed.
  Lemma keeps_first l : keeps any (first_fragment l : M bytes).
  Proof. destruct l; [apply keeps_fail|apply keeps_ret; exact I]. Qed.

  (* ---- messages ---- *)
  Ltac pool1 := match goal with
    | |- keeps _ (mbind _ _) => apply keeps_then; [|intros ?]
    | |- keeps _ (get _) => apply keeps_got
    | |- keeps _ (getp _) => apply keeps_got
    | |- keeps _ (getps _ _) => apply keeps_getps; intros; exact I
    | |- keeps _ (lift _) => apply keeps_lift
    | |- keeps _ (fail _) => apply keeps_fail
    | |- keeps _ (throw _) => apply keeps_fail
    | |- keeps _ (observe _) => apply keeps_observe
    | |- keeps _ (ret _) => apply keeps_ret; exact I
    | |- keeps _ (fragment_one _ _ _) => apply keeps_fragment_one
    | |- keeps _ (fragment_many _ _ _) => apply keeps_fragment_many
    | |- keeps _ (first_fragment _) => apply keeps_first
    | |- keeps _ (updp _) => apply keeps_updp; reflexivity
    | |- keeps _ (updps _ _) => apply keeps_updps; let p := fresh in let H := fresh in intros p H; exact H
    end.
  Ltac pool := repeat match goal with |- keeps _ _ => pool1 | |- forall _, _ => intros ? end.
  Lemma keeps_host_call o pl : keeps any (process_host_call E o pl).
  Proof.
    unfold process_host_call. destruct (ev_host E) as [run|].
    - destruct (ev_host_call E o) as [[ci mi] mp]. apply keeps_then; [destruct pl; pool|intros pid]. apply keeps_then; [pool|intros st].
      destruct (run st mi mp pid) as [r st']. apply keeps_then; [apply keeps_upd; intros w F; split; [exact F|reflexivity]|intros _].
      apply keeps_then; [pool|intros _]. destruct r as [[mr|]|x]; [|pool|pool]. apply keeps_then; [destruct pl; pool|intros fs].
      apply keeps_each. intros f. apply keeps_send; [apply fit_lit; reflexivity|exact I].
    - destruct (ev_host_call E o) as [[ci mi] mp]. match goal with |- context [if ?b then _ else _] => destruct b end; pool.
  Qed.
  Lemma keeps_data d f : (forall o, keeps any (f o)) -> keeps any (data_obj d f : M unit).
  Proof. intros H. destruct d; cbn [data_obj]; first [apply H|pool]. Qed.
  Lemma keeps_capability o : keeps any (process_session_capability E o).
  Proof.
    unfold process_session_capability. destruct (ev_capability E o) as [[p v] s]. pool.
    match goal with |- context [if ?b then _ else _] => destruct b end; pool.
  Qed.
  Lemma keeps_availability o : keeps any (process_availability E o).
  Proof.
    unfold process_availability. destruct (ev_availability E o) as [ci response]. apply keeps_then; [pool|intros t]. destruct (dict_get Z.eqb ci t) as [[k|v]|]; [|pool|pool].
    apply keeps_then; [|intros _; pool]. destruct k; [| |pool|]; match goal with |- context [if ?b then _ else _] => destruct b end; pool.
  Qed.
  Lemma keeps_session_key o : keeps any (process_session_key E o).
  Proof.
    unfold process_session_key. apply keeps_then; [pool|intros b]. apply keeps_then; [pool|intros k]. destruct k as [k|]; [|pool]. apply keeps_then; [pool|intros d].
    match goal with |- context [if ?b then _ else _] => destruct b end; pool.
  Qed.
  Lemma keeps_pool_state o : keeps any (process_pool_state E o).
  Proof. unfold process_pool_state. apply keeps_then; [pool|intros _]. destruct (Z.eqb _ _); pool. Qed.
  Lemma keeps_init o : keeps any (process_init_data E o).
  Proof. unfold process_init_data. destruct (ev_init E o). pool. Qed.
  Lemma keeps_pipeline_state r o : keeps any (process_pipeline_state E r o).
  Proof.
    unfold process_pipeline_state. destruct (ev_pipe_state E o) as [st err]. apply keeps_then; [pool|intros _]. apply keeps_then; [destruct err; pool|intros _]. destruct (Z.eqb _ _); pool.
  Qed.
  Lemma keeps_process pl m : keeps any (process_message E pl m).
  Proof.
    unfold process_message.
    repeat match goal with
      | |- keeps _ (if ?b then _ else _) => destruct b
      | |- keeps _ (match pl with _ => _ end) => destruct pl
      end;
      first [ solve [pool] | apply keeps_data; intros o;
        first [ apply keeps_capability | apply keeps_session_key | apply keeps_init | apply keeps_availability | apply keeps_pool_state
              | apply keeps_host_call | apply keeps_pipeline_state | pool ] ].
  Qed.
  Lemma keeps_handle pl m : keeps any (handle E pl m).
  Proof. unfold handle. apply keeps_then; [pool|intros _; apply keeps_process]. Qed.
  Lemma keeps_parse d pl : keeps any (parse_responses E d pl).
  Proof.
    unfold parse_responses. apply keeps_then; [pool|intros rc]. apply keeps_then; [pool|intros c]. destruct (defragment rc d) as [rc' r].
    apply keeps_then; [pool|intros _]. apply keeps_then; [pool|intros bs]. apply keeps_then; [pool|intros ms]. apply keeps_then; [apply keeps_each; intros m; apply keeps_handle|intros _]. pool.
  Qed.
  Lemma keeps_shell_receive id t : fit_opt id -> keeps any (on_shell E (fun srv => shell_receive srv (lit "stdout") id t)).
  Proof.
    intros I w F. pose proof F as (R & J & G). unfold on_shell, shell_receive.
    assert (L : legible (request OpReceive (rp_shell (w_pool w)) (Some (receive_body (lit "stdout") id)) (Some keepalive) t)).
    { apply (request_legible OpReceive _ _ (Some [(lit "WSMAN_CMDSHELL_OPTION_KEEPALIVE", lit "True", [])]) t R).
      - intros x K. apply Some_inj in K. subst x. apply writable_homable, receive_writable; [apply fit_lit; reflexivity|exact I].
      - constructor; [|constructor]. split; [apply fit_lit; reflexivity|]. split; [apply fit_lit; reflexivity|]. split; constructor. }
    set (q := request OpReceive _ _ _ _) in *. pose proof (fun w' => posts_one w w' q (w_disabled w) L) as P.
    destruct (call (ev_srv E (w_disabled w)) q (w_hist w)) as [r h]. cbn [fst snd] in *.
    split; [split; [exact R|]; split; [exact J|exact G]|]. split; [apply P; reflexivity|]. destruct r as [b|]; [destruct (parse_receive _ _)|]; exact Logic.I.
  Qed.
  Lemma keeps_receive id t : keeps any (receive E id t).
  Proof.
    unfold receive. apply keeps_then; [pool|intros reg].
    match goal with |- context [match id with Some _ => _ | None => None end] => set (pl := match id with Some (c :: s) => dict_get str_eqb (c :: s) reg | _ => None end) end.
    apply (keeps_bind fit_opt); [destruct pl; [apply keeps_getps; intros p H; apply H|apply keeps_ret; exact I]|]. intros cid C.
    apply keeps_then; [apply keeps_shell_receive, C|intros b]. destruct (dict_get _ _ _); [|pool]. apply keeps_parse.
  Qed.
  Lemma keeps_receive_until fuel done : keeps any (receive_until E fuel done).
  Proof.
    induction fuel as [|fuel IH]; intros w F; cbn [receive_until]; destruct (done w); try (split; [exact F|]; split; [apply posts_refl|exact I]).
    exact (keeps_then _ _ _ (keeps_receive None None) (fun _ => IH) w F).
  Qed.
  Ltac pool2 := match goal with
    | |- keeps _ (receive _ _ _) => apply keeps_receive
    | |- keeps _ (receive_until _ _ _) => apply keeps_receive_until
    | |- keeps _ (send _ _ _ None) => apply keeps_send; [apply fit_lit; reflexivity|exact I]
    end.
  Ltac pool ::= repeat match goal with |- keeps _ _ => first [pool2 | pool1] | |- forall _, _ => intros ? end.
  Lemma keeps_ask k mk : keeps any (ask E k mk).
  Proof. unfold ask, new_call. pool. Qed.
  Lemma keeps_forget ci : keeps any (forget ci : M unit). Proof. unfold forget. pool. Qed.

  (* ---- the pool ---- *)
  Lemma keeps_shell_close : keeps any (on_shell_state E (fun srv => shell_close srv)).
  Proof.
    intros w F. pose proof F as (R & J & G). unfold on_shell_state. pose proof (use_ready (ev_srv E (w_disabled w)) SClose (rp_shell (w_pool w)) (w_hist w) (V _) R) as U. cbn [use] in U.
    unfold shell_close in *. destruct (negb (sh_opened (rp_shell (w_pool w)))).
    - cbn [fst snd] in *. split; [split; [exact U|]; split; [exact J|exact G]|]. split; [apply posts_same; reflexivity|exact I].
    - assert (L : legible (request OpDelete (rp_shell (w_pool w)) None None None)) by (apply (request_legible OpDelete _ None None None R); [intros x K; discriminate|exact I]).
      set (q := request OpDelete _ _ _ _) in *. pose proof (fun w' => posts_one w w' q (w_disabled w) L) as P.
      destruct (call (ev_srv E (w_disabled w)) q (w_hist w)) as [r h]. destruct r; cbn [fst snd] in *; (split; [split; [exact U|]; split; [exact J|exact G]|]; split; [apply P; reflexivity|exact I]).
  Qed.
  Lemma keeps_shell_open f : keeps any (on_shell_state E (fun srv => shell_open srv (Some version_option) (Some (content_xml (lit "creationXml") f)))).
  Proof.
    intros w F. pose proof F as (R & J & G). unfold on_shell_state.
    pose proof (use_ready (ev_srv E (w_disabled w)) (SOpen (Some version_option) (Some (content_xml (lit "creationXml") f))) (rp_shell (w_pool w)) (w_hist w) (V _) R) as U. cbn [use] in U.
    unfold shell_open in *. destruct (sh_opened (rp_shell (w_pool w))).
    - cbn [fst snd] in *. split; [split; [exact U|]; split; [exact J|exact G]|]. split; [apply posts_same; reflexivity|exact I].
    - assert (L : legible (create_request (rp_shell (w_pool w)) (Some version_option) (Some (content_xml (lit "creationXml") f)))).
      { apply (create_legible _ (Some [(lit "protocolversion", lit "2.3", [(lit "MustComply", lit "true")])])); [apply R| |apply version_fit].
        intros x K. apply Some_inj in K. subst x. apply content_homable, ncname_nc. reflexivity. }
      set (q := create_request _ _ _) in *. pose proof (fun w' => posts_one w w' q (w_disabled w) L) as P.
      destruct (call (ev_srv E (w_disabled w)) q (w_hist w)) as [r h]. destruct r as [b|x]; [destruct (parse_shell_create b (rp_shell (w_pool w))) as [[u|x] s']|]; cbn [fst snd] in *;
        (split; [split; [exact U|]; split; [exact J|exact G]|]; split; [apply P; reflexivity|exact I]).
  Qed.
  Lemma keeps_close : keeps any (pool_close E).
  Proof. unfold pool_close. apply keeps_then; [pool|intros st]. destruct (in_states _ _); [pool|]. apply keeps_then; [apply keeps_shell_close|intros _]. pool. Qed.
  Lemma keeps_open fuel a : keeps any (pool_open E fuel a).
  Proof.
    unfold pool_open. apply keeps_then; [pool|intros st]. destruct (Z.eqb st rs_opened); [pool|]. destruct (negb _); [pool|]. apply keeps_then; [pool|intros p].
    apply keeps_then; [pool|intros fs]. apply keeps_then; [pool|intros f]. apply keeps_then; [apply keeps_shell_open|intros _]. pool.
  Qed.
  Lemma keeps_conn op body oes ses : (forall x, body = Some x -> homable x) -> fit_set oes -> fit_set ses ->
    keeps spoken_opt (conn_request E op body (sets option_set oes) (sets selector_set ses)).
  Proof.
    intros B O S. unfold conn_request. apply (keeps_bind fit_opt); [apply keeps_get; intros w F; apply F|]. intros uri U. apply keeps_raw.
    apply (legible_ok _ oes ses); try assumption; reflexivity.
  Qed.
  Lemma keeps_existing : keeps any (connect_existing E).
  Proof.
    unfold connect_existing. apply (keeps_bind fit_opt); [apply keeps_get; intros w F; apply F|]. intros id I. apply keeps_then; [|pool].
    eapply keeps_any. apply (keeps_conn OpReconnect None None (Some [(lit "ShellId", or_empty id, [])])); [intros x K; discriminate|exact Logic.I|].
    apply selector_fit. destruct id; [exact I|constructor].
  Qed.
  Lemma keeps_new : keeps any (connect_new E).
  Proof.
    unfold connect_new. apply keeps_then; [pool|intros f1]. apply keeps_then; [pool|intros d1]. apply keeps_then; [pool|intros f2]. apply keeps_then; [pool|intros d2].
    apply (keeps_bind fit); [apply keeps_get; intros w F; apply F|]. intros id I. apply (keeps_bind spoken_opt).
    - apply (keeps_conn OpConnect _ (Some [(lit "protocolversion", lit "2.3", [(lit "MustComply", lit "true")])]) (Some [(lit "ShellId", id, [])])).
      + intros x K. apply Some_inj in K. subst x. apply rooted_homable. split; [nm|]. split; [constructor|]. split; [constructor|]. split; [txt|].
        constructor; [apply content_homable, ncname_nc; reflexivity|constructor].
      + apply version_fit.
      + apply selector_fit, I.
    - intros b _. destruct b as [e|]; [|pool]. destruct (find_first _ e) as [x|]; [|pool]. destruct (x_text x) as [t|]; [|pool].
      apply keeps_then; [pool|intros d]. apply keeps_then; [apply keeps_parse|intros _]. apply keeps_then; [|pool].
      apply keeps_upd. intros w (((F1 & F2) & R) & J & G). split; [|reflexivity]. split; [|split; [exact J|exact G]]. split; [split; [exact I|exact F2]|].
      exists (Some [(lit "ShellId", id, [])]). split; [reflexivity|apply selector_fit, I].
  Qed.
  Lemma keeps_connect : keeps any (pool_connect E).
  Proof.
    unfold pool_connect. apply keeps_then; [pool|intros st]. apply keeps_then; [pool|intros new]. destruct (Z.eqb st rs_opened); [pool|]. destruct (negb _); [pool|].
    destruct new; [|apply keeps_existing]. apply keeps_then; [apply keeps_new|intros _]. pool.
  Qed.
  Lemma keeps_disconnect : keeps any (pool_disconnect E).
  Proof.
    unfold pool_disconnect. apply keeps_then; [pool|intros st]. destruct (Z.eqb st rs_disconnected); [pool|]. destruct (negb _); [pool|].
    apply (keeps_bind fit_opt); [apply keeps_get; intros w F; apply F|]. intros id I. apply keeps_then.
    - eapply keeps_any. apply (keeps_conn OpDisconnect _ None (Some [(lit "ShellId", or_empty id, [])])); [|exact Logic.I|apply selector_fit; destruct id; [exact I|constructor]].
      intros x K. apply Some_inj in K. subst x. apply rooted_homable. split; [nm|]. split; [constructor|]. split; [constructor|]. split; [txt|]. constructor.
    - intros _. apply keeps_then; [pool|intros _]. apply keeps_then; [pool|intros reg]. apply keeps_each. pool.
  Qed.
  Lemma keeps_set_min fuel v : keeps any (set_min_runspaces E fuel v).
  Proof.
    unfold set_min_runspaces. apply keeps_then; [pool|intros st]. apply keeps_then; [pool|intros cur]. destruct (negb _); [pool|]. destruct (rval_is _ _); [pool|].
    apply keeps_then; [apply keeps_ask|intros ci]. apply keeps_then; [pool|intros _]. apply keeps_then; [pool|intros _]. apply keeps_forget.
  Qed.
  Lemma keeps_set_max fuel v : keeps any (set_max_runspaces E fuel v).
  Proof.
    unfold set_max_runspaces. apply keeps_then; [pool|intros st]. apply keeps_then; [pool|intros cur]. destruct (negb _); [pool|]. destruct (rval_is _ _); [pool|].
    apply keeps_then; [apply keeps_ask|intros ci]. apply keeps_then; [pool|intros _]. apply keeps_then; [pool|intros _]. apply keeps_forget.
  Qed.
  Lemma keeps_available fuel : keeps any (get_available_runspaces E fuel).
  Proof.
    unfold get_available_runspaces. apply keeps_then; [apply keeps_ask|intros ci]. apply keeps_then; [pool|intros _]. apply keeps_then; [pool|intros _]. apply keeps_then; [pool|intros v].
    apply keeps_then; [apply keeps_forget|intros _]. pool.
  Qed.
  Lemma keeps_reset fuel : keeps any (reset_runspace_state E fuel).
  Proof.
    unfold reset_runspace_state. apply keeps_then; [pool|intros st]. destruct (Z.eqb _ _); [pool|]. destruct (negb _); [pool|]. apply keeps_then; [pool|intros p]. apply keeps_then; [pool|intros n].
    destruct (negb n); [pool|]. apply keeps_then; [apply keeps_ask|intros ci]. apply keeps_then; [pool|intros _]. apply keeps_forget.
  Qed.
  Lemma keeps_key_wait fuel start : keeps any (key_wait E fuel start).
  Proof.
    induction fuel as [|fuel IH]; intros w F; cbn [key_wait]; destruct (rp_exchanged (w_pool w)); try (split; [exact F|]; split; [apply posts_refl|exact I]);
      destruct (Z.ltb _ _); try (split; [exact F|]; split; [apply posts_refl|exact I]).
    exact (keeps_then _ _ _ (keeps_receive None None) (fun _ => IH) w F).
  Qed.
  Lemma keeps_exchange fuel : keeps any (exchange_keys E fuel).
  Proof.
    unfold exchange_keys. apply keeps_then; [pool|intros d]. apply keeps_then; [pool|intros k]. destruct d; [pool|]. destruct k; [pool|].
    apply keeps_then; [pool|intros h]. apply keeps_then; [pool|intros _]. apply keeps_then; [pool|intros b]. apply keeps_then; [pool|intros fs].
    apply keeps_then; [apply keeps_each; pool|intros _]. apply keeps_then; [pool|intros s]. apply keeps_key_wait.
  Qed.
  Lemma keeps_disabled {A} b (Q : A -> Prop) (m : M A) : keeps Q m -> keeps Q (fun w => let '(r, w1) := m (set_w_disabled b w) in (r, set_w_disabled (w_disabled w) w1)).
  Proof. intros H w F. destruct (H (set_w_disabled b w) F) as (A1 & B & C). destruct (m (set_w_disabled b w)) as [r w1]. cbn [fst snd] in *. split; [exact A1|]. split; [exact B|exact C]. Qed.
  Lemma keeps_get_shell t : keeps any (on_shell E (fun srv => get_shell srv t)).
  Proof.
    intros w F. pose proof F as (R & J & G). unfold on_shell, get_shell. pose proof R as (_ & ses & S & FS).
    set (q := {| q_op := OpGet; q_uri := _; q_body := _; q_options := _; q_selectors := _; q_timeout := _ |}).
    assert (L : legible q) by (apply (legible_ok q None ses); [reflexivity|exact S|exact I|exact FS|apply fit_lit; vm_compute; reflexivity|intros x K; discriminate]).
    pose proof (fun w' => posts_one w w' q (w_disabled w) L) as P.
    destruct (call (ev_srv E (w_disabled w)) q (w_hist w)) as [r h]. destruct r as [[b|]|x]; cbn [fst snd] in *;
      (split; [split; [exact R|]; split; [exact J|exact G]|]; split; [apply P; reflexivity|exact I]).
  Qed.
  Lemma keeps_alive t : keeps any (is_alive E t).
  Proof.
    intros w F. pose proof (keeps_disabled true any _ (keeps_get_shell t) w F) as K. revert K. unfold is_alive.
    destruct (on_shell E (fun srv => get_shell srv t) (set_w_disabled true w)) as [r w1]. cbn [fst snd]. intros K. destruct K as (A & B & _).
    set (w2 := set_w_disabled (w_disabled w) w1) in *.
    assert (C := keeps_then any (updp (set_rp_state rs_closed)) (fun _ => ret false) ltac:(pool) (fun _ => keeps_ret any false I) w2 A). destruct C as (C1 & C2 & _).
    assert (D : posts w (snd (mbind (updp (set_rp_state rs_closed)) (fun _ => ret false) w2))) by (eapply posts_trans; [exact B|exact C2]).
    set (cl := mbind (updp (set_rp_state rs_closed)) (fun _ => ret false) w2) in *.
    assert (Z : forall o, o = cl \/ snd o = w2 -> fit_world (snd o) /\ posts w (snd o) /\ match fst o with Ret a => any a | Raise _ => True end).
    { intros [r' w'] [K|K]; cbn [fst snd] in *; (split; [|split]); try (destruct r'; exact I); try (rewrite K; assumption); rewrite <- K in *; assumption. }
    apply Z. destruct r as [d|x].
    - destruct (dict_get _ _ d) as [[t'|]|]; [destruct (str_eqb t' _); [left|right]; reflexivity|right; reflexivity|right; reflexivity].
    - destruct (_ || _)%bool; [left|right]; reflexivity.
  Qed.

  (* ---- pipelines ---- *)
  Lemma signal_legible s code id : ready s -> fit code -> fit id -> legible (request OpSignal s (Some (signal_body code id)) None None).
  Proof.
    intros R C I. apply (request_legible OpSignal s _ None None R); [|exact Logic.I]. intros x K. apply Some_inj in K. subst x. apply writable_homable, signal_writable; assumption.
  Qed.
  Lemma keeps_signal code id : fit code -> fit id -> keeps any (on_shell E (fun srv => shell_signal srv code id)).
  Proof.
    intros C I. eapply keeps_any, (keeps_call _ (fun s => request OpSignal s (Some (signal_body code id)) None None)); [reflexivity|]. intros s R. apply signal_legible; assumption.
  Qed.
  Lemma keeps_unregister id : keeps any (unregister id : M unit). Proof. unfold unregister. pool. Qed.
  Lemma keeps_ps_close r : keeps any (ps_close E r).
  Proof.
    unfold ps_close. apply (keeps_bind fit_ps); [apply keeps_getps; intros p H; exact H|]. intros p (P1 & P2). destruct (Z.eqb _ _); [pool|]. destruct (negb _); [pool|].
    apply keeps_then; [|intros _; apply keeps_unregister]. apply keeps_signal; [apply fit_lit; vm_compute; reflexivity|]. unfold nonempty. destruct (ps_command_id p) as [[|c t]|]; assumption.
  Qed.
  Lemma keeps_connect_async r : keeps any (ps_connect_async E r).
  Proof.
    unfold ps_connect_async. apply (keeps_bind fit_ps); [apply keeps_getps; intros p H; exact H|]. intros p (P1 & P2). destruct (negb _); [pool|].
    apply (keeps_bind (fun sel => exists ses, sel = sets selector_set ses /\ fit_set ses)); [apply keeps_get; intros w ((_ & R) & _); exact R|]. intros sel (ses & -> & S).
    apply keeps_then; [|pool]. eapply keeps_any. apply (keeps_conn OpConnect _ None ses); [|exact I|exact S]. intros x K. apply Some_inj in K. subst x.
    apply rooted_homable. split; [nm|]. split; [apply one_nodup|]. split; [|split; [txt|constructor]].
    constructor; [|constructor]. split; [left; apply ncname_nc; reflexivity|]. split; [discriminate|exact P1].
  Qed.
  Lemma keeps_new_ps (p : ps Obj Cmd) : fit_ps p -> keeps any (upd (fun w => set_w_heap (w_heap w ++ [p]) w) : M unit).
  Proof. intros P. apply keeps_upd. intros w (A & B & C). split; [|reflexivity]. split; [exact A|]. split; [exact B|]. apply Forall_app. split; [exact C|]. constructor; [exact P|constructor]. Qed.
  Lemma keeps_create id : fit id -> keeps any (create_ps id : M nat).
  Proof. intros I. unfold create_ps. apply keeps_then; [pool|intros n]. apply keeps_then; [apply keeps_new_ps; split; [exact I|exact Logic.I]|intros _]. pool. Qed.
  Lemma keeps_nested r id : fit id -> keeps any (create_nested r id : M nat).
  Proof.
    intros I. unfold create_nested. apply keeps_then; [pool|intros p]. destruct (negb _); [pool|]. destruct (ps_from_disconnect p); [pool|].
    apply keeps_then; [pool|intros n]. apply keeps_then; [apply keeps_new_ps; split; [exact I|exact Logic.I]|intros _]. pool.
  Qed.
  Lemma command_legible s f id : ready s -> fit id -> legible (request OpCommand s (Some (command_line [] (Some [b64encode f]) (Some id)))
    (Some (add_option option_set (lit "WINRS_SKIP_CMD_SHELL") (py_bool false) [])) None).
  Proof.
    intros R I. apply (request_legible OpCommand s _ (Some [(lit "WINRS_SKIP_CMD_SHELL", lit "False", [])]) None R).
    - intros x K. apply Some_inj in K. subst x. apply writable_homable, command_writable; [constructor|constructor; [apply fit_b64|constructor]|exact I].
    - constructor; [|constructor]. split; [apply fit_lit; reflexivity|]. split; [apply fit_lit; reflexivity|]. split; constructor.
  Qed.
  Lemma keeps_send_to r f : keeps any (mbind (getps r ps_command_id) (fun cid => send E (lit "stdin") f cid)).
  Proof. apply (keeps_bind fit_opt); [apply keeps_getps; intros p H; apply H|]. intros cid C. apply keeps_send; [apply stdin_fit|exact C]. Qed.
  Lemma keeps_invoke r o : keeps any (ps_invoke E r o).
  Proof.
    unfold ps_invoke. apply (keeps_bind fit); [apply keeps_getps; intros p H; apply H|]. intros id I. apply keeps_then; [pool|intros fs]. apply keeps_then; [pool|intros _]. apply keeps_then; [pool|intros f].
    apply (keeps_bind spoken_opt).
    - eapply (keeps_call _ (fun s => request OpCommand s (Some (command_line [] (Some [b64encode f]) (Some id))) (Some (add_option option_set (lit "WINRS_SKIP_CMD_SHELL") (py_bool false) [])) None)); [reflexivity|].
      intros s R. apply command_legible; assumption.
    - intros b B. destruct b as [e|]; [|pool]. specialize (B e eq_refl). apply keeps_then; [|intros _].
      + destruct (find_first _ e) as [x|] eqn:X; [|pool]. apply keeps_updps. intros p (P1 & P2). split; [exact P1|].
        pose proof (spoken_text x (spoken_first _ _ _ B X)) as T. unfold fit_opt, or_empty. cbn. destruct (x_text x); [exact T|constructor].
      + apply keeps_then; [pool|intros _]. apply keeps_each. intros g. apply keeps_send_to.
  Qed.
  Lemma keeps_inputs r : forall rest cur, keeps any (send_inputs E r cur rest).
  Proof.
    induction rest as [|nxt rest IH]; intros cur; cbn [send_inputs]; (destruct cur as [i|]; [|pool]); (apply keeps_then; [pool|intros id]); (apply keeps_then; [pool|intros fs]).
    - apply keeps_each. intros f. apply keeps_send_to.
    - apply keeps_then; [apply keeps_each; intros f; apply keeps_send_to|intros _; apply IH].
  Qed.
  Lemma keeps_begin r a : keeps any (begin_invoke E r a).
  Proof.
    unfold begin_invoke. apply keeps_then; [pool|intros p]. destruct (negb _); [pool|]. destruct (ps_commands p); [pool|]. apply keeps_then; [pool|intros ap].
    apply keeps_then; [apply keeps_invoke|intros _]. destruct (ia_input a) as [[i|[|c1 l1]]|]; [apply keeps_inputs|pool|apply keeps_inputs|pool].
  Qed.
  Lemma keeps_poll r t : keeps any (poll_invoke E r t).
  Proof.
    intros w F. unfold poll_invoke. pose proof (keeps_receive (Some (ps_id (the_ps r w))) t w F) as (A & B & _). destruct (receive E _ t w) as [o w']. cbn [fst snd] in *.
    destruct o as [ms|x].
    - assert (K : keeps any (updps r (fun p => set_ps_output (ps_output p ++ outputs_of ms) p) : M unit)) by pool.
      destruct (K w' A) as (C & D & _). split; [exact C|]. split; [eapply posts_trans; [exact B|exact D]|exact I].
    - destruct (is_code x operation_timeout); (split; [exact A|]; split; [exact B|exact I]).
  Qed.
  Lemma keeps_end fuel r : keeps any (end_invoke E fuel r).
  Proof.
    induction fuel as [|fuel IH]; intros w F; cbn [end_invoke]; destruct (negb _); try (split; [exact F|]; split; [apply posts_refl|exact I]).
    exact (keeps_then _ _ _ (keeps_poll r None) (fun _ => IH) w F).
  Qed.
  Lemma keeps_stop r : keeps any (ps_stop E r).
  Proof.
    unfold ps_stop. apply (keeps_bind fit_ps); [apply keeps_getps; intros p H; exact H|]. intros p (P1 & P2). destruct (in_states _ _); [pool|]. destruct (negb _); [pool|].
    apply keeps_then; [pool|intros _]. apply keeps_then; [apply keeps_signal; [apply fit_lit; reflexivity|apply fit_pool_upper, P1]|intros _].
    apply keeps_then; [pool|intros _]. apply keeps_unregister.
  Qed.
  Lemma keeps_metadata fuel id a : fit id -> keeps any (get_command_metadata E fuel id a).
  Proof.
    intros I. unfold get_command_metadata. apply keeps_then; [pool|intros st]. destruct (negb _); [pool|]. apply keeps_then; [apply keeps_create, I|intros r].
    apply keeps_then; [apply keeps_invoke|intros _]. apply keeps_then; [apply keeps_end|intros out]. destruct out; pool.
  Qed.
  Definition fit_op (o : op (Obj := Obj) (Cmd := Cmd)) : Prop :=
    match o with Metadata id _ | Create id | Nested _ id => fit id | _ => True end.
  Lemma keeps_op fuel o : fit_op o -> keeps any (run_op E fuel o).
  Proof.
    intros F. destruct o; cbn [run_op fit_op] in *; unfold void.
    - apply keeps_open.
    - apply keeps_close.
    - apply keeps_connect.
    - apply keeps_disconnect.
    - apply keeps_set_min.
    - apply keeps_set_max.
    - apply keeps_then; [apply keeps_available|pool].
    - apply keeps_reset.
    - apply keeps_exchange.
    - apply keeps_then; [apply keeps_alive|pool].
    - apply keeps_then; [apply keeps_metadata, F|pool].
    - apply keeps_then; [apply keeps_create, F|pool].
    - apply keeps_updps. intros p H. exact H.
    - apply keeps_then; [apply keeps_nested, F|pool].
    - apply keeps_begin.
    - apply keeps_poll.
    - apply keeps_then; [apply keeps_end|pool].
    - apply keeps_stop.
    - apply keeps_ps_close.
    - apply keeps_connect_async.
  Qed.
  Theorem ops_legible l : forall w : world, Forall (fun o => fit_op (snd o)) l -> fit_world w -> fit_world (run_ops E l w) /\ posts w (run_ops E l w).
  Proof.
    induction l as [|[fuel o] l IH]; intros w F W; cbn [run_ops]; [split; [exact W|apply posts_refl]|].
    destruct (keeps_op fuel o (Forall_inv F) w W) as (A & B & _). destruct (IH _ (Forall_inv_tail F) A) as (C & D). split; [exact C|eapply posts_trans; [exact B|exact D]].
  Qed.
End Job.
