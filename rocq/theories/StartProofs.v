(* The table of the messages that start things; instances that are made. *)
From Verif Require Import Base BaseProofs Lit NumModel TextModel TextSpec TextProofs MsgModel MsgSpec XmlModel SerModel SerClasses SerSpec SerSpec2 SerProofs3 SerProofs5 ClsSpec ClsProofs ClsProofs2 ClsProofs3 WfModel WfSpec WfProofs WfProofs2 WfProofs3 SendClasses ObjModel ObjSpec StartModel StartSpec.
Local Open Scope list_scope.

(* ---- the table ---- *)
Lemma sending_regular c d : sending c = Some d -> memb c irregular = false -> plainly_described sending_canon d.
Proof.
  intros H Ne. apply dict_get_in in H. apply plainb_ok.
  assert (K : forallb (fun e => (memb (fst e) irregular || plainb sending_canon (snd e))%bool) sending_classes = true) by (vm_compute; reflexivity).
  rewrite forallb_forall in K. specialize (K _ H). cbn [fst snd] in K. rewrite Ne in K. exact K.
Qed.
Lemma sending_coded ts : In ts sending_names -> coded sending_canon ts.
Proof.
  intros H. apply codedb_ok. assert (K : forallb (codedb sending_canon) sending_names = true) by (vm_compute; reflexivity).
  rewrite forallb_forall in K. exact (K ts H).
Qed.
Lemma sending_tidy : tidy_classes sending.
Proof.
  intros c d H. apply dict_get_in in H.
  assert (K : forallb (fun e => (forallb rawb (cd_types (snd e)) && forallb (fun a => tidyb (snd a)) (attributes (snd e)))%bool) sending_classes = true) by (vm_compute; reflexivity).
  rewrite forallb_forall in K. specialize (K _ H). cbn [snd] in K. apply andb_true_iff in K. destruct K as (K1 & K2). split; [exact (rawsb_ok _ K1)|].
  intros a m Hi. rewrite forallb_forall in K2. apply tidyb_ok. exact (K2 _ Hi).
Qed.
Definition sdescribed (c : list N) : cdesc := match sending c with Some d => d | None => simple [] [] [] end.
Definition sknown (c : list N) : bool := match sending c with Some _ => true | None => false end.
Lemma sdescribed_ok c : sknown c = true -> sending c = Some (sdescribed c).
Proof. unfold sknown, sdescribed. destruct (sending c); [reflexivity|discriminate]. Qed.

(* ---- more instances ---- *)
Definition ext (h h' : list hobj) : Prop := exists e, h' = h ++ e.
Lemma ext_refl h : ext h h. Proof. exists []. rewrite app_nil_r. reflexivity. Qed.
Lemma ext_trans a b c : ext a b -> ext b c -> ext a c.
Proof. intros (x & ->) (y & ->). exists (x ++ y). rewrite app_assoc. reflexivity. Qed.
Lemma ext_nth h h' n o : ext h h' -> nth_error h n = Some o -> nth_error h' n = Some o.
Proof. intros (e & ->) H. rewrite nth_error_app1; [exact H|]. apply nth_error_Some. rewrite H. discriminate. Qed.
Lemma conforms_ext ci float_of classes canon sd rw h h' m v : ext h h' -> conforms ci float_of classes canon h sd rw m v -> conforms ci float_of classes canon h' sd rw m v.
Proof.
  intros X C. induction C.
  - apply cf_none. assumption.
  - apply cf_scalar. assumption.
  - apply cf_star. assumption.
  - apply cf_tagged. assumption.
  - apply cf_members. assumption.
  - apply cf_dict; assumption.
  - apply cf_dictmeta; assumption.
  - eapply cf_known; try eassumption. eapply ext_nth; eassumption.
  - eapply cf_class; try eassumption. eapply ext_nth; eassumption.
  - apply cf_list; assumption.
Qed.

Definition at_ (h : list hobj) (v : value) (o : hobj) : Prop := exists n, v = VObj n /\ nth_error h n = Some o.
Lemma at_ext h h' v o : ext h h' -> at_ h v o -> at_ h' v o.
Proof. intros X (n & -> & H). exists n. split; [reflexivity|]. exact (ext_nth _ _ _ _ X H). Qed.
Lemma put_at h o h' v : put h o = (h', v) -> ext h h' /\ at_ h' v o.
Proof.
  intros H. unfold put in H. apply pair_inj in H. destruct H as (<- & <-). split; [exists [o]; reflexivity|]. exists (length h). split; [reflexivity|].
  rewrite nth_error_app2 by apply le_n. rewrite Nat.sub_diag. reflexivity.
Qed.
Lemma Forall2_weaken {A B} (P Q : A -> B -> Prop) l m : (forall a b, P a b -> Q a b) -> Forall2 P l m -> Forall2 Q l m.
Proof. intros H F. induction F; constructor; auto. Qed.
Lemma put_all_at {A} (f : list hobj -> A -> list hobj * value) (B : list hobj -> A -> value -> Prop) :
  (forall h a h' v, f h a = (h', v) -> ext h h' /\ B h' a v) -> (forall h h' a v, ext h h' -> B h a v -> B h' a v) ->
  forall l h h' vs, put_all f h l = (h', vs) -> ext h h' /\ Forall2 (B h') l vs.
Proof.
  intros F M l. induction l as [|a l IH]; intros h h' vs E; cbn [put_all] in E.
  - apply pair_inj in E. destruct E as (<- & <-). split; [apply ext_refl|constructor].
  - destruct (f h a) as [h1 v] eqn:E1. destruct (put_all f h1 l) as [h2 ws] eqn:E2. apply pair_inj in E. destruct E as (<- & <-).
    destruct (F _ _ _ _ E1) as (X1 & B1). destruct (IH _ _ _ E2) as (X2 & B2). split; [exact (ext_trans _ _ _ X1 X2)|]. constructor; [exact (M _ _ _ _ X2 B1)|exact B2].
Qed.

(* ---- what is made ---- *)
Definition built_stream (h : list hobj) (p : option prt) (v : value) : Prop := match p with Some q => at_ h v (prt_instance q) | None => v = VNone end.
Definition argument_instance (a : option (list N) * value) : hobj :=
  instance "CommandParameter" [("name"%string, maybe_text (fst a)); ("value"%string, snd a); ("_to_string"%string, VNone)].
Definition built_argument (h : list hobj) (a : option (list N) * value) (v : value) : Prop := at_ h v (argument_instance a).
Definition command_instance (c : command value) (ms args : list value) : hobj :=
  instance "Command"
    ([("cmd", VStr (c_cmd c)); ("is_script", VBool (c_script c)); ("use_local_scope", maybe_flag (c_scope c))]%string
     ++ combine stream_names ms ++ [("args", VList args); ("_to_string", VNone)]%string).
Definition built_command (h : list hobj) (c : command value) (v : value) : Prop :=
  exists ms args, Forall2 (built_stream h) (streams c) ms /\ Forall2 (built_argument h) (c_args c) args /\ at_ h v (command_instance c ms args).
Definition extra_instance (vs : list value) : hobj := instance "Pipeline._ExtraCmds" [("cmds"%string, VList vs); ("_to_string"%string, VNone)].
Definition built_extra (h : list hobj) (s : list (command value)) (v : value) : Prop :=
  exists vs, Forall2 (built_command h) s vs /\ at_ h v (extra_instance vs).
Lemma stream_ext h h' p v : ext h h' -> built_stream h p v -> built_stream h' p v.
Proof. intros X. destruct p; [exact (at_ext _ _ _ _ X)|intros H; exact H]. Qed.
Lemma argument_ext h h' a v : ext h h' -> built_argument h a v -> built_argument h' a v.
Proof. intros X. exact (at_ext _ _ _ _ X). Qed.
Lemma command_ext h h' c v : ext h h' -> built_command h c v -> built_command h' c v.
Proof.
  intros X (ms & args & A & B & C). exists ms, args. split; [|split].
  - exact (Forall2_weaken _ _ _ _ (fun p w => stream_ext h h' p w X) A).
  - exact (Forall2_weaken _ _ _ _ (fun p w => argument_ext h h' p w X) B).
  - exact (at_ext _ _ _ _ X C).
Qed.
Lemma extra_ext h h' s v : ext h h' -> built_extra h s v -> built_extra h' s v.
Proof.
  intros X (vs & A & B). exists vs. split; [exact (Forall2_weaken _ _ _ _ (fun c w => command_ext h h' c w X) A)|exact (at_ext _ _ _ _ X B)].
Qed.
Lemma put_stream_at h p h' v : put_stream h p = (h', v) -> ext h h' /\ built_stream h' p v.
Proof.
  destruct p as [q|]; cbn [put_stream built_stream]; intros H; [exact (put_at _ _ _ _ H)|]. apply pair_inj in H. destruct H as (<- & <-). split; [apply ext_refl|reflexivity].
Qed.
Lemma put_argument_at h a h' v : put_argument h a = (h', v) -> ext h h' /\ built_argument h' a v.
Proof. exact (put_at _ _ _ _). Qed.
Lemma put_command_at h c h' v : put_command h c = (h', v) -> ext h h' /\ built_command h' c v.
Proof.
  unfold put_command. destruct (put_all put_stream h (streams c)) as [h1 ms] eqn:E1. destruct (put_all put_argument h1 (c_args c)) as [h2 args] eqn:E2. intros H.
  destruct (put_all_at _ built_stream put_stream_at stream_ext _ _ _ _ E1) as (X1 & B1).
  destruct (put_all_at _ built_argument put_argument_at argument_ext _ _ _ _ E2) as (X2 & B2).
  destruct (put_at _ _ _ _ H) as (X3 & B3).
  split; [exact (ext_trans _ _ _ X1 (ext_trans _ _ _ X2 X3))|]. exists ms, args. split; [|split; [|exact B3]].
  - exact (Forall2_weaken _ _ _ _ (fun p w => stream_ext _ _ p w (ext_trans _ _ _ X2 X3)) B1).
  - exact (Forall2_weaken _ _ _ _ (fun p w => argument_ext _ _ p w X3) B2).
Qed.
Lemma put_extra_at h s h' v : put_extra h s = (h', v) -> ext h h' /\ built_extra h' s v.
Proof.
  unfold put_extra. destruct (put_all put_command h s) as [h1 vs] eqn:E1. intros H.
  destruct (put_all_at _ built_command put_command_at command_ext _ _ _ _ E1) as (X1 & B1). destruct (put_at _ _ _ _ H) as (X2 & B2).
  split; [exact (ext_trans _ _ _ X1 X2)|]. exists vs. split; [exact (Forall2_weaken _ _ _ _ (fun c w => command_ext _ _ c w X2) B1)|exact B2].
Qed.
Definition pipeline_instance (nested : bool) (first rest : value) (history : option (list N)) (redirect : bool) : hobj :=
  instance "Pipeline" [("is_nested", VBool nested); ("_extra_cmds", rest); ("_cmds", first); ("history", maybe_text history);
     ("redirect_err_to_out", VBool redirect); ("_to_string", VNone)]%string.
Definition built_statements (h : list hobj) (ss : list (list (command value))) (first rest : value) : Prop :=
  exists s ss', ss = s :: ss' /\ (exists vs, first = VList vs /\ Forall2 (built_command h) s vs) /\
    match ss' with [] => rest = VNone | _ => exists vs, rest = VList vs /\ Forall2 (built_extra h) ss vs end.
Definition built_pipeline (h : list hobj) (nested : bool) (ss : list (list (command value))) (history : option (list N)) (redirect : bool) (v : value) : Prop :=
  exists first rest, built_statements h ss first rest /\ at_ h v (pipeline_instance nested first rest history redirect).
Lemma statements_ext h h' ss first rest : ext h h' -> built_statements h ss first rest -> built_statements h' ss first rest.
Proof.
  intros X (s & ss' & -> & (vs & -> & A) & B). exists s, ss'. split; [reflexivity|]. split.
  - exists vs. split; [reflexivity|]. exact (Forall2_weaken _ _ _ _ (fun c w => command_ext h h' c w X) A).
  - destruct ss' as [|s2 ss']; [exact B|]. destruct B as (ws & -> & B). exists ws. split; [reflexivity|]. exact (Forall2_weaken _ _ _ _ (fun c w => extra_ext h h' c w X) B).
Qed.
Lemma pipeline_ext h h' nested ss history redirect v : ext h h' -> built_pipeline h nested ss history redirect v -> built_pipeline h' nested ss history redirect v.
Proof.
  intros X (first & rest & A & B). exists first, rest. split; [exact (statements_ext _ _ _ _ _ X A)|exact (at_ext _ _ _ _ X B)].
Qed.
Lemma put_pipeline_at h nested cs history redirect h' v : put_pipeline h nested cs history redirect = Ok (h', v) ->
  exists ss, get_statements cs = Ok ss /\ ext h h' /\ built_pipeline h' nested ss history redirect v.
Proof.
  unfold put_pipeline, pipeline_extra, pipeline_cmds. destruct (get_statements cs) as [ss|e] eqn:E; [|discriminate]. cbn [bind]. destruct ss as [|s ss]; [discriminate|]. cbn [bind].
  intros H. exists (s :: ss). split; [reflexivity|].
  assert (K : exists h1 rest, (if Nat.ltb (length (s :: ss)) 2 then (h, VNone) else let '(h1, vs) := put_all put_extra h (s :: ss) in (h1, VList vs)) = (h1, rest) /\ ext h h1 /\
    match ss with [] => rest = VNone | _ => exists vs, rest = VList vs /\ Forall2 (built_extra h1) (s :: ss) vs end).
  { destruct ss as [|s2 ss]; [exists h, VNone; split; [reflexivity|]; split; [apply ext_refl|reflexivity]|].
    cbn [length Nat.ltb Nat.leb]. destruct (put_all put_extra h (s :: s2 :: ss)) as [h1 vs] eqn:E1. exists h1, (VList vs). split; [reflexivity|].
    destruct (put_all_at _ built_extra put_extra_at extra_ext _ _ _ _ E1) as (X & B). split; [exact X|]. exists vs. split; [reflexivity|exact B]. }
  destruct K as (h1 & rest & K1 & X1 & K2).
  assert (Em : (match (if Nat.ltb (length (s :: ss)) 2 then None else Some (s :: ss)) with None => (h, VNone) | Some ss0 => let '(h2, vs) := put_all put_extra h ss0 in (h2, VList vs) end) = (h1, rest)).
  { rewrite <- K1. destruct (Nat.ltb (length (s :: ss)) 2); reflexivity. }
  rewrite Em in H. destruct (put_all put_command h1 s) as [h2 vs] eqn:E2. apply Ok_inj in H.
  destruct (put_all_at _ built_command put_command_at command_ext _ _ _ _ E2) as (X2 & B2). destruct (put_at _ _ _ _ H) as (X3 & B3).
  split; [exact (ext_trans _ _ _ X1 (ext_trans _ _ _ X2 X3))|]. exists (VList vs), rest. split; [|exact B3].
  exists s, ss. split; [reflexivity|]. split.
  - exists vs. split; [reflexivity|]. exact (Forall2_weaken _ _ _ _ (fun c w => command_ext _ _ c w X3) B2).
  - destruct ss as [|s2 ss]; [exact K2|]. destruct K2 as (ws & -> & K2). exists ws. split; [reflexivity|].
    exact (Forall2_weaken _ _ _ _ (fun c w => extra_ext _ _ c w (ext_trans _ _ _ X2 X3)) K2).
Qed.
Definition host_instance (hs : option host) (d : value) : hobj :=
  instance "HostInfo"
    [("_host_data", d); ("_is_host_null", VBool (is_host_null hs)); ("_is_host_ui_null", VBool (is_host_ui_null hs));
     ("_is_host_raw_ui_null", VBool (is_host_raw_ui_null hs)); ("_use_runspace_host", VBool (use_runspace_host hs)); ("_to_string", VNone)]%string.
Lemma put_host_at h hs h' v : (forall r, hs <> Some (Some (Some r))) -> put_host h hs = (h', v) -> ext h h' /\ at_ h' v (host_instance hs VNone).
Proof.
  intros N. unfold put_host. assert (E : host_data hs = None) by (destruct hs as [[[r|]|]|]; [exfalso; exact (N r eq_refl)|reflexivity|reflexivity|reflexivity]).
  rewrite E. exact (put_at _ _ _ _).
Qed.
Definition start_instance (p : pool) (q : start) (av sv hv pv : value) : hobj :=
  instance "CreatePipeline"
    [("no_input", VBool (no_input q)); ("apartment_state", av); ("remote_stream_options", sv); ("add_to_history", VBool (q_history q));
     ("host_info", hv); ("pipeline", pv); ("is_nested", VBool (q_nested q)); ("_to_string", VNone)]%string.
Definition enum_instance (c : String.string) (z : Z) : hobj := instance c [("value"%string, VInt z)].
Lemma put_start_at h p q h' v : (forall r, pl_host p <> Some (Some (Some r))) -> put_start h p q = Ok (h', v) -> ext h h' /\
  exists ss av sv hv pv, get_statements (q_commands q) = Ok ss /\ at_ h' v (start_instance p q av sv hv pv) /\ at_ h' av (enum_instance "ApartmentState" (apartment_used p q)) /\
    at_ h' sv (enum_instance "RemoteStreamOptions" (q_options q)) /\ at_ h' hv (host_instance (pl_host p) VNone) /\ built_pipeline h' (q_nested q) ss (q_text q) (q_redirect q) pv.
Proof.
  intros N. unfold put_start. destruct (put_host h (pl_host p)) as [h1 hv] eqn:E1. destruct (put_pipeline h1 (q_nested q) (q_commands q) (q_text q) (q_redirect q)) as [[h2 pv]|e] eqn:E2; [|discriminate].
  cbn [bind]. destruct (put_enum "ApartmentState" h2 (apartment_used p q)) as [h3 av] eqn:E3. destruct (put_enum "RemoteStreamOptions" h3 (q_options q)) as [h4 sv] eqn:E4. intros H. apply Ok_inj in H.
  destruct (put_host_at _ _ _ _ N E1) as (X1 & B1). destruct (put_pipeline_at _ _ _ _ _ _ _ E2) as (ss & Es & X2 & B2). apply put_at in E3. destruct E3 as (X3 & B3). apply put_at in E4. destruct E4 as (X4 & B4).
  apply put_at in H. destruct H as (X5 & B5). pose proof (ext_trans _ _ _ X4 X5) as X45. pose proof (ext_trans _ _ _ X3 X45) as X345. pose proof (ext_trans _ _ _ X2 X345) as X2345.
  split; [exact (ext_trans _ _ _ X1 X2345)|]. exists ss, av, sv, hv, pv. split; [exact Es|]. split; [exact B5|]. split; [exact (at_ext _ _ _ _ X45 B3)|]. split; [exact (at_ext _ _ _ _ X5 B4)|].
  split; [exact (at_ext _ _ _ _ X2345 B1)|exact (pipeline_ext _ _ _ _ _ _ _ X345 B2)].
Qed.
Definition open_instance (p : pool) (tv av hv arguments : value) : hobj :=
  instance "InitRunspacePool"
    [("min_runspaces", VInt (pl_min p)); ("max_runspaces", VInt (pl_max p)); ("thread_options", tv); ("apartment_state", av);
     ("host_info", hv); ("application_arguments", arguments); ("_to_string", VNone)]%string.
Lemma put_open_at h p arguments h' v : (forall r, pl_host p <> Some (Some (Some r))) -> put_open h p arguments = (h', v) -> ext h h' /\
  exists tv av hv, at_ h' v (open_instance p tv av hv arguments) /\ at_ h' tv (enum_instance "PSThreadOptions" (pl_thread p)) /\
    at_ h' av (enum_instance "ApartmentState" (pl_apartment p)) /\ at_ h' hv (host_instance (pl_host p) VNone).
Proof.
  intros N. unfold put_open. destruct (put_enum "PSThreadOptions" h (pl_thread p)) as [h1 tv] eqn:E1. destruct (put_enum "ApartmentState" h1 (pl_apartment p)) as [h2 av] eqn:E2.
  destruct (put_host h2 (pl_host p)) as [h3 hv] eqn:E3. intros H. apply put_at in E1. destruct E1 as (X1 & B1). apply put_at in E2. destruct E2 as (X2 & B2).
  destruct (put_host_at _ _ _ _ N E3) as (X3 & B3). apply put_at in H. destruct H as (X4 & B4). pose proof (ext_trans _ _ _ X3 X4) as X34. pose proof (ext_trans _ _ _ X2 X34) as X234.
  split; [exact (ext_trans _ _ _ X1 X234)|]. exists tv, av, hv. split; [exact B4|]. split; [exact (at_ext _ _ _ _ X234 B1)|]. split; [exact (at_ext _ _ _ _ X34 B2)|exact (at_ext _ _ _ _ X4 B3)].
Qed.
