(* C72: the messages that tell the server of the host *)
From Verif Require Import Base BaseProofs Lit NumModel NumProofs TextModel TextSpec Utf8Model MsgModel MsgSpec MsgProofs XmlModel XtModel SerModel SerClasses WfModel WireModel SendClasses ObjModel ObjSpec StartModel TellModel LibModel
  StartProofs FormSpec FormSpec2 FormProofs FormProofs2 FormProofs5 ScreenSpec ScreenProofs.
From Verif Require PeerProofs PoolModel TellProofs3 ObjProofs2.
Import PoolModel (omsg, OCapability, OInit, OConnect, OSetMin, OSetMax, OAvailable, OReset, OPublicKey, OPoolResponse, OPipelineResponse, OCreate, OMetadata, OInput, OEnd).
Require Import Lia.
Local Open Scope list_scope.

(* ---- the instances ---- *)
Lemma ext_length h h' : ext h h' -> (length h <= length h')%nat.
Proof. intros (e & ->). rewrite app_length. lia. Qed.
Lemma placed_ext h h' lo e v hi : ext h h' -> placed h lo e v hi -> placed h' lo e v hi.
Proof.
  intros X P. destruct e; cbn [placed] in *; destruct P as (P1 & P2 & P3); split; try exact P1; split; try exact P2;
    try exact (ext_nth _ _ _ _ X P3); destruct P3 as (P3 & P4); (split; [exact (ext_nth _ _ _ _ X P3)|exact (ext_nth _ _ _ _ X P4)]).
Qed.
Lemma chain_ext h h' lo es vs hi : ext h h' -> chain h lo es vs hi -> chain h' lo es vs hi.
Proof. intros X. induction 1 as [lo|lo e v mid es vs hi P _ IH]; [constructor|]. econstructor; [exact (placed_ext _ _ _ _ _ _ X P)|exact IH]. Qed.
Lemma nth_put (h : list hobj) o : nth_error (h ++ [o]) (length h) = Some o.
Proof. rewrite nth_error_app2 by lia. rewrite Nat.sub_diag. reflexivity. Qed.
Lemma put_hentry_placed h e h' v : put_hentry h e = (h', v) -> ext h h' /\ placed h' (length h) e v (length h').
Proof.
  destruct e as [z|x y|x y|z|s]; unfold put_hentry, put; intros H; apply pair_inj in H; destruct H as (<- & <-).
  1, 4, 5: split; [eexists; reflexivity|]; cbn [placed]; split; [reflexivity|]; split; [rewrite app_length; cbn [length]; lia|apply nth_put].
  - split; [rewrite <- app_assoc; eexists; reflexivity|]. cbn [placed]. rewrite !app_length. cbn [length]. split; [f_equal; lia|]. split; [lia|]. split.
    + rewrite <- app_assoc. rewrite nth_error_app2 by lia. rewrite Nat.sub_diag. reflexivity.
    + pose proof (nth_put (h ++ [generic [("x"%string, VInt x); ("y"%string, VInt y)]]) (instance "_HostDefaultData._Coordinates" [("type"%string, VStr (lit "System.Management.Automation.Host.Coordinates")); ("value"%string, VObj (length h)); ("_to_string"%string, VNone)])) as Q.
      rewrite app_length in Q. cbn [length] in Q. replace (length h + 1)%nat with (S (length h)) in Q by lia. exact Q.
  - split; [rewrite <- app_assoc; eexists; reflexivity|]. cbn [placed]. rewrite !app_length. cbn [length]. split; [f_equal; lia|]. split; [lia|]. split.
    + rewrite <- app_assoc. rewrite nth_error_app2 by lia. rewrite Nat.sub_diag. reflexivity.
    + pose proof (nth_put (h ++ [generic [("width"%string, VInt x); ("height"%string, VInt y)]]) (instance "_HostDefaultData._Size" [("type"%string, VStr (lit "System.Management.Automation.Host.Size")); ("value"%string, VObj (length h)); ("_to_string"%string, VNone)])) as Q.
      rewrite app_length in Q. cbn [length] in Q. replace (length h + 1)%nat with (S (length h)) in Q by lia. exact Q.
Qed.
Lemma put_all_chain es : forall h h' vs, put_all put_hentry h es = (h', vs) -> ext h h' /\ chain h' (length h) es vs (length h').
Proof.
  induction es as [|e es IH]; intros h h' vs H; cbn [put_all] in H.
  - apply pair_inj in H. destruct H as (<- & <-). split; [apply ext_refl|constructor].
  - destruct (put_hentry h e) as (h1 & v) eqn:E1. destruct (put_all put_hentry h1 es) as (h2 & vs1) eqn:E2. apply pair_inj in H. destruct H as (<- & <-).
    destruct (put_hentry_placed _ _ _ _ E1) as (X1 & P1). destruct (IH _ _ _ E2) as (X2 & C2). split; [exact (ext_trans _ _ _ X1 X2)|]. econstructor; [exact (placed_ext _ _ _ _ _ _ X2 P1)|exact C2].
Qed.
Lemma hosted_ext h h' hs v : ext h h' -> hosted h hs v -> hosted h' hs v.
Proof.
  unfold hosted. intros X. destruct (host_data hs) as [d|]; [|apply at_ext; exact X]. intros (w & lo & hi & vs & A1 & A2 & C & L). exists w, lo, hi, vs.
  split; [exact (at_ext _ _ _ _ X A1)|]. split; [exact (at_ext _ _ _ _ X A2)|]. split; [exact (chain_ext _ _ _ _ _ _ X C)|exact L].
Qed.
Lemma put_host_hosted h hs h' v : put_host h hs = (h', v) -> ext h h' /\ hosted h' hs v.
Proof.
  unfold put_host, hosted. destruct (host_data hs) as [d|].
  - destruct (put_host_data h d) as (h1 & w) eqn:E1. intros H. unfold put_host_data in E1. destruct (put_all put_hentry h (map snd d)) as (h0 & vs) eqn:E0.
    destruct (put_all_chain _ _ _ _ E0) as (X0 & C0). apply put_at in E1. destruct E1 as (X1 & A1). apply put_at in H. destruct H as (X2 & A2). split; [exact (ext_trans _ _ _ X0 (ext_trans _ _ _ X1 X2))|].
    exists w, (length h), (length h0), vs. split; [exact A2|]. split; [exact (at_ext _ _ _ _ X2 A1)|]. split; [exact (chain_ext _ _ _ _ _ _ (ext_trans _ _ _ X1 X2) C0)|exact (ext_length _ _ X0)].
  - intros H. exact (put_at _ _ _ _ H).
Qed.

(* ---- the properties before that of the host ---- *)
Section Tell.
  Context (ci : option cipher) (show : value -> list N) (heap : list hobj).
  Notation ser := (ser ci show sending heap).
  (* elements without the name of the host, and no object remembered *)
  Definition silent (xs : list xml) : Prop := forall x, In x xs -> called (lit "HostInfo") x = false.
  Lemma silent_app xs ys : silent xs -> silent ys -> silent (xs ++ ys).
  Proof. intros A B x Hx. apply in_app_or in Hx. destruct Hx as [Hx|Hx]; [exact (A x Hx)|exact (B x Hx)]. Qed.
  Lemma silent_find xs ys : silent xs -> find (called (lit "HostInfo")) (xs ++ ys) = find (called (lit "HostInfo")) ys.
  Proof. intros S. induction xs as [|x xs IH]; [reflexivity|]. cbn [app find]. rewrite (S x (or_introl eq_refl)). apply IH. intros y Hy. exact (S y (or_intror Hy)). Qed.
  Lemma ser_silent fuel v m st ox m' st' n : ser fuel v m st = Ok (ox, m', st') -> m_name m = Some n -> str_eqb n (lit "HostInfo") = false -> silent (opt_list ox).
  Proof.
    intros H Hn Hf. destruct (ser_shape ci show heap _ _ _ _ _ _ _ H) as [->|(y & ->)]; cbn [opt_list]; intros x Hx; [destruct Hx|]. destruct Hx as [<-|[]].
    unfold called. destruct (named_attr m y) as [E|E]; [|congruence]. rewrite E, Hn. exact Hf.
  Qed.
  Lemma flat_quiet tag n v fuel st ys st1 : (forall k, v <> VObj k) -> (forall y, v <> VXml y) -> tag = "I32"%string \/ tag = "B"%string -> str_eqb (lit n) (lit "HostInfo") = false ->
    create_obj (ser fuel) v None (Some (pm tag n false)) st = Ok (ys, st1) -> silent ys /\ st1 = st.
  Proof.
    intros No Nx T Hn H. unfold create_obj in H. assert (E : match v with VObj n => find_ref n (s_objs st) | _ => None end = None) by (destruct v; try reflexivity; exfalso; exact (No _ eq_refl)). rewrite E in H.
    apply bind_ok in H. destruct H as (((ox & m') & st2) & H & E2). apply Ok_pair_inj in E2. destruct E2 as (<- & <-). split; [exact (ser_silent _ _ _ _ _ _ _ (lit n) H eq_refl Hn)|].
    destruct fuel as [|fuel]; [discriminate H|]. cbn [SerModel.ser] in H.
    assert (K : forall e : res (list N), pack_text ci show (set_tag (lit tag) (pm tag n false)) (lit tag) v = Some e -> existsb (str_eqb (lit tag)) known_tags = true -> str_eqb (lit tag) star = false -> st2 = st).
    { intros e P1 P2 P3. change (m_tag (pm tag n false)) with (lit tag) in H. rewrite P3 in H.
      destruct v; cbv beta iota zeta in H; rewrite ?P2 in H; cbn [negb] in H; rewrite ?P1 in H; cbn [m_optional pm] in H;
        first [ apply bind_ok in H; destruct H as (s0 & _ & H); apply Ok_pair_inj in H; destruct H as (_ & <-); reflexivity
              | apply Ok_pair_inj in H; destruct H as (_ & <-); reflexivity
              | exfalso; exact (Nx _ eq_refl) ]. }
    destruct T as [-> | ->]; (eapply K; reflexivity).
  Qed.
  Definition enum_like (c : list N) : Prop :=
    sknown c = true /\ cd_sets (sdescribed c) = [(lit "value", Meta KPlain (lit "I32") None false None)] /\ cd_extended (sdescribed c) = [] /\ cd_adapted (sdescribed c) = [].
  Lemma enum_quiet c z n v fuel st ys st1 : enum_like (lit c) -> at_ heap v (enum_instance c z) -> str_eqb (lit n) (lit "HostInfo") = false -> s_objs st = [] ->
    create_obj (ser fuel) v None (Some (cm c n false)) st = Ok (ys, st1) -> silent ys /\ s_objs st1 = [].
  Proof.
    intros (B1 & B2 & B3 & B4) (k & -> & Hk) Hn So H. apply sdescribed_ok in B1. unfold create_obj in H. rewrite So in H. cbn [find_ref] in H.
    apply bind_ok in H. destruct H as (((ox & m') & st2) & H & E2). apply Ok_pair_inj in E2. destruct E2 as (<- & <-). split; [exact (ser_silent _ _ _ _ _ _ _ (lit n) H eq_refl Hn)|].
    destruct fuel as [|f]; [discriminate H|]. cbn [SerModel.ser] in H. change (m_tag (cm c n false)) with (lit "Obj") in H. change (str_eqb (lit "Obj") star) with false in H. cbv beta iota zeta in H.
    change (negb (existsb (str_eqb (lit "Obj")) known_tags)) with false in H. change (pack_text ci show (set_tag (lit "Obj") (cm c n false)) (lit "Obj") (VObj k)) with (@None (res (list N))) in H. cbv iota in H.
    apply bind_ok in H. destruct H as (((x & m2) & st3) & H & E). apply Ok_pair_inj in E. destruct E as (_ & ->).
    unfold pack_struct in H. change (str_eqb (lit "Obj") (lit "Obj")) with true in H. cbv iota in H. apply bind_ok in H. destruct H as ((y & st4) & H & E). apply Ok_pair_inj in E. destruct E as (_ & ->).
    unfold ser_obj in H. destruct (take_id st) as (id & st0) eqn:Et. unfold enum_instance, instance in Hk. rewrite Hk, B1 in H. rewrite B2, B3, B4 in H.
    apply bind_ok in H. destruct H as ((tn & st5) & H1 & H). apply bind_ok in H. destruct H as (t & Ht & H). apply bind_ok in H. destruct H as (ts & Hts & H).
    apply bind_ok in H. destruct H as ((sets & st6) & H2 & H). cbn [ser_group bind] in H. apply Ok_pair_inj in H. destruct H as (_ & <-).
    assert (S0 : s_objs st0 = []) by (unfold take_id in Et; apply pair_inj in Et; destruct Et as (_ & <-); exact So).
    assert (S5 : s_objs st5 = []).
    { unfold create_tn_if in H1. destruct (cd_types (sdescribed (lit c))) as [|a l]; [apply Ok_pair_inj in H1; destruct H1 as (_ & <-); exact S0|]. apply bind_ok in H1. destruct H1 as ((x1 & st7) & H1 & E). apply Ok_pair_inj in E. destruct E as (_ & ->).
      unfold create_tn in H1. destruct (dict_get str_eqb a (s_tn st0)); apply Ok_pair_inj in H1; destruct H1 as (_ & <-); exact S0. }
    apply attrs_cons in H2. destruct H2 as (v & xs1 & xs2 & st7 & E & H2 & H3 & ->). apply Some_inj in E. subst v. apply attrs_nil in H3. destruct H3 as (-> & ->).
    apply (create_leaf ci show heap "I32" (VInt z) (py_str z) _ (Meta KPlain (lit "I32") None false None) _ _ _ (sh_int ci "I32" z (or_introl eq_refl)) (or_introl eq_refl)) in H2. destruct H2 as (_ & ->). exact S5.
  Qed.

  Definition host_told (hs : option host) (t : xml) : Prop :=
    exists x, member (lit "HostInfo") t = Some x /\ flags x = Some (missing hs) /\ screen x = screen_of hs.
  Lemma plain_host hs : clear_title hs -> Forall plain_entry (match host_data hs with Some d => map snd d | None => [] end).
  Proof.
    destruct hs as [[[r|]|]|]; cbn [host_data is_host_raw_ui_null]; intros C; [|constructor|constructor|constructor]. cbn [host_dict map snd].
    repeat (constructor; [first [exact Logic.I|exact (PeerProofs.peer_roundtrip _ C)]|]). constructor.
  Qed.
  Lemma host_element hs v fuel st ys st1 : hosted heap hs v -> clear_title hs -> s_objs st = [] -> create_obj (ser fuel) v None (Some (cm "HostInfo" "HostInfo" false)) st = Ok (ys, st1) ->
    exists x, ys = [x] /\ called (lit "HostInfo") x = true /\ flags x = Some (missing hs) /\ screen x = screen_of hs.
  Proof.
    intros Ho Ct So H. assert (Hv : exists n, v = VObj n) by (unfold hosted in Ho; destruct (host_data hs) as [d|]; [destruct Ho as (w & lo & hi & vs & (n & -> & _) & _)|destruct Ho as (n & -> & _)]; exists n; reflexivity).
    destruct Hv as (n & ->). apply create_new in H; [|rewrite So; reflexivity]. destruct H as (ox & m' & H & ->).
    destruct (host_read ci show heap hs (VObj n) fuel st ox m' st1 false (Some (lit "HostInfo")) (Some (lit "HostInfo")) Ho (plain_host hs Ct) H So) as (x & -> & (F1 & F2 & F3 & F4) & Sc).
    exists x. split; [reflexivity|]. split.
    - destruct (ser_shape ci show heap _ _ _ _ _ _ _ H) as [E|(y & E)]; [discriminate E|]. apply Some_inj in E. subst x. unfold called. destruct (named_attr (cm "HostInfo" "HostInfo" false) y) as [E|E]; [|discriminate E]. rewrite E. reflexivity.
    - split; [unfold flags; rewrite F1, F2, F3, F4; destruct hs as [[[r|]|]|]; reflexivity|]. rewrite Sc. destruct hs as [[[r|]|]|]; reflexivity.
  Qed.
  Ltac given H := apply attrs_cons in H; let v := fresh "v" in let ys := fresh "ys" in let zs := fresh "zs" in let s1 := fresh "s1" in let E := fresh "E" in let C := fresh "C" in
    destruct H as (v & ys & zs & s1 & E & C & H & ->); apply Some_inj in E; subst v.
  Lemma count_object v k : count_value v <> VObj k. Proof. destruct v; discriminate. Qed.
  Lemma count_xml v k : count_value v <> VXml k. Proof. destruct v; discriminate. Qed.
  Lemma host_member hs a xs x zs : silent xs -> called (lit "HostInfo") x = true -> flags x = Some (missing hs) -> screen x = screen_of hs ->
    host_told hs (Elem (lit "Obj") a None [Elem (lit "MS") [] None (xs ++ [x] ++ zs)]).
  Proof. intros Hs Hx Hf Hc. exists x. split; [|auto]. unfold member. rewrite members_obj, (silent_find _ _ Hs). cbn [app find]. rewrite Hx. reflexivity. Qed.
  Lemma init_told hs mn mx tv av hv args t a v fuel ox m' st' : at_ heap tv (enum_instance "PSThreadOptions" t) -> at_ heap av (enum_instance "ApartmentState" a) -> hosted heap hs hv -> clear_title hs ->
    at_ heap v (instance "InitRunspacePool"
          [("min_runspaces", count_value mn); ("max_runspaces", count_value mx); ("thread_options", tv); ("apartment_state", av);
           ("host_info", hv); ("application_arguments", args); ("_to_string", VNone)]%string) ->
    ser fuel v any_meta clear_sst = Ok (ox, m', st') -> exists x, ox = Some x /\ host_told hs x.
  Proof.
    intros At Aa Ho Ct (n & -> & Hn) H.
    destruct (class_step ci show heap _ _ _ fuel any_meta clear_sst _ _ _ Hn ltac:(repeat split; try reflexivity; discriminate) (or_intror eq_refl) H) as (f & id & xs & -> & A & ->). eexists. split; [reflexivity|].
    change (cd_extended (sdescribed (lit "InitRunspacePool"))) with
      ([(lit "min_runspaces", pm "I32" "MinRunspaces" false); (lit "max_runspaces", pm "I32" "MaxRunspaces" false);
         (lit "thread_options", cm "PSThreadOptions" "PSThreadOptions" false);
         (lit "apartment_state", cm "ApartmentState" "ApartmentState" false); (lit "host_info", cm "HostInfo" "HostInfo" false)] ++ skipn 5 (cd_extended (sdescribed (lit "InitRunspacePool")))) in A.
    cbn [app] in A. given A. apply flat_quiet in C; [|apply count_object|apply count_xml|left; reflexivity|reflexivity]. destruct C as (Q1 & ->).
    given A. apply flat_quiet in C; [|apply count_object|apply count_xml|left; reflexivity|reflexivity]. destruct C as (Q2 & ->).
    given A. apply (enum_quiet "PSThreadOptions" t) in C; [|repeat split; reflexivity|exact At|reflexivity|reflexivity]. destruct C as (Q3 & S3).
    given A. apply (enum_quiet "ApartmentState" a) in C; [|repeat split; reflexivity|exact Aa|reflexivity|exact S3]. destruct C as (Q4 & S4).
    given A. destruct (host_element hs hv _ _ _ _ Ho Ct S4 C) as (x & -> & Hx & Hf & Hc). rewrite !app_assoc. rewrite <- app_assoc. apply host_member; [|exact Hx|exact Hf|exact Hc].
    repeat apply silent_app; assumption.
  Qed.
  Lemma create_told hs ni ap op hi av sv hv pv ne v fuel ox m' st' : at_ heap av (enum_instance "ApartmentState" ap) -> at_ heap sv (enum_instance "RemoteStreamOptions" op) -> hosted heap hs hv -> clear_title hs ->
    at_ heap v (instance "CreatePipeline"
      [("no_input", VBool ni); ("apartment_state", av); ("remote_stream_options", sv); ("add_to_history", VBool hi);
       ("host_info", hv); ("pipeline", pv); ("is_nested", VBool ne); ("_to_string", VNone)]%string) ->
    ser fuel v any_meta clear_sst = Ok (ox, m', st') -> exists x, ox = Some x /\ host_told hs x.
  Proof.
    intros Aa As Ho Ct (n & -> & Hn) H.
    destruct (class_step ci show heap _ _ _ fuel any_meta clear_sst _ _ _ Hn ltac:(repeat split; try reflexivity; discriminate) (or_intror eq_refl) H) as (f & id & xs & -> & A & ->). eexists. split; [reflexivity|].
    change (cd_extended (sdescribed (lit "CreatePipeline"))) with
      ([(lit "no_input", pm "B" "NoInput" false); (lit "apartment_state", cm "ApartmentState" "ApartmentState" false);
         (lit "remote_stream_options", cm "RemoteStreamOptions" "RemoteStreamOptions" false);
         (lit "add_to_history", pm "B" "AddToHistory" false); (lit "host_info", cm "HostInfo" "HostInfo" false)] ++ skipn 5 (cd_extended (sdescribed (lit "CreatePipeline")))) in A.
    cbn [app] in A. given A. apply flat_quiet in C; [|discriminate|discriminate|right; reflexivity|reflexivity]. destruct C as (Q1 & ->).
    given A. apply (enum_quiet "ApartmentState" ap) in C; [|repeat split; reflexivity|exact Aa|reflexivity|reflexivity]. destruct C as (Q2 & S2).
    given A. apply (enum_quiet "RemoteStreamOptions" op) in C; [|repeat split; reflexivity|exact As|reflexivity|exact S2]. destruct C as (Q3 & S3).
    given A. apply flat_quiet in C; [|discriminate|discriminate|right; reflexivity|reflexivity]. destruct C as (Q4 & ->).
    given A. destruct (host_element hs hv _ _ _ _ Ho Ct S3 C) as (x & -> & Hx & Hf & Hc). rewrite !app_assoc. rewrite <- app_assoc. apply host_member; [|exact Hx|exact Hf|exact Hc].
    repeat apply silent_app; assumption.
  Qed.
End Tell.

(* ---- what is sent ---- *)
Lemma put_pipeline_ok h nested cs history redirect : cs <> [] -> exists h2 v, put_pipeline h nested cs history redirect = Ok (h2, v).
Proof.
  intros Fn. destruct (ObjProofs2.statements_cut cs Fn) as (ss & Es & Cut). unfold put_pipeline, pipeline_extra, pipeline_cmds. rewrite Es. cbn [bind]. assert (Nz : ss <> []).
  { intros ->. destruct Cut as (E & _). cbn [concat map] in E. destruct cs; [exact (Fn eq_refl)|discriminate E]. }
  destruct ss as [|s ss]; [contradiction|]. cbn [bind]. match goal with |- context [match ?x with None => _ | Some _ => _ end] => destruct x end;
    [match goal with |- context [put_all put_extra ?a ?b] => destruct (put_all put_extra a b) end|];
    match goal with |- context [put_all put_command ?a ?b] => destruct (put_all put_command a b) end; do 2 eexists; reflexivity.
Qed.
Definition tells_host (o : omsg graph (command value)) : Prop :=
  match o with OInit _ _ _ _ _ => True | OCreate _ _ _ _ cs _ _ _ => cs <> [] | _ => False end.
Lemma sent_host ci show heap hs o fuel ox m' st' : tells_host o -> clear_title hs -> ser ci show sending (fst (sent heap hs o)) fuel (snd (sent heap hs o)) any_meta clear_sst = Ok (ox, m', st') ->
  exists x, ox = Some x /\ host_told hs x.
Proof.
  intros T Ct. destruct o; try contradiction; cbn [sent tells_host] in *.
  - destruct (put_enum "PSThreadOptions" (fst (given arguments)) thread) as (h1 & tv) eqn:E1. destruct (put_enum "ApartmentState" h1 apartment) as (h2 & av) eqn:E2. destruct (put_host h2 hs) as (h3 & hv) eqn:E3.
    destruct (put h3 _) as (h4 & v) eqn:E4. cbn [fst snd]. intros H. apply put_at in E1. destruct E1 as (_ & A1). apply put_at in E2. destruct E2 as (X2 & A2). apply put_host_hosted in E3. destruct E3 as (X3 & A3). apply put_at in E4. destruct E4 as (X4 & A4).
    refine (init_told ci show h4 hs _ _ tv av hv _ thread apartment v fuel ox m' st' _ _ _ Ct A4 H).
    + exact (at_ext _ _ _ _ (ext_trans _ _ _ X2 (ext_trans _ _ _ X3 X4)) A1).
    + exact (at_ext _ _ _ _ (ext_trans _ _ _ X3 X4) A2).
    + exact (hosted_ext _ _ _ _ X4 A3).
  - unfold put_start. cbn [pl_host q_nested q_commands q_text q_redirect q_options q_history]. destruct (put_host heap hs) as (h1 & hv) eqn:E1.
    destruct (put_pipeline_ok h1 nested cmds history redirect T) as (h2 & pv & E2). rewrite E2. cbn [bind].
    destruct (put_enum "ApartmentState" h2 _) as (h3 & av) eqn:E3. destruct (put_enum "RemoteStreamOptions" h3 _) as (h4 & sv) eqn:E4. destruct (put h4 _) as (h5 & v) eqn:E5. cbn [fst snd]. intros H.
    apply put_host_hosted in E1. destruct E1 as (_ & A1). destruct (put_pipeline_at _ _ _ _ _ _ _ E2) as (ss & _ & X2 & _). apply put_at in E3. destruct E3 as (X3 & A3). apply put_at in E4. destruct E4 as (X4 & A4). apply put_at in E5. destruct E5 as (X5 & A5).
    refine (create_told ci show h5 hs _ _ _ _ av sv hv pv _ v fuel ox m' st' _ _ _ Ct A5 H).
    + exact (at_ext _ _ _ _ (ext_trans _ _ _ X4 X5) A3).
    + exact (at_ext _ _ _ _ X5 A4).
    + exact (hosted_ext _ _ _ _ (ext_trans _ _ _ X2 (ext_trans _ _ _ X3 (ext_trans _ _ _ X4 X5))) A1).
Qed.

Section Packed.
  Context {HS RK : Type} (x : outside HS RK) (fuel : nat) (heap : list hobj) (hs : option host) (key : option bytes).
  Theorem packed_host rid pid o b : PoolModel.packed (library_env x fuel heap hs) key rid pid o = Ok b -> tells_host o -> clear_title hs ->
    exists r p body t, guid_parse rid = Ok r /\ match pid with Some s => guid_parse s | None => Ok guid_zero end = Ok p /\ b = opening o ++ stored_guid r ++ stored_guid p ++ body /\
      tostring (x_registry x) t = Ok body /\ host_told hs t.
  Proof.
    intros H F Ct. unfold PoolModel.packed in H. apply bind_ok in H. destruct H as (m & H1 & H). unfold message_new in H1. apply bind_ok in H1. destruct H1 as (r & Hr & H1). apply bind_ok in H1. destruct H1 as (p & Hp & H1).
    apply Ok_inj in H1. subst m. unfold message_pack in H. cbn [m_type m_data m_dest m_rpid m_pid] in H. apply bind_ok in H. destruct H as (text & Ht & H). apply bind_ok in H. destruct H as (d & Hd & H). apply bind_ok in H. destruct H as (t & Hty & H).
    apply Ok_inj in H.
    pose proof (TellProofs3.guid_parse_is _ _ Hr) as Gr. assert (Gp : is_guid p) by (destruct pid as [s|]; [exact (TellProofs3.guid_parse_is _ _ Hp)|apply Ok_inj in Hp; subst p; vm_compute; split; [reflexivity|repeat constructor]]).
    rewrite (swap_le_stored r (proj1 Gr)), (swap_le_stored p (proj1 Gp)) in H. vm_compute in Hd. apply Ok_inj in Hd. subst d.
    assert (G : ser_text (library_codec x fuel key []) (sent heap hs o) = Ok text) by (destruct o; try contradiction; exact Ht).
    destruct (graph_written x fuel key _ _ G) as (ox & m' & st' & S1 & R). destruct (sent_host _ _ _ _ _ _ _ _ _ F Ct S1) as (y & -> & T).
    exists r, p, text, y. split; [exact Hr|]. split; [exact Hp|]. split; [|split; [exact R|exact T]].
    rewrite <- H. clear - Hty F. destruct o; try contradiction; vm_compute in Hty; apply Ok_inj in Hty; subst t; reflexivity.
  Qed.
End Packed.
