(* What is made fits the metadata, and its copies say what was asked for. *)
From Verif Require Import Base BaseProofs Lit NumModel TextModel TextSpec TextProofs MsgModel MsgSpec XmlModel SerModel SerClasses SerSpec SerSpec2 SerProofs3 SerProofs5 ClsSpec ClsProofs ClsProofs2 ClsProofs3 XtModel XtSpec WfModel WfSpec WfProofs WfProofs2 WfProofs3 SendClasses ObjModel ObjSpec ObjProofs ObjProofs2 StartModel StartSpec StartProofs.
Local Open Scope list_scope.

(* ---- texts ---- *)
Definition printable (s : list N) : bool := forallb (fun c => (N.leb 32 c && N.ltb c 127)%bool) s.
Lemma printable_said s : printable s = true -> said s.
Proof.
  intros H. apply Forall_forall. intros c Hc. unfold printable in H. rewrite forallb_forall in H. specialize (H c Hc). apply andb_true_iff in H. destruct H as (H1 & H2).
  apply N.leb_le in H1. apply N.ltb_lt in H2. split; [left; apply (N.lt_trans _ 127); [exact H2|reflexivity]|]. split; intros ->; discriminate H2.
Qed.
Lemma printable_sayable s : printable s = true -> sayable s.
Proof.
  intros H. pose proof (printable_said s H) as K. split; [|split; [|exact K]].
  - eapply Forall_impl; [|exact K]. intros c (A & _). exact A.
  - apply ascii_kept. apply forallb_forall. intros c Hc. unfold printable in H. rewrite forallb_forall in H. specialize (H c Hc). apply andb_true_iff in H. destruct H as (_ & H).
    apply N.ltb_lt in H. apply N.ltb_lt. apply (N.lt_trans _ 127); [exact H|reflexivity].
Qed.
Lemma printable_fair s : printable s = true -> fair_text said (Ok (VStr s)).
Proof. intros H. right. exists s. split; [reflexivity|]. exact (printable_sayable s H). Qed.

Lemma prt_said p t : prt_text p = Ok t -> result_text [(lit "value", VInt (p_value p)); (lit "protocol_version_2", VBool (p_v2 p))] = Ok (VStr t) /\ printable t = true.
Proof.
  destruct p as [[|] z]; unfold prt_text, enum_to_string, value_or_zero, prt_map; cbn [p_v2 p_value]; intros H.
  - unfold result_text. change (dict_get str_eqb (lit "protocol_version_2") [(lit "value", VInt z); (lit "protocol_version_2", VBool true)]) with (Some (VBool true)). cbv iota.
    unfold enum_text, enum_number. change (dict_get str_eqb (lit "value") [(lit "value", VInt z); (lit "protocol_version_2", VBool true)]) with (Some (VInt z)). cbv iota. cbn [bind].
    revert H. cbn [zassoc zget]. repeat (match goal with |- context [Z.eqb z ?k] => destruct (Z.eqb z k) eqn:?; [intros H; apply Ok_inj in H; subst t; split; reflexivity|] end). discriminate.
  - unfold result_text. change (dict_get str_eqb (lit "protocol_version_2") [(lit "value", VInt z); (lit "protocol_version_2", VBool false)]) with (Some (VBool false)). cbv iota.
    unfold enum_text, enum_number. change (dict_get str_eqb (lit "value") [(lit "value", VInt z); (lit "protocol_version_2", VBool false)]) with (Some (VInt z)). cbv iota. cbn [bind].
    revert H. unfold result_map. cbn [zassoc zget]. repeat (match goal with |- context [Z.eqb z ?k] => destruct (Z.eqb z k) eqn:?; [intros H; apply Ok_inj in H; subst t; split; reflexivity|] end). discriminate.
Qed.
Definition options_text : list (list N * value) -> res value := cd_text (sdescribed (lit "RemoteStreamOptions")).
Lemma options_written z : options_text [(lit "value", VInt z)] = Ok (VStr (remote_stream_options (Some z))).
Proof.
  change options_text with (flags_text 15 "AddInvocationInfo" [("AddInvocationInfoToErrorRecord", 1%Z); ("AddInvocationInfoToWarningRecord", 2%Z);
           ("AddInvocationInfoToDebugRecord", 4%Z); ("AddInvocationInfoToVerboseRecord", 8%Z)]%string).
  unfold flags_text, enum_number, remote_stream_options, value_or_zero.
  change (dict_get str_eqb (lit "value") [(lit "value", VInt z)]) with (Some (VInt z)). cbv iota. cbn [bind].
  destruct (Z.eqb z 15); [reflexivity|]. cbn [filter flag_values snd].
  destruct (Z.eqb (Z.land z 1) 1), (Z.eqb (Z.land z 2) 2), (Z.eqb (Z.land z 4) 4), (Z.eqb (Z.land z 8) 8); reflexivity.
Qed.
Lemma options_printable z : printable (remote_stream_options (Some z)) = true.
Proof.
  unfold remote_stream_options, value_or_zero. destruct (Z.eqb z 15); [reflexivity|]. cbn [flag_values].
  destruct (Z.eqb (Z.land z 1) 1), (Z.eqb (Z.land z 2) 2), (Z.eqb (Z.land z 4) 4), (Z.eqb (Z.land z 8) 8); reflexivity.
Qed.
Lemma options_named z : remote_stream_options (Some z) = options_name z.
Proof. unfold options_name. rewrite remote_stream_text. reflexivity. Qed.
Lemma names_find z (names : list (Z * list N)) : In z (map fst names) -> exists t, In (z, t) names.
Proof. intros H. apply in_map_iff in H. destruct H as ((k & t) & <- & H). exists t. exact H. Qed.
Lemma apartment_written z t : In (z, t) apartment_names -> cd_text (sdescribed (lit "ApartmentState")) [(lit "value", VInt z)] = Ok (VStr t) /\ printable t = true.
Proof.
  intros [H|[H|[H|[]]]]; apply pair_inj in H; destruct H as (<- & <-); split; vm_compute; reflexivity.
Qed.
Lemma thread_written z t : In (z, t) thread_names -> cd_text (sdescribed (lit "PSThreadOptions")) [(lit "value", VInt z)] = Ok (VStr t) /\ printable t = true.
Proof.
  intros [H|[H|[H|[H|[]]]]]; apply pair_inj in H; destruct H as (<- & <-); split; vm_compute; reflexivity.
Qed.

Lemma Forall2_map_some {A} (g : A -> option value) (l : list A) vals : map g l = map Some vals -> forall e, In e l -> exists v, g e = Some v /\ exists i, nth_error l i = Some e /\ nth_error vals i = Some v.
Proof.
  intros H e He. apply In_nth_error in He. destruct He as (i & Hi). assert (K : nth_error (map g l) i = Some (g e)) by (rewrite nth_error_map, Hi; reflexivity).
  rewrite H, nth_error_map in K. destruct (nth_error vals i) as [v|] eqn:E; [|discriminate K]. cbn [option_map] in K. apply Some_inj in K. exists v. split; [symmetry; exact K|].
  exists i. split; [exact Hi|exact E].
Qed.
Lemma Forall2_at {A B} (P : A -> B -> Prop) l m i a b : Forall2 P l m -> nth_error l i = Some a -> nth_error m i = Some b -> P a b.
Proof.
  intros F. revert i. induction F as [|x y l m Pxy F IH]; intros [|i] Ha Hb; cbn [nth_error] in *; try discriminate.
  - apply Some_inj in Ha. apply Some_inj in Hb. subst. exact Pxy.
  - exact (IH i Ha Hb).
Qed.
Lemma Forall2_len {A B} (P : A -> B -> Prop) l m : Forall2 P l m -> length l = length m.
Proof. intros F. induction F as [|x y l m Pxy F IH]; [reflexivity|]. cbn [length]. rewrite IH. reflexivity. Qed.

Section Made.
  Context (ci : option cipher) (float_of : list N -> res (list N)).
  Notation C h := (conforms ci float_of sending sending_canon h said raw).

  (* ---- fitting ---- *)
  Lemma made_fits h v c attrs vals tag name opt : tag = lit "Obj" \/ tag = star -> at_ h v (HCls c attrs) -> sknown c = true -> memb c irregular = false ->
    fair_text said (cd_text (sdescribed c) attrs) -> map (fun e => dict_get str_eqb (fst e) attrs) (attributes (sdescribed c)) = map Some vals ->
    Forall2 (fun e x => C h (snd e) x) (attributes (sdescribed c)) vals -> C h (Meta KPlain tag name opt (Some c)) v.
  Proof.
    intros Ht (n & -> & Hn) K I Ft Hm F. eapply cf_class; [exact Ht|exact Hn|exact (sdescribed_ok c K)|exact (sending_regular c _ (sdescribed_ok c K) I)|exact Ft| |].
    - intros a m Hi. destruct (Forall2_map_some _ _ _ Hm _ Hi) as (v & G & _). cbn [fst] in G. rewrite G. discriminate.
    - intros a m v Hi Hv. destruct (Forall2_map_some _ _ _ Hm _ Hi) as (v' & G & i & Hl & Hw). cbn [fst] in G. rewrite Hv in G. apply Some_inj in G. subst v'.
      exact (Forall2_at _ _ _ _ _ _ F Hl Hw).
  Qed.
  Local Ltac listed := lazymatch goal with |- Forall2 ?P ?l ?m => let l' := eval vm_compute in l in change (Forall2 P l' m) end.
  Local Ltac flag := apply cf_scalar, be_bool.
  Local Ltac int := apply cf_scalar, be_int; vm_compute; tauto.
  Local Ltac none := apply cf_none; vm_compute; tauto.
  Lemma text_fits h name opt s : sayable s -> C h (Meta KPlain (lit "S") name opt None) (VStr s).
  Proof. intros (A & B & D). apply cf_scalar. apply be_str; [left; reflexivity|exact A|exact B|exact D]. Qed.
  Lemma maybe_fits h name opt s : maybe_sayable s -> C h (Meta KPlain (lit "S") name opt None) (maybe_text s).
  Proof. destruct s as [s|]; cbn [maybe_sayable maybe_text]; [apply text_fits|intros _; none]. Qed.
  Lemma enum_fits h v cls z name t tag opt : tag = lit "Obj" \/ tag = star -> at_ h v (enum_instance cls z) -> sknown (lit cls) = true -> memb (lit cls) irregular = false ->
    attributes (sdescribed (lit cls)) = [(lit "value", plain "I32")] -> cd_text (sdescribed (lit cls)) [(lit "value", VInt z)] = Ok (VStr t) -> printable t = true ->
    C h (Meta KPlain tag name opt (Some (lit cls))) v.
  Proof.
    intros Ht A K I Ea Et Pt. apply (made_fits h v (lit cls) [(lit "value", VInt z)] [VInt z] tag name opt Ht A K I).
    - rewrite Et. exact (printable_fair t Pt).
    - rewrite Ea. reflexivity.
    - rewrite Ea. constructor; [cbn [snd]; int|constructor].
  Qed.
  Lemma stream_fits h p v name opt : built_stream h p v -> (forall q, p = Some q -> exists t, prt_text q = Ok t) -> C h (Meta KPlain (lit "Obj") name opt (Some (lit "PipelineResultTypes"))) v.
  Proof.
    destruct p as [q|]; cbn [built_stream]; [|intros ->; intros _; none]. intros A H. destruct (H q eq_refl) as (t & Et). destruct (prt_said q t Et) as (Rt & Pt).
    apply (made_fits h v (lit "PipelineResultTypes") [(lit "value", VInt (p_value q)); (lit "protocol_version_2", VBool (p_v2 q))] [VInt (p_value q)]); [left; reflexivity|exact A|vm_compute; reflexivity|vm_compute; reflexivity| |reflexivity|].
    - change (cd_text (sdescribed (lit "PipelineResultTypes"))) with result_text. rewrite Rt. exact (printable_fair t Pt).
    - listed. constructor; [cbn [snd]; int|constructor].
  Qed.
  Lemma argument_fits h a v name opt : built_argument h a v -> maybe_sayable (fst a) -> portable ci float_of h (snd a) -> C h (Meta KPlain star name opt (Some (lit "CommandParameter"))) v.
  Proof.
    intros A S P.
    apply (made_fits h v (lit "CommandParameter") [(lit "name", maybe_text (fst a)); (lit "value", snd a); (lit "_to_string", VNone)] [maybe_text (fst a); snd a]); [right; reflexivity|exact A|vm_compute; reflexivity|vm_compute; reflexivity| |reflexivity|].
    - left. reflexivity.
    - listed. constructor; [cbn [snd]; apply maybe_fits; exact S|]. constructor; [cbn [snd]; exact P|constructor].
  Qed.
  Lemma eight {A} (P : A -> value -> Prop) a1 a2 a3 a4 a5 a6 a7 a8 ms : Forall2 P [a1; a2; a3; a4; a5; a6; a7; a8] ms ->
    exists m1 m2 m3 m4 m5 m6 m7 m8, ms = [m1; m2; m3; m4; m5; m6; m7; m8] /\ P a1 m1 /\ P a2 m2 /\ P a3 m3 /\ P a4 m4 /\ P a5 m5 /\ P a6 m6 /\ P a7 m7 /\ P a8 m8.
  Proof.
    intros H. repeat match goal with F : Forall2 _ (_ :: _) _ |- _ => inversion F; clear F; subst | F : Forall2 _ [] _ |- _ => inversion F; clear F; subst end.
    do 8 eexists. split; [reflexivity|]. repeat split; assumption.
  Qed.
  Lemma sent_fine (c : command value) : Forall (fun e => exists t, prt_text (snd e) = Ok t) (sent_streams c) -> forall q, In (Some q) (streams c) -> exists t, prt_text q = Ok t.
  Proof.
    intros F q H. rewrite Forall_forall in F. assert (K : exists n, In (n, q) (sent_streams c)).
    { unfold streams in H. unfold sent_streams. destruct (c_22 c), (c_23 c); cbn [app]; repeat (destruct H as [H|H]; [first [discriminate H|apply Some_inj in H; subst q; eexists; repeat first [left; reflexivity|right]]|]); contradiction. }
    destruct K as (n & K). exact (F _ K).
  Qed.
  Definition args_types : list (list N) := map lit command_list.
  Lemma listed_coded : coded sending_canon args_types. Proof. apply codedb_ok. vm_compute. reflexivity. Qed.
  Lemma list_fits h {A} (B : list hobj -> A -> value -> Prop) e name opt (l : list A) vs : m_kind e = KPlain -> m_optional e = false -> (forall a v, B h a v -> exists n, v = VObj n) ->
    Forall2 (B h) l vs -> (forall a v, In a l -> B h a v -> C h e v) -> C h (Meta (KList e args_types) (lit "LST") name opt None) (VList vs).
  Proof.
    intros Ke Oe Ho F H. assert (K : forall v, In v vs -> exists a, In a l /\ B h a v).
    { intros v Hv. apply In_nth_error in Hv. destruct Hv as (i & Hi). assert (L : exists a, nth_error l i = Some a).
      { destruct (nth_error l i) as [a|] eqn:E; [exists a; reflexivity|]. exfalso. apply nth_error_None in E. rewrite (Forall2_len _ _ _ F) in E. apply nth_error_None in E. rewrite E in Hi. discriminate Hi. }
      destruct L as (a & La). exists a. split; [exact (nth_error_In _ _ La)|exact (Forall2_at _ _ _ _ _ _ F La Hi)]. }
    apply cf_list; [exact listed_coded|exact Ke|exact Oe| |].
    - intros v Hv. left. destruct (K v Hv) as (a & _ & Ba). destruct (Ho a v Ba) as (n & ->). discriminate.
    - intros v Hv. destruct (K v Hv) as (a & Ha & Ba). exact (H a v Ha Ba).
  Qed.
  Lemma at_object h v o : at_ h v o -> exists n, v = VObj n. Proof. intros (n & -> & _). exists n. reflexivity. Qed.
  Lemma command_fits h c v name opt : built_command h c v -> fit_command ci float_of h c -> C h (Meta KPlain (lit "Obj") name opt (Some (lit "Command"))) v.
  Proof.
    intros (ms & args & A & B & D) (S1 & S2 & S3). apply eight in A. destruct A as (m1 & m2 & m3 & m4 & m5 & m6 & m7 & m8 & -> & A1 & A2 & A3 & A4 & A5 & A6 & A7 & A8).
    pose proof (sent_fine c S2) as Sf.
    apply (made_fits h v (lit "Command") (map (fun e => (lit (fst e), snd e)) ([("cmd", VStr (c_cmd c)); ("is_script", VBool (c_script c)); ("use_local_scope", maybe_flag (c_scope c))]%string
       ++ combine stream_names [m1; m2; m3; m4; m5; m6; m7; m8] ++ [("args", VList args); ("_to_string", VNone)]%string))
      [VStr (c_cmd c); VBool (c_script c); maybe_flag (c_scope c); m1; m2; m3; VList args; m4; m5; m6; m7; m8]);
      [left; reflexivity|exact D|vm_compute; reflexivity|vm_compute; reflexivity|left; reflexivity|reflexivity|].
    listed. constructor; [cbn [snd]; apply text_fits; exact S1|]. constructor; [cbn [snd]; flag|]. constructor; [cbn [snd]; destruct (c_scope c); cbn [maybe_flag]; [flag|none]|].
    constructor; [cbn [snd]; refine (stream_fits h _ m1 _ _ A1 _); intros q E; apply Sf; rewrite <- E; unfold streams; cbn [In]; tauto|].
    constructor; [cbn [snd]; refine (stream_fits h _ m2 _ _ A2 _); intros q E; apply Sf; rewrite <- E; unfold streams; cbn [In]; tauto|].
    constructor; [cbn [snd]; refine (stream_fits h _ m3 _ _ A3 _); intros q E; apply Sf; rewrite <- E; unfold streams; cbn [In]; tauto|].
    constructor; [cbn [snd]|].
    { refine (list_fits h built_argument (Meta KPlain star None false (Some (lit "CommandParameter"))) _ _ (c_args c) args eq_refl eq_refl _ B _); [intros a w Ha; exact (at_object h w _ Ha)|].
      intros a w Ha Ba. rewrite Forall_forall in S3. destruct (S3 a Ha) as (Sa & Pa). exact (argument_fits h a w _ _ Ba Sa Pa). }
    constructor; [cbn [snd]; refine (stream_fits h _ m4 _ _ A4 _); intros q E; apply Sf; rewrite <- E; unfold streams; cbn [In]; tauto|].
    constructor; [cbn [snd]; refine (stream_fits h _ m5 _ _ A5 _); intros q E; apply Sf; rewrite <- E; unfold streams; cbn [In]; tauto|].
    constructor; [cbn [snd]; refine (stream_fits h _ m6 _ _ A6 _); intros q E; apply Sf; rewrite <- E; unfold streams; cbn [In]; tauto|].
    constructor; [cbn [snd]; refine (stream_fits h _ m7 _ _ A7 _); intros q E; apply Sf; rewrite <- E; unfold streams; cbn [In]; tauto|].
    constructor; [cbn [snd]; refine (stream_fits h _ m8 _ _ A8 _); intros q E; apply Sf; rewrite <- E; unfold streams; cbn [In]; tauto|]. constructor.
  Qed.
  Lemma built_command_object h c v : built_command h c v -> exists n, v = VObj n.
  Proof. intros (ms & args & _ & _ & D). exact (at_object h v _ D). Qed.
  Lemma commands_fit h name opt s vs : Forall2 (built_command h) s vs -> Forall (fit_command ci float_of h) s ->
    C h (Meta (KList (of_class "Command") args_types) (lit "LST") name opt None) (VList vs).
  Proof.
    intros B F. refine (list_fits h built_command (of_class "Command") name opt s vs eq_refl eq_refl (built_command_object h) B _).
    intros c v Hc Bc. rewrite Forall_forall in F. exact (command_fits h c v _ _ Bc (F c Hc)).
  Qed.
  Lemma extra_fits h s v name opt : built_extra h s v -> Forall (fit_command ci float_of h) s -> C h (Meta KPlain (lit "Obj") name opt (Some (lit "Pipeline._ExtraCmds"))) v.
  Proof.
    intros (vs & B & D) F. apply (made_fits h v (lit "Pipeline._ExtraCmds") [(lit "cmds", VList vs); (lit "_to_string", VNone)] [VList vs]); [left; reflexivity|exact D|vm_compute; reflexivity|vm_compute; reflexivity|left; reflexivity|reflexivity|].
    listed. constructor; [cbn [snd]; exact (commands_fit h _ _ s vs B F)|constructor].
  Qed.
  Lemma pipeline_fits h nested ss history redirect v name opt : built_pipeline h nested ss history redirect v -> maybe_sayable history -> Forall (Forall (fit_command ci float_of h)) ss ->
    C h (Meta KPlain (lit "Obj") name opt (Some (lit "Pipeline"))) v.
  Proof.
    intros (first & rest & (s & ss' & -> & (vs & -> & Bf) & Br) & D) Sh F.
    apply (made_fits h v (lit "Pipeline") [(lit "is_nested", VBool nested); (lit "_extra_cmds", rest); (lit "_cmds", VList vs); (lit "history", maybe_text history); (lit "redirect_err_to_out", VBool redirect); (lit "_to_string", VNone)]
      [VBool nested; rest; VList vs; maybe_text history; VBool redirect]); [left; reflexivity|exact D|vm_compute; reflexivity|vm_compute; reflexivity|left; reflexivity|reflexivity|].
    listed. constructor; [cbn [snd]; flag|]. constructor.
    { cbn [snd]. destruct ss' as [|s2 ss']; [subst rest; none|]. destruct Br as (ws & -> & Br).
      refine (list_fits h built_extra (of_class "Pipeline._ExtraCmds") _ _ (s :: s2 :: ss') ws eq_refl eq_refl _ Br _).
      - intros a w (vs' & _ & Da). exact (at_object h w _ Da).
      - intros a w Ha Ba. rewrite Forall_forall in F. exact (extra_fits h a w _ _ Ba (F a Ha)). }
    constructor; [cbn [snd]; exact (commands_fit h _ _ s vs Bf (Forall_inv F))|]. constructor; [cbn [snd]; apply maybe_fits; exact Sh|]. constructor; [cbn [snd]; flag|constructor].
  Qed.
  Lemma host_fits h hs v name opt : at_ h v (host_instance hs VNone) -> C h (Meta KPlain (lit "Obj") name opt (Some (lit "HostInfo"))) v.
  Proof.
    intros D. apply (made_fits h v (lit "HostInfo") [(lit "_host_data", VNone); (lit "_is_host_null", VBool (is_host_null hs)); (lit "_is_host_ui_null", VBool (is_host_ui_null hs));
        (lit "_is_host_raw_ui_null", VBool (is_host_raw_ui_null hs)); (lit "_use_runspace_host", VBool (use_runspace_host hs)); (lit "_to_string", VNone)]
      [VNone; VBool (is_host_null hs); VBool (is_host_ui_null hs); VBool (is_host_raw_ui_null hs); VBool (use_runspace_host hs)]);
      [left; reflexivity|exact D|vm_compute; reflexivity|vm_compute; reflexivity|left; reflexivity|reflexivity|].
    listed. constructor; [cbn [snd]; none|]. constructor; [cbn [snd]; flag|]. constructor; [cbn [snd]; flag|]. constructor; [cbn [snd]; flag|]. constructor; [cbn [snd]; flag|constructor].
  Qed.
End Made.
