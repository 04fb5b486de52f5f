(* What the copies say, and the messages as a whole. *)
From Verif Require Import Base BaseProofs Lit NumModel TextModel TextSpec TextProofs MsgModel MsgSpec XmlModel SerModel SerClasses SerSpec SerSpec2 SerProofs3 SerProofs5 ClsSpec ClsProofs ClsProofs2 ClsProofs3 XtModel XtSpec WfModel WfSpec WfProofs WfProofs2 WfProofs3 FragModel FragSpec WireModel WireProofs SendClasses ObjModel ObjSpec ObjProofs ObjProofs2 StartModel StartSpec StartProofs StartProofs2.
Local Open Scope list_scope.

Section Copied.
  Context (h : list hobj) (base : nat) (h' : list hobj).
  Notation cp := (copy sending h base h').
  Lemma made_copied v c attrs w : at_ h v (HCls c attrs) -> sknown c = true -> cp v w ->
    exists n' attrs', w = VObj n' /\ nth_error h' n' = Some (HCls c attrs') /\
      (forall a x, memb a (map fst (attributes (sdescribed c))) = true -> dict_get str_eqb a attrs = Some x -> exists y, dict_get str_eqb a attrs' = Some y /\ cp x y) /\
      (forall s, cd_text (sdescribed c) attrs = Ok (VStr s) -> dict_get str_eqb (lit "_to_string") attrs' = Some (VStr s)).
  Proof.
    intros (n & -> & Hn) K Cp. inversion Cp as [| | | | | | | | | |n0 n' c0 at0 at' d Hb H1 H2 H3 H4 H5 H6 H7]; subst. rewrite Hn in H1. apply Some_inj in H1. injection H1 as <- <-.
    rewrite (sdescribed_ok c K) in H3. apply Some_inj in H3. subst d. exists n', at'. split; [reflexivity|]. split; [exact H2|]. split; [|exact H6].
    intros a x Ha Hx. apply memb_ok in Ha. apply in_map_iff in Ha. destruct Ha as ((a' & m) & <- & Hi). cbn [fst] in *.
    destruct (dict_get str_eqb a' at') as [y|] eqn:E; [|exfalso; exact (H4 a' m Hi E)]. exists y. split; [reflexivity|]. exact (H5 a' m x y Hi Hx E).
  Qed.
  Lemma made_has v cls attrs w (l : list (String.string * (value -> Prop))) : at_ h v (HCls (lit cls) attrs) -> sknown (lit cls) = true -> cp v w ->
    Forall (fun f : String.string * (value -> Prop) => memb (lit (fst f)) (map fst (attributes (sdescribed (lit cls)))) = true /\ exists x, dict_get str_eqb (lit (fst f)) attrs = Some x /\ forall y, cp x y -> snd f y) l ->
    has h' cls l w.
  Proof.
    intros A K Cp F. destruct (made_copied v (lit cls) attrs w A K Cp) as (n' & at' & -> & Hn & Ha & _). exists n', at'. split; [reflexivity|]. split; [exact Hn|].
    eapply Forall_impl; [|exact F]. cbv beta. intros f (Hm & x & Hx & Hy). destruct (Ha _ x Hm Hx) as (y & Gy & Cy). exists y. split; [exact Gy|exact (Hy y Cy)].
  Qed.
  Lemma plain_copied v w : cp v w -> match v with VNone | VBool _ | VInt _ | VStr _ => v = w | _ => True end.
  Proof. intros H. destruct v; try exact I; inversion H; reflexivity. Qed.
  Lemma bool_copied b w : cp (VBool b) w -> VBool b = w. Proof. exact (plain_copied _ _). Qed.
  Lemma int_copied b w : cp (VInt b) w -> VInt b = w. Proof. exact (plain_copied _ _). Qed.
  Lemma str_copied b w : cp (VStr b) w -> VStr b = w. Proof. exact (plain_copied _ _). Qed.
  Lemma none_copied w : cp VNone w -> VNone = w. Proof. exact (plain_copied _ _). Qed.
  Lemma text_copied s w : cp (maybe_text s) w -> match s with Some t => VStr t | None => VNone end = w. Proof. destruct s; exact (plain_copied _ _). Qed.
  Lemma list_copied {A} (P Q : A -> value -> Prop) l vs w : Forall2 P l vs -> (forall a v x, In a l -> P a v -> cp v x -> Q a x) -> cp (VList vs) w -> all Q l w.
  Proof.
    intros F H Cp. inversion Cp as [| | | | | | | |l0 l' L N| |]; subst. exists l'. split; [reflexivity|]. clear Cp. revert l' L N. induction F as [|a v l vs Pa F IH]; intros l' L N.
    - destruct l'; [constructor|discriminate L].
    - destruct l' as [|x l']; [discriminate L|]. constructor; [apply (H a v x (or_introl eq_refl) Pa); exact (N 0%nat v x eq_refl eq_refl)|].
      apply IH; [intros a' v' x' Ha; apply H; right; exact Ha|injection L as L; exact L|]. intros i v' x' Hv Hx. exact (N (S i) v' x' Hv Hx).
  Qed.
  Local Ltac field := apply Forall_cons; [cbn [fst snd]; split; [vm_compute; reflexivity|]; eexists; split; [reflexivity|]; intros y Hy|].
  Lemma enum_copied v cls z t w : at_ h v (enum_instance cls z) -> sknown (lit cls) = true -> memb (lit "value") (map fst (attributes (sdescribed (lit cls)))) = true ->
    cd_text (sdescribed (lit cls)) [(lit "value", VInt z)] = Ok (VStr t) -> cp v w -> constant h' cls z t w.
  Proof.
    intros A K M E Cp. destruct (made_copied v (lit cls) [(lit "value", VInt z)] w A K Cp) as (n' & at' & -> & Hn & Ha & Ht). exists n', at'. split; [reflexivity|]. split; [exact Hn|].
    apply Forall_cons; [|apply Forall_cons; [|apply Forall_nil]]; cbn [fst snd].
    - destruct (Ha (lit "value") (VInt z) M eq_refl) as (y & Gy & Cy). exists y. split; [exact Gy|exact (int_copied _ _ Cy)].
    - exists (VStr t). split; [exact (Ht t E)|reflexivity].
  Qed.
  Lemma stream_copied q v w : built_stream h (Some q) v -> (exists t, prt_text q = Ok t) -> cp v w -> goes_to h' q w.
  Proof.
    cbn [built_stream]. intros A (t & Et) Cp. destruct (prt_said q t Et) as (Rt & _). exists t. split; [exact Et|].
    destruct (made_copied v (lit "PipelineResultTypes") [(lit "value", VInt (p_value q)); (lit "protocol_version_2", VBool (p_v2 q))] w A eq_refl Cp) as (n' & at' & -> & Hn & Ha & Ht).
    exists n', at'. split; [reflexivity|]. split; [exact Hn|]. apply Forall_cons; [|apply Forall_cons; [|apply Forall_nil]]; cbn [fst snd].
    - destruct (Ha (lit "value") (VInt (p_value q)) eq_refl eq_refl) as (y & Gy & Cy). exists y. split; [exact Gy|exact (int_copied _ _ Cy)].
    - exists (VStr t). split; [exact (Ht t Rt)|reflexivity].
  Qed.
  Lemma stream_if (b : bool) q v w : built_stream h (if b then Some q else None) v -> (b = true -> exists t, prt_text q = Ok t) -> cp v w -> goes_if h' b q w.
  Proof.
    destruct b; intros A H Cp; cbn [goes_if]; [exact (stream_copied q v w A (H eq_refl) Cp)|]. cbn [built_stream] in A. subst v. symmetry. exact (none_copied w Cp).
  Qed.
  Lemma argument_copied a v w : built_argument h a v -> cp v w -> parameter h' cp a w.
  Proof.
    intros A Cp. apply (made_has v "CommandParameter" [(lit "name", maybe_text (fst a)); (lit "value", snd a); (lit "_to_string", VNone)] w _ A eq_refl Cp).
    field; [exact (text_copied _ _ Hy)|]. field; [exact Hy|apply Forall_nil].
  Qed.
  Lemma command_copied ci float_of hh c v w : built_command h c v -> fit_command ci float_of hh c -> cp v w -> command_read h' cp c w.
  Proof.
    intros (ms & args & A & B & D) (_ & S2 & _) Cp. apply eight in A. destruct A as (m1 & m2 & m3 & m4 & m5 & m6 & m7 & m8 & -> & A1 & A2 & A3 & A4 & A5 & A6 & A7 & A8).
    pose proof (sent_fine c S2) as Sf.
    apply (made_has v "Command" (map (fun e => (lit (fst e), snd e)) ([("cmd", VStr (c_cmd c)); ("is_script", VBool (c_script c)); ("use_local_scope", maybe_flag (c_scope c))]%string
       ++ combine stream_names [m1; m2; m3; m4; m5; m6; m7; m8] ++ [("args", VList args); ("_to_string", VNone)]%string)) w _ D eq_refl Cp).
    field; [exact (str_copied _ _ Hy)|]. field; [exact (bool_copied _ _ Hy)|]. field; [destruct (c_scope c); exact (plain_copied _ _ Hy)|].
    field; [refine (stream_copied _ _ _ A1 _ Hy); apply Sf; unfold streams; cbn [In]; tauto|].
    field; [refine (stream_copied _ _ _ A2 _ Hy); apply Sf; unfold streams; cbn [In]; tauto|].
    field; [refine (stream_copied _ _ _ A3 _ Hy); apply Sf; unfold streams; cbn [In]; tauto|].
    field; [refine (stream_if _ _ _ _ A4 _ Hy); intros E; apply Sf; unfold streams; rewrite E; cbn [In]; tauto|].
    field; [refine (stream_if _ _ _ _ A5 _ Hy); intros E; apply Sf; unfold streams; rewrite E; cbn [In]; tauto|].
    field; [refine (stream_if _ _ _ _ A6 _ Hy); intros E; apply Sf; unfold streams; rewrite E; cbn [In]; tauto|].
    field; [refine (stream_if _ _ _ _ A7 _ Hy); intros E; apply Sf; unfold streams; rewrite E; cbn [In]; tauto|].
    field; [refine (stream_if _ _ _ _ A8 _ Hy); intros E; apply Sf; unfold streams; rewrite E; cbn [In]; tauto|].
    field; [|apply Forall_nil]. refine (list_copied _ _ _ _ _ B _ Hy). intros a x z _ Ba Cz. exact (argument_copied a x z Ba Cz).
  Qed.
  Lemma commands_copied ci float_of hh s vs w : Forall2 (built_command h) s vs -> Forall (fit_command ci float_of hh) s -> cp (VList vs) w -> all (command_read h' cp) s w.
  Proof.
    intros B F Cp. refine (list_copied _ _ _ _ _ B _ Cp). intros c v x Hc Bc Cx. rewrite Forall_forall in F. exact (command_copied ci float_of hh c v x Bc (F c Hc) Cx).
  Qed.
  Lemma pipeline_copied ci float_of hh q ss v w : built_pipeline h (q_nested q) ss (q_text q) (q_redirect q) v -> Forall (Forall (fit_command ci float_of hh)) ss -> cp v w -> pipeline_read h' cp q ss w.
  Proof.
    intros (first & rest & (s & ss' & -> & (vs & -> & Bf) & Br) & D) F Cp.
    destruct (made_copied v (lit "Pipeline") _ w D eq_refl Cp) as (n' & at' & -> & Hn & Ha & _).
    destruct (Ha (lit "_cmds") (VList vs) eq_refl eq_refl) as (wf & Gf & Cf). destruct (Ha (lit "_extra_cmds") rest eq_refl eq_refl) as (wr & Gr & Cr).
    exists wf, wr. split.
    - pose proof (commands_copied ci float_of hh s vs wf Bf (Forall_inv F) Cf) as Rf. unfold statements_read. destruct ss' as [|s2 ss'].
      + subst rest. split; [exact Rf|]. symmetry. exact (none_copied _ Cr).
      + split; [exact Rf|]. destruct Br as (ws & -> & Br). refine (list_copied _ _ _ _ _ Br _ Cr). intros a x z Hx (us & Bu & Du) Cz.
        apply (made_has x "Pipeline._ExtraCmds" [(lit "cmds", VList us); (lit "_to_string", VNone)] z _ Du eq_refl Cz). field; [|apply Forall_nil].
        rewrite Forall_forall in F. exact (commands_copied ci float_of hh a us y Bu (F a Hx) Hy).
    - exists n', at'. split; [reflexivity|]. split; [exact Hn|].
      apply Forall_cons; cbn [fst snd]; [destruct (Ha (lit "is_nested") _ eq_refl eq_refl) as (y & Gy & Cy); exists y; split; [exact Gy|exact (bool_copied _ _ Cy)]|].
      apply Forall_cons; cbn [fst snd]; [exists wf; split; [exact Gf|reflexivity]|]. apply Forall_cons; cbn [fst snd]; [exists wr; split; [exact Gr|reflexivity]|].
      apply Forall_cons; cbn [fst snd]; [destruct (Ha (lit "history") _ eq_refl eq_refl) as (y & Gy & Cy); exists y; split; [exact Gy|exact (text_copied _ _ Cy)]|].
      apply Forall_cons; cbn [fst snd]; [destruct (Ha (lit "redirect_err_to_out") _ eq_refl eq_refl) as (y & Gy & Cy); exists y; split; [exact Gy|exact (bool_copied _ _ Cy)]|apply Forall_nil].
  Qed.
  Lemma host_copied hs v w : (forall r, hs <> Some (Some (Some r))) -> at_ h v (host_instance hs VNone) -> cp v w -> host_read h' hs w.
  Proof.
    intros N D Cp. apply (made_has v "HostInfo" _ w _ D eq_refl Cp).
    field; [destruct hs; exact (bool_copied _ _ Hy)|]. field; [destruct hs as [[|]|]; exact (bool_copied _ _ Hy)|].
    field; [destruct hs as [[[r|]|]|]; [exfalso; exact (N r eq_refl)|..]; exact (bool_copied _ _ Hy)|]. field; [exact (none_copied _ Hy)|].
    field; [destruct hs; exact (bool_copied _ _ Hy)|apply Forall_nil].
  Qed.
End Copied.

(* ---- the messages ---- *)
Lemma fit_unmarked ci float_of h (c c0 : command value) : unmarked c = unmarked c0 -> fit_command ci float_of h c0 -> fit_command ci float_of h c.
Proof.
  intros E F. change (fit_command ci float_of h (unmarked c0)) in F. rewrite <- E in F. exact F.
Qed.
Lemma fit_ext ci float_of h h' c : ext h h' -> fit_command ci float_of h c -> fit_command ci float_of h' c.
Proof.
  intros X (A & B & F). split; [exact A|]. split; [exact B|]. eapply Forall_impl; [|exact F]. intros a (S1 & P). split; [exact S1|]. exact (conforms_ext _ _ _ _ _ _ _ _ _ _ X P).
Qed.
Lemma cut_fits ci float_of h (cs : list (command value)) ss : cut_at_marks cs ss -> Forall (fit_command ci float_of h) cs -> Forall (Forall (fit_command ci float_of h)) ss.
Proof.
  intros (E & _) F. apply Forall_forall. intros s Hs. apply Forall_forall. intros c Hc. assert (K : In (unmarked c) (map unmarked cs)).
  { rewrite <- E. apply in_map. apply in_concat. exists s. split; [exact Hs|exact Hc]. }
  apply in_map_iff in K. destruct K as (c0 & E0 & K). rewrite Forall_forall in F. exact (fit_unmarked ci float_of h c c0 (eq_sym E0) (F c0 K)).
Qed.
Section Message.
  Context (ci : option cipher) (show : value -> list N) (xml_text : xml -> list N) (float_of : list N -> res (list N)) (reg : list (list N * list N)).
  Context (U : usable_registry reg).
  Notation wire := (wire ci show xml_text float_of sending reg).
  Notation C h := (conforms ci float_of sending sending_canon h said raw).
  Local Ltac listed := lazymatch goal with |- Forall2 ?P ?l ?m => let l' := eval vm_compute in l in change (Forall2 P l' m) end.
  Local Ltac flag := apply cf_scalar, be_bool.
  Local Ltac int := apply cf_scalar, be_int; vm_compute; tauto.
  Local Ltac field := apply Forall_cons; [cbn [fst snd]; split; [vm_compute; reflexivity|]; eexists; split; [reflexivity|]; intros y Hy|].

  Lemma object_told dest ty r p c heap n : (0 <= dest < 2 ^ 32)%Z -> is_guid r -> is_guid p ->
    class_of_type ty = Some c -> ~ In ty [PUBLIC_KEY_REQUEST; PIPELINE_INPUT; PIPELINE_OUTPUT; END_OF_PIPELINE_INPUT; CONNECT_RUNSPACEPOOL] ->
    C heap (class_meta c) (VObj n) ->
    exists f0, forall fuel, (f0 <= fuel)%nat -> exists b, (forall heap0, message_pack (wire fuel heap0) (mkMsg dest ty r p (DObj ty (heap, VObj n))) = Ok b) /\
      forall heap0 fuel', exists n' e, message_unpack (wire fuel' heap0) b = Ok (mkMsg dest ty r p (DObj ty (heap0 ++ e, VObj n'))) /\
        copy sending heap (length heap0) (heap0 ++ e) (VObj n) (VObj n').
  Proof.
    intros Hd Gr Gp Hc Ns Cf.
    apply (object_message ci show xml_text float_of sending sending_canon reg U sending_tidy (sending_coded _ (or_introl eq_refl)) (sending_coded _ (or_intror (or_introl eq_refl))) dest ty r p c heap n Hd Gr Gp Hc).
    - intros H. apply Ns. cbn [In] in *. tauto.
    - intros ->. exfalso. apply Ns. cbn [In]. tauto.
    - exact Cf.
  Qed.
  (* what is packed and read is also read after its fragments *)
  Lemma told_carried (m : message graph) (P : list hobj -> nat -> message graph -> Prop) :
    (exists f0, forall fuel, (f0 <= fuel)%nat -> exists b, (forall heap0, message_pack (wire fuel heap0) m = Ok b) /\
      forall heap0 fuel', exists n' e, message_unpack (wire fuel' heap0) b = Ok (mkMsg (m_dest m) (m_type m) (m_rpid m) (m_pid m) (DObj (m_type m) (heap0 ++ e, VObj n'))) /\
        P heap0 n' (mkMsg (m_dest m) (m_type m) (m_rpid m) (m_pid m) (DObj (m_type m) (heap0 ++ e, VObj n')))) ->
    exists f0, forall fuel, (f0 <= fuel)%nat -> exists b, (forall heap0, message_pack (wire fuel heap0) m = Ok b) /\
      ((zlen b < 2 ^ 63)%Z -> forall s, (1 <= sd_max s < 2 ^ 32)%Z -> (0 <= sd_counter s < 2 ^ 64)%Z ->
        exists blocks, fragment_msg s b None = Ok (mkSender (sd_max s) (sd_counter s + 1), blocks) /\
          forall rc calls, dict_get Z.eqb (sd_counter s) rc = None -> concat calls = blocks ->
            exists got, delivered (snd (receive_calls rc (map (@concat N) calls))) = Ok [got] /\
              forall heap0 fuel', exists n' e, message_unpack (wire fuel' heap0) got = Ok (mkMsg (m_dest m) (m_type m) (m_rpid m) (m_pid m) (DObj (m_type m) (heap0 ++ e, VObj n'))) /\
                P heap0 n' (mkMsg (m_dest m) (m_type m) (m_rpid m) (m_pid m) (DObj (m_type m) (heap0 ++ e, VObj n')))).
  Proof.
    intros (f0 & K). exists f0. intros fuel L. destruct (K fuel L) as (b & Pk & Un). exists b. split; [exact Pk|]. intros Lb s Sm Sc.
    destruct (Un [] 0%nat) as (n0 & e0 & U0 & _). apply unpack_some in U0.
    destruct (arrives s b U0 Lb Sm Sc) as (blocks & F & D). exists blocks. split; [exact F|]. intros rc calls Hr Hx. exists b. split; [exact (D rc calls Hr Hx)|exact Un].
  Qed.
  Lemma used_named p q : fit_pool p -> (forall z, q_apartment q = Some z -> In z (map fst apartment_names)) -> exists t, In (apartment_used p q, t) apartment_names.
  Proof.
    intros (A & _) B. apply names_find. unfold apartment_used. destruct (q_apartment q) as [z|]; [|exact A]. destruct (Z.eqb z 0); [exact A|exact (B z eq_refl)].
  Qed.
  Lemma start_told dest r pid heap p q : (0 <= dest < 2 ^ 32)%Z -> is_guid r -> is_guid pid -> fit_pool p -> fit_start ci float_of heap q ->
    exists made n ss, put_start heap p q = Ok (heap ++ made, VObj n) /\ cut_at_marks (q_commands q) ss /\
    exists f0, forall fuel, (f0 <= fuel)%nat -> exists b, (forall heap0, message_pack (wire fuel heap0) (mkMsg dest CREATE_PIPELINE r pid (DObj CREATE_PIPELINE (heap ++ made, VObj n))) = Ok b) /\
      forall heap0 fuel', exists n' e, message_unpack (wire fuel' heap0) b = Ok (mkMsg dest CREATE_PIPELINE r pid (DObj CREATE_PIPELINE (heap0 ++ e, VObj n'))) /\
                start_read (heap0 ++ e) (copy sending (heap ++ made) (length heap0) (heap0 ++ e)) p q (apartment_used p q) ss (VObj n').
  Proof.
    intros Hd Gr Gp Fp (Fa & Ft & Fn & Fc). destruct Fp as (Pa & Pt & Ph). destruct (statements_cut (q_commands q) Fn) as (ss & Es & Cut).
    assert (Em : exists h1 v, put_start heap p q = Ok (h1, v)).
    { unfold put_start. destruct (put_host heap (pl_host p)) as [h1 hv]. assert (Ep : exists h2 v, put_pipeline h1 (q_nested q) (q_commands q) (q_text q) (q_redirect q) = Ok (h2, v)).
      { unfold put_pipeline, pipeline_extra, pipeline_cmds. rewrite Es. cbn [bind]. assert (Nz : ss <> []).
        { intros ->. destruct Cut as (E & _). cbn [concat map] in E. destruct (q_commands q); [exact (Fn eq_refl)|discriminate E]. }
        destruct ss as [|s ss]; [contradiction|]. cbn [bind]. match goal with |- context [match ?x with None => _ | Some _ => _ end] => destruct x end;
          [match goal with |- context [put_all put_extra ?a ?b] => destruct (put_all put_extra a b) end|];
          match goal with |- context [put_all put_command ?a ?b] => destruct (put_all put_command a b) end; do 2 eexists; reflexivity. }
      destruct Ep as (h2 & pv & ->). cbn [bind]. unfold put_enum, put. do 2 eexists. reflexivity. }
    destruct Em as (h1 & v & Em). destruct (put_start_at heap p q h1 v Ph Em) as ((made & ->) & ss0 & av & sv & hv & pv & Es0 & D & Da & Ds & Dh & Dp).
    rewrite Es in Es0. apply Ok_inj in Es0. subst ss0. pose proof D as (n & -> & _). exists made, n, ss. split; [exact Em|]. split; [exact Cut|].
    assert (Fs : Forall (Forall (fit_command ci float_of (heap ++ made))) ss).
    { apply (cut_fits ci float_of (heap ++ made) (q_commands q) ss Cut). eapply Forall_impl; [|exact Fc]. intros c. apply fit_ext. exists made. reflexivity. }
    destruct (used_named p q (conj Pa (conj Pt Ph)) Fa) as (t & Ht). destruct (apartment_written _ t Ht) as (Wa & Pr).
    assert (Cf : C (heap ++ made) (class_meta (lit "CreatePipeline")) (VObj n)).
    { apply (made_fits ci float_of (heap ++ made) (VObj n) (lit "CreatePipeline")
        [(lit "no_input", VBool (no_input q)); (lit "apartment_state", av); (lit "remote_stream_options", sv); (lit "add_to_history", VBool (q_history q));
         (lit "host_info", hv); (lit "pipeline", pv); (lit "is_nested", VBool (q_nested q)); (lit "_to_string", VNone)]
        [VBool (no_input q); av; sv; VBool (q_history q); hv; pv; VBool (q_nested q)]); [left; reflexivity|exact D|vm_compute; reflexivity|vm_compute; reflexivity|left; reflexivity|reflexivity|].
      listed. constructor; [cbn [snd]; flag|].
      constructor; [cbn [snd]; refine (enum_fits ci float_of _ av "ApartmentState" _ _ t _ _ (or_introl eq_refl) Da _ _ _ Wa Pr); vm_compute; reflexivity|].
      constructor; [cbn [snd]; refine (enum_fits ci float_of _ sv "RemoteStreamOptions" _ _ _ _ _ (or_introl eq_refl) Ds _ _ _ (options_written _) (options_printable _)); vm_compute; reflexivity|].
      constructor; [cbn [snd]; flag|]. constructor; [cbn [snd]; exact (host_fits ci float_of _ _ hv _ _ Dh)|].
      constructor; [cbn [snd]; exact (pipeline_fits ci float_of _ _ ss _ _ pv _ _ Dp Ft Fs)|]. constructor; [cbn [snd]; flag|constructor]. }
    destruct (object_told dest CREATE_PIPELINE r pid (lit "CreatePipeline") (heap ++ made) n Hd Gr Gp eq_refl) as (f0 & K).
    { intros [H|[H|[H|[H|[H|[]]]]]]; discriminate H. }
    { exact Cf. }
    exists f0. intros fuel L. destruct (K fuel L) as (b & Pk & Un). exists b. split; [exact Pk|]. intros heap0 fuel'.
    destruct (Un heap0 fuel') as (n' & e & Eu & Cp). exists n', e. split; [exact Eu|]. unfold start_read.
    apply (made_has _ _ _ (VObj n) "CreatePipeline" _ (VObj n') _ D eq_refl Cp).
    field; [exact (bool_copied _ _ _ _ _ Hy)|].
    field; [exists t; split; [exact Ht|]; refine (enum_copied _ _ _ _ "ApartmentState" _ t _ Da _ _ Wa Hy); vm_compute; reflexivity|].
    field; [rewrite <- options_named; refine (enum_copied _ _ _ _ "RemoteStreamOptions" _ _ _ Ds _ _ (options_written _) Hy); vm_compute; reflexivity|].
    field; [exact (bool_copied _ _ _ _ _ Hy)|]. field; [exact (host_copied _ _ _ _ _ _ Ph Dh Hy)|].
    field; [exact (pipeline_copied _ _ _ ci float_of (heap ++ made) q ss _ _ Dp Fs Hy)|]. field; [exact (bool_copied _ _ _ _ _ Hy)|apply Forall_nil].
  Qed.
  Lemma start_carried dest r pid heap p q : (0 <= dest < 2 ^ 32)%Z -> is_guid r -> is_guid pid -> fit_pool p -> fit_start ci float_of heap q ->
    exists made n ss, put_start heap p q = Ok (heap ++ made, VObj n) /\ cut_at_marks (q_commands q) ss /\
    exists f0, forall fuel, (f0 <= fuel)%nat -> exists b, (forall heap0, message_pack (wire fuel heap0) (mkMsg dest CREATE_PIPELINE r pid (DObj CREATE_PIPELINE (heap ++ made, VObj n))) = Ok b) /\
      ((zlen b < 2 ^ 63)%Z -> forall s, (1 <= sd_max s < 2 ^ 32)%Z -> (0 <= sd_counter s < 2 ^ 64)%Z ->
        exists blocks, fragment_msg s b None = Ok (mkSender (sd_max s) (sd_counter s + 1), blocks) /\
          forall rc calls, dict_get Z.eqb (sd_counter s) rc = None -> concat calls = blocks ->
            exists got, delivered (snd (receive_calls rc (map (@concat N) calls))) = Ok [got] /\
              forall heap0 fuel', exists n' e, message_unpack (wire fuel' heap0) got = Ok (mkMsg dest CREATE_PIPELINE r pid (DObj CREATE_PIPELINE (heap0 ++ e, VObj n'))) /\
                start_read (heap0 ++ e) (copy sending (heap ++ made) (length heap0) (heap0 ++ e)) p q (apartment_used p q) ss (VObj n')).
  Proof.
    intros Hd Gr Gp Fp Fs. destruct (start_told dest r pid heap p q Hd Gr Gp Fp Fs) as (made & n & ss & Em & Cut & K). exists made, n, ss. split; [exact Em|]. split; [exact Cut|].
    exact (told_carried (mkMsg dest CREATE_PIPELINE r pid (DObj CREATE_PIPELINE (heap ++ made, VObj n)))
      (fun heap0 n' m => match m_data m with DObj _ g => start_read (fst g) (copy sending (heap ++ made) (length heap0) (fst g)) p q (apartment_used p q) ss (VObj n') | _ => False end) K).
  Qed.
  Lemma open_told dest r pid heap p arguments : (0 <= dest < 2 ^ 32)%Z -> is_guid r -> is_guid pid -> fit_pool p -> fit_arguments ci float_of heap arguments ->
    exists made n, put_open heap p arguments = (heap ++ made, VObj n) /\
    exists f0, forall fuel, (f0 <= fuel)%nat -> exists b, (forall heap0, message_pack (wire fuel heap0) (mkMsg dest INIT_RUNSPACEPOOL r pid (DObj INIT_RUNSPACEPOOL (heap ++ made, VObj n))) = Ok b) /\
      forall heap0 fuel', exists n' e, message_unpack (wire fuel' heap0) b = Ok (mkMsg dest INIT_RUNSPACEPOOL r pid (DObj INIT_RUNSPACEPOOL (heap0 ++ e, VObj n'))) /\
                open_read (heap0 ++ e) (copy sending (heap ++ made) (length heap0) (heap0 ++ e)) p arguments (VObj n').
  Proof.
    intros Hd Gr Gp (Pa & Pt & Ph) Fa. destruct (put_open heap p arguments) as [h1 v] eqn:Em.
    destruct (put_open_at heap p arguments h1 v Ph Em) as ((made & ->) & tv & av & hv & D & Dt & Da & Dh). pose proof D as (n & -> & _). exists made, n. split; [reflexivity|].
    destruct (names_find _ _ Pa) as (t & Ht). destruct (apartment_written _ t Ht) as (Wa & Pr). destruct (names_find _ _ Pt) as (u & Hu). destruct (thread_written _ u Hu) as (Wu & Pu).
    assert (Cf : C (heap ++ made) (class_meta (lit "InitRunspacePool")) (VObj n)).
    { apply (made_fits ci float_of (heap ++ made) (VObj n) (lit "InitRunspacePool")
        [(lit "min_runspaces", VInt (pl_min p)); (lit "max_runspaces", VInt (pl_max p)); (lit "thread_options", tv); (lit "apartment_state", av);
         (lit "host_info", hv); (lit "application_arguments", arguments); (lit "_to_string", VNone)]
        [VInt (pl_min p); VInt (pl_max p); tv; av; hv; arguments]); [left; reflexivity|exact D|vm_compute; reflexivity|vm_compute; reflexivity|left; reflexivity|reflexivity|].
      listed. constructor; [cbn [snd]; int|]. constructor; [cbn [snd]; int|].
      constructor; [cbn [snd]; refine (enum_fits ci float_of _ tv "PSThreadOptions" _ _ u _ _ (or_introl eq_refl) Dt _ _ _ Wu Pu); vm_compute; reflexivity|].
      constructor; [cbn [snd]; refine (enum_fits ci float_of _ av "ApartmentState" _ _ t _ _ (or_introl eq_refl) Da _ _ _ Wa Pr); vm_compute; reflexivity|].
      constructor; [cbn [snd]; exact (host_fits ci float_of _ _ hv _ _ Dh)|]. constructor; [cbn [snd]|constructor].
      destruct Fa as [-> |(d & -> & L & Dk & Fd)]; [apply cf_none; vm_compute; tauto|].
      refine (cf_dictmeta _ _ _ _ _ _ _ (map lit ["System.Management.Automation.PSPrimitiveDictionary"; "System.Collections.Hashtable"; "System.Object"]%string) _ _ d _ L Dk _).
      - apply codedb_ok. vm_compute. reflexivity.
      - intros e He. rewrite Forall_forall in Fd. refine (conforms_ext _ _ _ _ _ _ heap _ _ _ _ (Fd e He)). exists made. reflexivity. }
    destruct (object_told dest INIT_RUNSPACEPOOL r pid (lit "InitRunspacePool") (heap ++ made) n Hd Gr Gp eq_refl) as (f0 & K).
    { intros [H|[H|[H|[H|[H|[]]]]]]; discriminate H. }
    { exact Cf. }
    exists f0. intros fuel L. destruct (K fuel L) as (b & Pk & Un). exists b. split; [exact Pk|]. intros heap0 fuel'.
    destruct (Un heap0 fuel') as (n' & e & Eu & Cp). exists n', e. split; [exact Eu|]. unfold open_read.
    apply (made_has _ _ _ (VObj n) "InitRunspacePool" _ (VObj n') _ D eq_refl Cp).
    field; [exact (int_copied _ _ _ _ _ Hy)|]. field; [exact (int_copied _ _ _ _ _ Hy)|].
    field; [exists u; split; [exact Hu|]; refine (enum_copied _ _ _ _ "PSThreadOptions" _ u _ Dt _ _ Wu Hy); vm_compute; reflexivity|].
    field; [exists t; split; [exact Ht|]; refine (enum_copied _ _ _ _ "ApartmentState" _ t _ Da _ _ Wa Hy); vm_compute; reflexivity|].
    field; [exact (host_copied _ _ _ _ _ _ Ph Dh Hy)|]. field; [exact Hy|apply Forall_nil].
  Qed.
  Lemma open_carried dest r pid heap p arguments : (0 <= dest < 2 ^ 32)%Z -> is_guid r -> is_guid pid -> fit_pool p -> fit_arguments ci float_of heap arguments ->
    exists made n, put_open heap p arguments = (heap ++ made, VObj n) /\
    exists f0, forall fuel, (f0 <= fuel)%nat -> exists b, (forall heap0, message_pack (wire fuel heap0) (mkMsg dest INIT_RUNSPACEPOOL r pid (DObj INIT_RUNSPACEPOOL (heap ++ made, VObj n))) = Ok b) /\
      ((zlen b < 2 ^ 63)%Z -> forall s, (1 <= sd_max s < 2 ^ 32)%Z -> (0 <= sd_counter s < 2 ^ 64)%Z ->
        exists blocks, fragment_msg s b None = Ok (mkSender (sd_max s) (sd_counter s + 1), blocks) /\
          forall rc calls, dict_get Z.eqb (sd_counter s) rc = None -> concat calls = blocks ->
            exists got, delivered (snd (receive_calls rc (map (@concat N) calls))) = Ok [got] /\
              forall heap0 fuel', exists n' e, message_unpack (wire fuel' heap0) got = Ok (mkMsg dest INIT_RUNSPACEPOOL r pid (DObj INIT_RUNSPACEPOOL (heap0 ++ e, VObj n'))) /\
                open_read (heap0 ++ e) (copy sending (heap ++ made) (length heap0) (heap0 ++ e)) p arguments (VObj n')).
  Proof.
    intros Hd Gr Gp Fp Fa. destruct (open_told dest r pid heap p arguments Hd Gr Gp Fp Fa) as (made & n & Em & K). exists made, n. split; [exact Em|].
    exact (told_carried (mkMsg dest INIT_RUNSPACEPOOL r pid (DObj INIT_RUNSPACEPOOL (heap ++ made, VObj n)))
      (fun heap0 n' m => match m_data m with DObj _ g => open_read (fst g) (copy sending (heap ++ made) (length heap0) (fst g)) p arguments (VObj n') | _ => False end) K).
  Qed.
End Message.
Lemma used_asked p q : (q_apartment q = Some 0%Z -> pl_apartment p = 0%Z) -> apartment_used p q = asked p q.
Proof.
  intros H. unfold apartment_used, asked. destruct (q_apartment q) as [z|]; [|reflexivity]. destruct (Z.eqb_spec z 0) as [->|]; [exact (H eq_refl)|reflexivity].
Qed.
