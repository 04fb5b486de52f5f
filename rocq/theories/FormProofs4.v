(* C70: what a pool and its pipelines send has attributes of the forms. *)
From Verif Require Import Base BaseProofs Lit NumModel TextModel MsgModel XmlModel SerModel SerClasses WireModel SendClasses ObjModel StartModel TellModel FormSpec.
From Verif Require PoolModel.
Require Import Lia.
Import PoolModel (omsg, OCapability, OInit, OConnect, OSetMin, OSetMax, OAvailable, OReset, OPublicKey, OPoolResponse, OPipelineResponse, OCreate, OMetadata, OInput, OEnd).
Local Open Scope list_scope.

Lemma lit_inj a b : lit a = lit b -> a = b.
Proof.
  unfold lit. intros H. rewrite <- (string_of_list_ascii_of_string a), <- (string_of_list_ascii_of_string b). f_equal.
  revert H. generalize (list_ascii_of_string a) (list_ascii_of_string b). intros l. induction l as [|x l IH]; intros [|y m] H; cbn [map] in H; try discriminate H; [reflexivity|].
  apply cons_inj in H. destruct H as (H1 & H2). f_equal; [|apply IH; exact H2]. rewrite <- (ascii_N_embedding x), <- (ascii_N_embedding y). f_equal. exact H1.
Qed.
Fixpoint layout_of (c : String.string) (l : list (String.string * layout)) : option layout :=
  match l with [] => None | (k, y) :: l' => if String.eqb k c then Some y else layout_of c l' end.
Lemma layout_in c y : forall l, NoDup (map fst l) -> In (c, y) l -> layout_of c l = Some y.
Proof.
  induction l as [|(k, z) l IH]; intros D H; [destruct H|]. cbn [map fst] in D. apply NoDup_cons_iff in D. destruct D as (D1 & D2). cbn [layout_of].
  destruct H as [E|H].
  - apply pair_inj in E. destruct E as (-> & ->). rewrite String.eqb_refl. reflexivity.
  - destruct (String.eqb k c) eqn:E; [|apply IH; assumption]. apply String.eqb_eq in E. subst k. exfalso. apply D1. apply in_map_iff. exists (c, y). split; [reflexivity|exact H].
Qed.
Fixpoint apartb (l : list String.string) : bool := match l with [] => true | a :: l' => negb (existsb (String.eqb a) l') && apartb l' end.
Lemma apartb_ok l : apartb l = true -> NoDup l.
Proof.
  induction l as [|a l IH]; intros H; [constructor|]. cbn [apartb] in H. apply andb_true_iff in H. destruct H as (H1 & H2). constructor; [|apply IH; exact H2].
  intros K. apply negb_true_iff in H1. assert (X : existsb (String.eqb a) l = true) by (apply existsb_exists; exists a; split; [exact K|apply String.eqb_refl]). congruence.
Qed.
Lemma forms_layout c y : In (c, y) forms -> layout_of c forms = Some y.
Proof. apply layout_in. apply apartb_ok. vm_compute. reflexivity. Qed.
Lemma layout_known c y : forall l, layout_of c l = Some y -> In c (map fst l).
Proof.
  induction l as [|(k, z) l IH]; cbn [layout_of map fst]; intros H; [discriminate H|]. destruct (String.eqb k c) eqn:E; [left; apply String.eqb_eq; exact E|right; apply IH; exact H].
Qed.

Section Fit.
  Context (ci : option cipher).
  Notation suits := (suits ci). Notation suit_all := (suit_all ci). Notation suit_pairs := (suit_pairs ci). Notation in_form := (in_form ci). Notation suited := (suited ci).

  (* ---- more instances ---- *)
  Lemma nth_more (h t : list hobj) n o : nth_error h n = Some o -> nth_error (h ++ t) n = Some o.
  Proof. intros H. rewrite nth_error_app1; [exact H|]. apply nth_error_Some. rewrite H. discriminate. Qed.
  Scheme suits_ind2 := Induction for FormSpec.suits Sort Prop
  with suit_all_ind2 := Induction for FormSpec.suit_all Sort Prop
  with suit_pairs_ind2 := Induction for FormSpec.suit_pairs Sort Prop.
  Lemma suits_more h t f v : suits h f v -> suits (h ++ t) f v.
  Proof.
    intros H. induction H using suits_ind2 with (P0 := fun f vs _ => suit_all (h ++ t) f vs) (P1 := fun k f l _ => suit_pairs (h ++ t) k f l); try (econstructor; eassumption).
    eapply su_class; [eassumption|apply nth_more; eassumption].
  Qed.
  Lemma all_more h t f vs : suit_all h f vs -> suit_all (h ++ t) f vs.
  Proof. induction 1; constructor; [apply suits_more|]; assumption. Qed.

  Fixpoint obliged (h : list hobj) (attrs : list (list N * value)) (rows : list row) : Prop :=
    match rows with
    | [] => True
    | Row a f _ _ :: rows' => match dict_get str_eqb (lit a) attrs with Some v => suits h f v | None => True end /\ obliged h attrs rows'
    end.
  Lemma obliged_suited h attrs rows : obliged h attrs rows -> Forall (suited h attrs) rows.
  Proof.
    induction rows as [|[a f nm o] rows IH]; intros H; [constructor|]. destruct H as (H1 & H2). constructor; [|apply IH; exact H2]. intros v E. rewrite E in H1. exact H1.
  Qed.
  Definition fits (h : list hobj) (c : String.string) (attrs : list (list N * value)) : Prop :=
    match layout_of c forms with
    | Some (LObject _ ad ex) => obliged h attrs ad /\ obliged h attrs ex
    | Some (LEnum _ _) => exists z, dict_get str_eqb (lit "value") attrs = Some (VInt z)
    | None => True
    end.
  Lemma suited_more h t attrs rows : Forall (suited h attrs) rows -> Forall (suited (h ++ t) attrs) rows.
  Proof. intros H. eapply Forall_impl; [|exact H]. intros [a f nm o] K v E. apply suits_more. exact (K v E). Qed.
  Lemma form_put h o : in_form h -> (forall c attrs, o = HCls (lit c) attrs -> fits h c attrs) -> in_form (h ++ [o]).
  Proof.
    intros G F n c attrs H. assert (L : (n < length h)%nat \/ n = length h \/ (length h < n)%nat) by lia. destruct L as [L|[->|L]].
    - rewrite nth_error_app1 in H by exact L. destruct (G n c attrs H) as (G1 & G2). split; [|exact G2]. intros ts ad ex Hl. destruct (G1 ts ad ex Hl). split; apply suited_more; assumption.
    - rewrite nth_error_app2, Nat.sub_diag in H by lia. apply Some_inj in H. specialize (F c attrs H). unfold fits in F. split.
      + intros ts ad ex Hl. rewrite (forms_layout _ _ Hl) in F. destruct F as (F1 & F2). split; apply suited_more; apply obliged_suited; assumption.
      + intros ty names Hl v Ev. rewrite (forms_layout _ _ Hl) in F. destruct F as (z & F). exists z. congruence.
    - assert (X : nth_error (h ++ [o]) n = None) by (apply nth_error_None; rewrite app_length; cbn [length]; lia). congruence.
  Qed.

  (* ---- the constructor calls ---- *)
  Definition step (f : form) (h : list hobj) (r : list hobj * value) : Prop := (exists t, fst r = h ++ t) /\ in_form (fst r) /\ suits (fst r) f (snd r).
  Lemma instance_attrs c l c' attrs : instance c l = HCls (lit c') attrs -> c' = c /\ attrs = map (fun e => (lit (fst e), snd e)) l.
  Proof. unfold instance. intros H. assert (K : lit c = lit c' /\ map (fun e => (lit (fst e), snd e)) l = attrs) by (split; congruence). destruct K as (K1 & K2). apply lit_inj in K1. auto. Qed.
  Lemma put_step h c l : in_form h -> In c (map fst forms) -> fits h c (map (fun e => (lit (fst e), snd e)) l) -> step (FClass c) h (put h (instance c l)).
  Proof.
    intros G Hc F. unfold step, put. cbn [fst snd]. split; [eexists; reflexivity|]. split.
    - apply form_put; [exact G|]. intros c' attrs E. apply instance_attrs in E. destruct E as (-> & ->). exact F.
    - eapply su_class; [exact Hc|]. rewrite nth_error_app2, Nat.sub_diag by lia. reflexivity.
  Qed.
  Lemma step_trans f h h1 r : (exists t, h1 = h ++ t) -> step f h1 r -> step f h r.
  Proof. intros (t & ->) ((t2 & E) & G & S). split; [exists (t ++ t2); rewrite E; symmetry; apply app_assoc|]. split; assumption. Qed.
  Lemma all_step {A} f (p : list hobj -> A -> list hobj * value) (l : list A) : (forall h a, In a l -> in_form h -> step f h (p h a)) ->
    forall h, in_form h -> (exists t, fst (put_all p h l) = h ++ t) /\ in_form (fst (put_all p h l)) /\ suit_all (fst (put_all p h l)) f (snd (put_all p h l)).
  Proof.
    induction l as [|a l IH]; intros P h G; cbn [put_all].
    - cbn [fst snd]. split; [exists []; symmetry; apply app_nil_r|]. split; [exact G|constructor].
    - destruct (P h a (or_introl eq_refl) G) as ((t & E) & G1 & S). destruct (p h a) as (h1, v). cbn [fst snd] in *.
      destruct (IH (fun h b K => P h b (or_intror K)) h1 G1) as ((t2 & E2) & G2 & S2). destruct (put_all p h1 l) as (h2, vs). cbn [fst snd] in *.
      split; [exists (t ++ t2); rewrite E2, E; symmetry; apply app_assoc|]. split; [exact G2|]. constructor; [rewrite E2; apply suits_more; exact S|exact S2].
  Qed.
  Ltac known := vm_compute; repeat (first [left; reflexivity | right]).
  Ltac text := first [apply su_none | eapply su_text; constructor; fail | eapply su_text; apply sh_int; cbn [In]; tauto | apply su_any].
  Ltac oblige := unfold fits; lazy beta iota zeta delta [layout_of forms String.eqb Ascii.eqb Bool.eqb host_answer merge];
    repeat match goal with |- _ /\ _ => split end; cbn [obliged]; repeat match goal with |- _ /\ _ => split | |- True => exact Logic.I end;
    lazy beta iota zeta delta [dict_get str_eqb list_eqb lit map list_ascii_of_string N_of_ascii N_of_digits N.add N.mul N.eqb Pos.eqb Pos.add Pos.mul fst snd andb app instance String.append]; try exact Logic.I.
  Lemma enum_step h c z : in_form h -> In c (map fst forms) -> (exists ty names, layout_of c forms = Some (LEnum ty names)) -> step (FClass c) h (put_enum c h z).
  Proof. intros G Hc (ty & names & L). apply put_step; [exact G|exact Hc|]. unfold fits. rewrite L. exists z. reflexivity. Qed.
  Lemma stream_step h p : in_form h -> step (FClass "PipelineResultTypes") h (put_stream h p).
  Proof.
    intros G. destruct p as [q|]; cbn [put_stream].
    - apply put_step; [exact G|known|]. oblige. eexists. reflexivity.
    - split; [exists []; symmetry; apply app_nil_r|]. split; [exact G|apply su_none].
  Qed.
  Lemma maybe_flag_suits h b : suits h (FText "B") (maybe_flag b).
  Proof. destruct b as [[|]|]; [eapply su_text; constructor|eapply su_text; constructor|apply su_none]. Qed.
  Lemma flag_suits h b : suits h (FText "B") (VBool b).
  Proof. exact (maybe_flag_suits h (Some b)). Qed.
  Lemma maybe_text_suits h s : suits h (FText "S") (maybe_text s).
  Proof. destruct s as [s|]; [eapply su_text; constructor|apply su_none]. Qed.
  Lemma argument_step h a : in_form h -> step (FClass "CommandParameter") h (put_argument h a).
  Proof. intros G. apply put_step; [exact G|known|]. oblige; [apply maybe_text_suits|apply su_any]. Qed.
  Lemma suit_eight h f a b c d e g i j l : suit_all h f (a :: b :: c :: d :: e :: g :: i :: j :: l) ->
    suits h f a /\ suits h f b /\ suits h f c /\ suits h f d /\ suits h f e /\ suits h f g /\ suits h f i /\ suits h f j.
  Proof.
    intros H. assert (U : forall v vs, suit_all h f (v :: vs) -> suits h f v /\ suit_all h f vs) by (intros v vs K; inversion K; subst; auto).
    repeat (apply U in H; destruct H as (? & H)). tauto.
  Qed.
  Lemma put_all_length {A} (p : list hobj -> A -> list hobj * value) l : forall h, length (snd (put_all p h l)) = length l.
  Proof. induction l as [|a l IH]; intros h; cbn [put_all]; [reflexivity|]. destruct (p h a) as (h1, v). specialize (IH h1). destruct (put_all p h1 l). cbn [snd length] in *. rewrite IH. reflexivity. Qed.
  Lemma command_step h c : in_form h -> step (FClass "Command") h (put_command h c).
  Proof.
    intros G. unfold put_command. destruct (all_step (FClass "PipelineResultTypes") put_stream (streams c) (fun h p _ K => stream_step h p K) h G) as (T1 & G1 & S1).
    pose proof (put_all_length put_stream (streams c) h) as L. destruct (put_all put_stream h (streams c)) as (h1, ms). cbn [fst snd] in *.
    destruct (all_step (FClass "CommandParameter") put_argument (c_args c) (fun h a _ K => argument_step h a K) h1 G1) as ((t2 & T2) & G2 & S2).
    destruct (put_all put_argument h1 (c_args c)) as (h2, args). cbn [fst snd] in *. apply (all_more h1 t2) in S1. rewrite <- T2 in S1.
    cbn [streams length] in L. do 9 (destruct ms as [|? ms]; try discriminate L). apply suit_eight in S1. destruct S1 as (A1 & A2 & A3 & A4 & A5 & A6 & A7 & A8).
    apply (step_trans _ h h2); [destruct T1 as (t1 & ->); exists (t1 ++ t2); rewrite T2; symmetry; apply app_assoc|].
    apply put_step; [exact G2|known|]. unfold stream_names. cbn [combine]. oblige; try assumption; [eapply su_text; constructor|apply flag_suits|apply maybe_flag_suits|apply su_list; exact S2].
  Qed.
  Lemma commands_step h cs : in_form h -> (exists t, fst (put_all put_command h cs) = h ++ t) /\ in_form (fst (put_all put_command h cs)) /\ suit_all (fst (put_all put_command h cs)) (FClass "Command") (snd (put_all put_command h cs)).
  Proof. apply (all_step (FClass "Command") put_command cs (fun h c _ K => command_step h c K)). Qed.
  Lemma extra_step h s : in_form h -> step (FClass "Pipeline._ExtraCmds") h (put_extra h s).
  Proof.
    intros G. unfold put_extra. destruct (commands_step h s G) as (T1 & G1 & S1). destruct (put_all put_command h s) as (h1, vs). cbn [fst snd] in *.
    apply (step_trans _ h h1 _ T1). apply put_step; [exact G1|known|]. oblige. apply su_list. exact S1.
  Qed.
  Lemma pipeline_step h nested cs history redirect r : in_form h -> put_pipeline h nested cs history redirect = Ok r -> step (FClass "Pipeline") h r.
  Proof.
    intros G H. unfold put_pipeline in H. apply bind_ok in H. destruct H as (extra & _ & H). apply bind_ok in H. destruct H as (first & _ & H).
    assert (E : exists h1 ev, (match extra with None => (h, VNone) | Some ss => let '(h1, vs) := put_all put_extra h ss in (h1, VList vs) end) = (h1, ev) /\
      (exists t, h1 = h ++ t) /\ in_form h1 /\ suits h1 (FList psobjects (FClass "Pipeline._ExtraCmds")) ev).
    { destruct extra as [ss|].
      - destruct (all_step (FClass "Pipeline._ExtraCmds") put_extra ss (fun h s _ K => extra_step h s K) h G) as (T & G1 & S1). destruct (put_all put_extra h ss) as (h1, vs). cbn [fst snd] in *.
        exists h1, (VList vs). split; [reflexivity|]. split; [exact T|]. split; [exact G1|apply su_list; exact S1].
      - exists h, VNone. split; [reflexivity|]. split; [exists []; symmetry; apply app_nil_r|]. split; [exact G|apply su_none]. }
    destruct E as (h1 & ev & E & T1 & G1 & S1). rewrite E in H. clear E. destruct (commands_step h1 first G1) as ((t2 & T2) & G2 & S2). destruct (put_all put_command h1 first) as (h2, vs). cbn [fst snd] in *.
    apply Ok_inj in H. subst r. apply (suits_more h1 t2) in S1. rewrite <- T2 in S1.
    apply (step_trans _ h h2); [destruct T1 as (t1 & ->); exists (t1 ++ t2); rewrite T2; symmetry; apply app_assoc|].
    apply put_step; [exact G2|known|]. oblige; [apply flag_suits|exact S1|apply su_list; exact S2|apply maybe_text_suits|apply flag_suits].
  Qed.
  (* ---- the host ---- *)
  Lemma generic_put h g : in_form h -> in_form (h ++ [HGen g]).
  Proof. intros G. apply form_put; [exact G|]. intros c attrs E. discriminate E. Qed.
  Lemma step_any f h r : step f h r -> step FAny h r.
  Proof. intros (T & G & _). split; [exact T|]. split; [exact G|apply su_any]. Qed.
  Lemma hentry_step h e : in_form h -> step FAny h (put_hentry h e).
  Proof.
    intros G. destruct e; cbn [put_hentry].
    - apply (step_any (FClass "_HostDefaultData._Color")). apply put_step; [exact G|known|]. oblige; [eapply su_text; constructor|eapply su_text; apply sh_int; cbn [In]; tauto].
    - unfold put at 1. apply (step_trans _ h (h ++ [generic [("x"%string, VInt x); ("y"%string, VInt y)]])); [eexists; reflexivity|]. apply (step_any (FClass "_HostDefaultData._Coordinates")).
      apply put_step; [apply generic_put; exact G|known|]. oblige; [eapply su_text; constructor|apply su_any].
    - unfold put at 1. eapply (step_trans _ h); [eexists; reflexivity|]. apply (step_any (FClass "_HostDefaultData._Size")).
      apply put_step; [apply generic_put; exact G|known|]. oblige; [eapply su_text; constructor|apply su_any].
    - apply (step_any (FClass "_HostDefaultData._DictValue")). apply put_step; [exact G|known|]. oblige; [eapply su_text; constructor|apply su_any].
    - apply (step_any (FClass "_HostDefaultData._DictValue")). apply put_step; [exact G|known|]. oblige; [eapply su_text; constructor|apply su_any].
  Qed.
  Lemma pairs_suit h (d : list (Z * hentry)) : forall vs, suit_pairs h (FText "I32") FAny (combine (map (fun e => VInt (fst e)) d) vs).
  Proof.
    induction d as [|e d IH]; intros vs; cbn [map combine]; [constructor|]. destruct vs as [|v vs]; [constructor|]. constructor; [eapply su_text; apply sh_int; cbn [In]; tauto|apply su_any|apply IH].
  Qed.
  Lemma host_data_step h d : in_form h -> step (FClass "_HostDefaultData") h (put_host_data h d).
  Proof.
    intros G. unfold put_host_data. destruct (all_step FAny put_hentry (map snd d) (fun h e _ K => hentry_step h e K) h G) as (T & G1 & _). destruct (put_all put_hentry h (map snd d)) as (h1, vs). cbn [fst snd] in *.
    apply (step_trans _ h h1 _ T). apply put_step; [exact G1|known|]. oblige. eapply su_dict; [right; reflexivity|]. apply pairs_suit.
  Qed.
  Lemma host_step h hs : in_form h -> step (FClass "HostInfo") h (put_host h hs).
  Proof.
    intros G. unfold put_host.
    assert (E : exists h1 d, (match host_data hs with Some d => put_host_data h d | None => (h, VNone) end) = (h1, d) /\ (exists t, h1 = h ++ t) /\ in_form h1 /\ suits h1 (FClass "_HostDefaultData") d).
    { destruct (host_data hs) as [d|].
      - destruct (host_data_step h d G) as (T & G1 & S1). destruct (put_host_data h d) as (h1, v). exists h1, v. split; [reflexivity|]. split; [exact T|]. split; [exact G1|exact S1].
      - exists h, VNone. split; [reflexivity|]. split; [exists []; symmetry; apply app_nil_r|]. split; [exact G|apply su_none]. }
    destruct E as (h1 & d & E & T1 & G1 & S1). rewrite E. clear E. apply (step_trans _ h h1 _ T1). apply put_step; [exact G1|known|]. oblige; try apply flag_suits. exact S1.
  Qed.
  Lemma start_step h p q r : in_form h -> put_start h p q = Ok r -> step (FClass "CreatePipeline") h r.
  Proof.
    intros G H. unfold put_start in H. destruct (host_step h (pl_host p) G) as (T1 & G1 & S1). destruct (put_host h (pl_host p)) as (h1, hv). cbn [fst snd] in *.
    apply bind_ok in H. destruct H as ((h2, pv) & H2 & H). destruct (pipeline_step _ _ _ _ _ _ G1 H2) as (T2 & G2 & S2). cbn [fst snd] in *.
    destruct (enum_step h2 "ApartmentState" (apartment_used p q) G2 ltac:(known) ltac:(eexists; eexists; reflexivity)) as (T3 & G3 & S3). destruct (put_enum "ApartmentState" h2 (apartment_used p q)) as (h3, av). cbn [fst snd] in *.
    destruct (enum_step h3 "RemoteStreamOptions" (q_options q) G3 ltac:(known) ltac:(eexists; eexists; reflexivity)) as (T4 & G4 & S4). destruct (put_enum "RemoteStreamOptions" h3 (q_options q)) as (h4, sv). cbn [fst snd] in *.
    apply Ok_inj in H. subst r. destruct T1 as (t1 & ->), T2 as (t2 & ->), T3 as (t3 & ->), T4 as (t4 & ->).
    eapply step_trans; [|apply put_step; [exact G4|known|]]; [exists (t1 ++ t2 ++ t3 ++ t4); repeat rewrite <- app_assoc; reflexivity|].
    oblige; try apply flag_suits; try exact S4; repeat (first [exact S1|exact S2|exact S3|apply suits_more]).
  Qed.
  Lemma integer_suits h tag z : In tag ["I32"; "I64"; "U32"]%string -> suits h (FText tag) (VInt z).
  Proof. intros H. eapply su_text. apply sh_int. exact H. Qed.
End Fit.
