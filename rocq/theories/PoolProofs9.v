(* What a pipeline has collected when it ends (C23). *)
From Verif Require Import Base BaseProofs Lit NumModel TextModel TextProofs XmlModel WsmanModel WsmanProofs ShellModel ShellSpec ShellProofs ShellProofs2 FragModel FragSpec FragProofs FragProofs2 MsgModel UtilModel TransModel PoolModel PoolSpec PoolProofs PoolProofs2 PoolProofs3 PoolProofs4 PoolProofs5 PoolProofs6 PoolProofs7.
Require Import Lia ZifyBool ZifyNat ZifyN.

(* ---- the answer to a receive request ---- *)
Lemma add_streams_one ss cs : chunked ss cs -> forall o r, add_streams ss [(lit "stdout", o)] = Ok r ->
  r = [(lit "stdout", o ++ chunks_on (lit "stdout") cs)].
Proof.
  unfold chunks_on. induction 1 as [|s ss cs T C IH|s ss n d cs B T A C IH]; intros o r; cbn [add_streams filter map concat].
  - intros H. apply Ok_inj in H. now rewrite app_nil_r.
  - rewrite (text_text s), T. apply IH.
  - rewrite (text_text s), T. rewrite b64_roundtrip by exact B. cbn [bind]. rewrite (attr_attr _ s), A.
    intros H. cbn [fst]. cbn [dict_get] in H. destruct (str_eqb n (lit "stdout")) eqn:E1; [|discriminate].
    apply str_eqb_spec in E1. subst n. cbn [dict_set] in H. rewrite str_eqb_refl in H.
    apply IH in H. subst r. cbn [map concat snd]. now rewrite <- app_assoc.
Qed.
Lemma said_data r state rc cs v b data : says r (Said state rc cs) -> r = WBody b -> parse_receive (lit "stdout") b = Ok v ->
  dict_get str_eqb (lit "stdout") (snd v) = Some data -> data = on_stream (lit "stdout") (Said state rc cs).
Proof.
  intros (b0 & st & ec & -> & L1 & L2 & S1 & S2 & R1 & R2 & C) E. assert (b = Some b0) by congruence. subst b. clear E.
  unfold parse_receive. change (fold_left (fun d n => dict_set str_eqb n [] d) (split_space [] (lit "stdout")) []) with [(lit "stdout", @nil N)].
  intros H. apply bind_ok in H. destruct H as (sv & _ & H). apply bind_ok in H. destruct H as (rv & _ & H).
  apply bind_ok in H. destruct H as (bv & Hb & H). apply Ok_inj in H. subst v. cbn [snd].
  apply (add_streams_one _ _ C) in Hb. subst bv. cbn [dict_get]. rewrite str_eqb_refl. intros D. apply Some_inj in D. subst data. reflexivity.
Qed.
Lemma says_late r s : says r s -> late r -> s = SaidNothing.
Proof. destruct s; [reflexivity|]. intros (b & st & ec & -> & _) [f [C _]]. discriminate C. Qed.
Lemma says_body b s : says (WBody b) s -> exists x y z, s = Said x y z.
Proof. destruct s; [|eauto]. intros [f [C _]]. discriminate C. Qed.

(* ---- an output message holds output ---- *)
Lemma bool_case (b : bool) : b = true \/ b = false.
Proof. destruct b; auto. Qed.
Lemma unpack_type {Obj} (cd : codec Obj) b m : message_unpack cd b = Ok m -> m_type m = data_type (m_data m).
Proof.
  unfold message_unpack, message_new. intros H. apply bind_ok in H as [h [_ H]]. apply bind_ok in H as [d [_ H]].
  apply bind_ok in H as [x [_ H]]. apply bind_ok in H as [y [_ H]]. apply Ok_inj in H. subst m. reflexivity.
Qed.

Section Ended.
  Context {Obj Cmd HS RK : Type} (E : env Obj Cmd HS RK).
  Notation world := (world Obj Cmd HS RK).
  Notation M A := (world -> out A * world).

  Lemma outputs_objects ms : Forall (fun m => m_type m = PIPELINE_OUTPUT -> exists o, m_data m = DOutput o) ms ->
    outputs_of ms = objects (Obj := Obj) PIPELINE_OUTPUT ms.
  Proof.
    induction 1 as [|m ms Hm F IH]; [reflexivity|]. cbn [outputs_of objects flat_map]. fold (outputs_of ms). fold (objects PIPELINE_OUTPUT ms). rewrite IH.
    destruct (Z.eqb_spec (m_type m) PIPELINE_OUTPUT) as [T|T]; [|reflexivity]. destruct (Hm T) as [o D]. unfold carried. rewrite D. reflexivity.
  Qed.

  (* ---- appending ---- *)
  Lemma objects_app ty (a b : list (message Obj)) : objects ty (a ++ b) = objects ty a ++ objects ty b.
  Proof. apply flat_map_app. Qed.
  Lemma outputs_app (a b : list (message Obj)) : outputs_of (a ++ b) = outputs_of a ++ outputs_of b.
  Proof. apply flat_map_app. Qed.
  Lemma for_pipeline_app r (a b : list (event Obj Cmd)) : for_pipeline r (a ++ b) = for_pipeline r a ++ for_pipeline r b.
  Proof. apply flat_map_app. Qed.
  Lemma attended_app p p' p'' a b : attended E p p' a -> attended E (Cmd := Cmd) p' p'' b -> attended E p p'' (a ++ b).
  Proof.
    intros [[A1 [A2 [A3 [A4 [A5 A6]]]]] [A7 A8]] [[B1 [B2 [B3 [B4 [B5 B6]]]]] [B7 B8]]. unfold attended, grown.
    rewrite B1, A1, B2, A2, B3, A3, B4, A4, B5, A5, B6, A6, B7, A7, B8, A8, !objects_app, !app_assoc.
    unfold errors, final_state, any_failed. rewrite flat_map_app, fold_left_app, existsb_app, orb_assoc, app_assoc. repeat split.
  Qed.
  Lemma settled_trans (p p' p'' : ps Obj Cmd) : settled p p' -> settled p' p'' -> settled p p''.
  Proof. intros (A1&A2&A3&A4&A5&A6) (B1&B2&B3&B4&B5&B6). unfold settled. rewrite B1, B2, B3, B4, B5, B6. auto 10. Qed.
  Lemma answers_pipeline r l : Forall (answers (Obj := Obj) (Cmd := Cmd)) l -> for_pipeline r l = [].
  Proof. intros F. induction F as [|e l A F IH]; [reflexivity|]. cbn [for_pipeline flat_map]. fold (for_pipeline r l). rewrite IH. destruct e; [destruct A| |]; reflexivity. Qed.

  (* ---- handling a batch for one pipeline ---- *)
  Definition registered (r : nat) (w : world) : Prop :=
    (r < length (w_heap w))%nat /\ ps_id (the_ps r w) <> [] /\ dict_get str_eqb (ps_id (the_ps r w)) (rp_pipelines (w_pool w)) = Some r /\
    rp_exchange (w_pool w) = None.
  Record kept (r : nat) (w w' : world) : Prop := {
    kp_reg : registered r w -> registered r w';
    kp_cipher : rp_exchange (w_pool w) = None -> rp_cipher (w_pool w') = rp_cipher (w_pool w);
    kp_settled : settled (the_ps r w) (the_ps r w') }.
  Lemma kept_refl r w : kept r w w.
  Proof. split; auto. apply settled_refl. Qed.
  Lemma kept_trans r a b c : registered r a -> kept r a b -> kept r b c -> kept r a c.
  Proof.
    intros G [A1 A2 A3] [B1 B2 B3]. split; auto.
    - intros K. rewrite B2, A2; auto. destruct (A1 G) as (_ & _ & _ & X). exact X.
    - eapply settled_trans; eauto.
  Qed.
  Lemma kept_silent r w w' : w_pool w' = w_pool w -> w_heap w' = w_heap w -> kept r w w'.
  Proof. intros P H. split; rewrite ?P; unfold registered, the_ps; rewrite ?P, ?H; auto. apply settled_refl. Qed.
  Lemma kept_handle r pl m (w : world) : kept r w (snd (handle E pl m w)).
  Proof.
    destruct (handle_effect E pl m w) as [F _ _ P _ _ _ K _]. set (w' := snd _) in *. destruct (P r) as [S [O A]].
    split; [|intros X; destruct K as [[_ [_ ->]]|[o [k [b [d [_ [C _]]]]]]]; [reflexivity|congruence]|exact S].
    intros (L & I & D & X). destruct S as (S1 & _). unfold registered. rewrite (fr_heap _ _ F), S1, (fr_pipelines _ _ F).
    split; [exact L|]. split; [exact I|]. split; [exact D|]. destruct K as [[-> _]|[o [k [b [d [_ [C _]]]]]]]; [exact X|congruence].
  Qed.
  Lemma each_handle r ms : forall (w w' : world) x, registered r w -> each (handle E (Some r)) ms w = (x, w') ->
    exists qs l done_, requests w w' qs /\ Forall sends_pr qs /\ since w w' l /\ kept r w w' /\
      rp_receiver (w_pool w') = rp_receiver (w_pool w) /\ w_disabled w' = w_disabled w /\
      ps_output (the_ps r w') = ps_output (the_ps r w) /\
      for_pipeline r l = done_ /\ attended E (the_ps r w) (the_ps r w') done_ /\ (x = Ret tt -> done_ = ms).
  Proof.
    induction ms as [|m ms IH]; intros w w' x G H; cbn [each] in H.
    - unfold ret in H. apply pair_inj in H as [<- <-]. exists [], [], [].
      split; [unfold requests; rewrite app_nil_r; reflexivity|]. split; [constructor|]. split; [apply since_refl|]. split; [apply kept_refl|].
      split; [reflexivity|]. split; [reflexivity|]. split; [reflexivity|]. split; [reflexivity|]. split; [apply attended_nil|]. reflexivity.
    - pose proof (handle_effect E (Some r) m w) as [F [l1 [L1 [A1 _]]] _ P _ _ _ _ _]. pose proof (kept_handle r (Some r) m w) as K1.
      unfold mbind in H. destruct (handle E (Some r) m w) as [y w1]. cbn [snd] in *.
      destruct (P r) as [S [O At]]. destruct (fr_hist _ _ F) as [q1 [Q1 Q1f]].
      assert (Fp : for_pipeline r (EMsg (Some r) m :: l1) = [m]).
      { change (EMsg (Some r) m :: l1) with ([EMsg (Some r) m] ++ l1). rewrite for_pipeline_app, (answers_pipeline r l1 A1), app_nil_r. cbn. rewrite Nat.eqb_refl. reflexivity. }
      assert (At1 : attended E (the_ps r w) (the_ps r w1) [m]).
      { specialize (At (proj1 G)). cbn in At. rewrite Nat.eqb_refl in At. exact At. }
      destruct y as [[]|y].
      + destruct (IH _ _ _ (kp_reg _ _ _ K1 G) H) as (qs & l & dn & Q & Qf & L & K & R & D & Oo & Fl & A & X).
        exists (q1 ++ qs), ((EMsg (Some r) m :: l1) ++ l), (m :: dn).
        split; [unfold requests in *; rewrite Q, Q1, app_assoc; reflexivity|]. split; [apply Forall_app; auto|].
        split; [eapply since_trans; eauto|]. split; [eapply kept_trans; eauto|].
        split; [rewrite R; apply (fr_receiver _ _ F)|]. split; [rewrite D; apply (fr_disabled _ _ F)|]. split; [rewrite Oo; exact O|].
        split; [rewrite for_pipeline_app, Fp, Fl; reflexivity|]. split; [change (m :: dn) with ([m] ++ dn); eapply attended_app; eauto|].
        intros Ex. rewrite (X Ex). reflexivity.
      + apply pair_inj in H as [<- <-]. exists q1, (EMsg (Some r) m :: l1), [m].
        split; [exact Q1|]. split; [exact Q1f|]. split; [exact L1|]. split; [exact K1|]. split; [apply (fr_receiver _ _ F)|].
        split; [apply (fr_disabled _ _ F)|]. split; [exact O|]. split; [exact Fp|]. split; [exact At1|]. intros C; discriminate C.
  Qed.

  (* ---- operation timeouts come only from the host and its data ---- *)
  Definition timeout_of (x : raised) : Prop := exists f, x = XFault f /\ f_code f = CInt 2150858793.
  Lemma is_code_timeout x : is_code x operation_timeout = true -> timeout_of x.
  Proof.
    destruct x as [f|c t|e]; cbn [is_code]; try discriminate. destruct (f_code f) as [ | |z] eqn:C; try discriminate. intros H. apply Z.eqb_eq in H. subst z.
    exists f. split; [reflexivity|exact C].
  Qed.
  Definition blamed (w : world) (e : option raised) (w' : world) : Prop :=
    exists qs l, requests w w' qs /\ since w w' l /\ (forall x, e = Some x -> timeout_of x -> ~ undisturbed qs l).
  Lemma undisturbed_app qs qs' l l' : undisturbed (Obj := Obj) (Cmd := Cmd) (qs ++ qs') (l ++ l') -> undisturbed qs l /\ undisturbed qs' l'.
  Proof. intros [A B]. split; (split; [intros q r H; apply (A q r); apply in_or_app; auto|intros mi mp pl f H; apply (B mi mp pl f); apply in_or_app; auto]). Qed.
  Lemma blamed_trans a b e c : blamed a None b -> blamed b e c -> blamed a e c.
  Proof.
    intros [q1 [l1 [Q1 [L1 _]]]] [q2 [l2 [Q2 [L2 X]]]]. exists (q1 ++ q2), (l1 ++ l2).
    split; [unfold requests in *; rewrite Q2, Q1, app_assoc; reflexivity|]. split; [eapply since_trans; eauto|].
    intros x Ex T U. apply undisturbed_app in U as [_ U]. exact (X x Ex T U).
  Qed.
  Lemma blamed_exn w e w' qs l : requests w w' qs -> since w w' l -> (forall x, e = Some x -> exists y, x = XExn y) -> blamed w e w'.
  Proof. intros Q L X. exists qs, l. split; [exact Q|]. split; [exact L|]. intros x Ex [f [-> _]]. destruct (X _ Ex) as [y C]. discriminate C. Qed.
  Lemma blamed_silent {A} (m : M A) : (forall w, w_hist (snd (m w)) = w_hist w) -> (forall w, exists l, since w (snd (m w)) l) ->
    (forall w x, fst (m w) = Raise x -> exists y, x = XExn y) -> runs blamed m.
  Proof.
    intros Hh Hl Hx w. destruct (Hl w) as [l L]. eapply (blamed_exn _ _ _ [] l); [unfold requests; rewrite Hh, app_nil_r; reflexivity|exact L|].
    intros x Ex. destruct (fst (m w)) as [v|v] eqn:F; cbn [err] in Ex; [discriminate|]. apply Some_inj in Ex. subst. eapply Hx; eauto.
  Qed.
  Ltac still := apply blamed_silent; [reflexivity | intros; first [exists []; unfold since; cbn; rewrite app_nil_r; reflexivity | eexists; reflexivity] | intros ? ? X; try discriminate X].
  Lemma blamed_throw {A} e : runs blamed (@throw Obj Cmd HS RK A e).
  Proof. still. cbn in X. eexists. injection X as <-. reflexivity. Qed.
  Lemma blamed_lift {A} (r : res A) : runs blamed (lift r).
  Proof. destruct r; [|apply blamed_throw]. still. Qed.
  Lemma blamed_ret {A} (a : A) : runs blamed (ret a).
  Proof. still. Qed.
  Lemma blamed_get {A} (f : world -> A) : runs blamed (get f).
  Proof. still. Qed.
  Lemma blamed_updp f : runs blamed (updp f).
  Proof. still. Qed.
  Lemma blamed_updps r f : runs blamed (updps r f).
  Proof. still. Qed.
  Lemma blamed_observe e : runs blamed (observe e).
  Proof. still. Qed.
  Lemma blamed_send s d c : runs blamed (send E s d c).
  Proof.
    intros w. destruct (send_effect E s d c w) as [q [r [-> [[O _] _]]]]. cbn [fst snd]. exists [(q, r)], [].
    split; [reflexivity|]. split; [unfold since; cbn; rewrite app_nil_r; reflexivity|]. intros x Ex [f [-> C]] [U _]. apply (U q r); [left; reflexivity|exact O|].
    destruct r; cbn [err] in Ex; try discriminate Ex. exists f0. split; [reflexivity|]. congruence.
  Qed.
  Lemma blamed_each {A} (f : A -> M unit) l : (forall x, runs blamed (f x)) -> runs blamed (each f l).
  Proof. intros H. induction l as [|a l IH]; cbn [each]; [apply blamed_ret|]. apply (runs_bind _ blamed_trans); auto. Qed.
  Lemma blamed_frag o pid : runs blamed (fragment_one E o pid).
  Proof.
    unfold fragment_one. repeat (apply (runs_bind _ blamed_trans); [first [apply blamed_get | apply blamed_lift | apply blamed_updp | apply blamed_observe]|intros ?]). apply blamed_ret.
  Qed.
  Lemma blamed_host o pl : runs blamed (process_host_call E o pl).
  Proof.
    unfold process_host_call. destruct (ev_host E) as [run|]; [|match goal with |- context [if ?b then _ else _] => destruct b end; [apply blamed_ret|apply blamed_throw]]. destruct (ev_host_call E o) as [[ci mi] mp].
    apply (runs_bind _ blamed_trans). { destruct pl; [apply (runs_bind _ blamed_trans); [apply blamed_get|intros; apply blamed_ret]|apply blamed_ret]. }
    intros pid. apply (runs_bind _ blamed_trans); [apply blamed_get|intros st]. destruct (run st mi mp pid) as [r st'].
    apply (runs_bind _ blamed_trans). { still. } intros _.
    destruct r as [[mr|]|x].
    - apply (runs_bind _ blamed_trans); [apply blamed_observe|intros _]. apply (runs_bind _ blamed_trans); [apply blamed_frag|intros fs]. apply blamed_each. intros; apply blamed_send.
    - apply (runs_bind _ blamed_trans); [apply blamed_observe|intros _]. apply blamed_ret.
    - intros w. rewrite mbind_observe. cbn [fail fst snd err]. exists [], [EHost mi mp pl (Raise x)].
      split; [unfold requests; cbn; rewrite app_nil_r; reflexivity|]. split; [reflexivity|].
      intros y Ey [f [-> C]] [_ U]. apply (U mi mp pl f); [|exact C]. left. congruence.
  Qed.
  Lemma blamed_handle pl m : runs blamed (handle E pl m).
  Proof.
    unfold handle. apply (runs_bind _ blamed_trans); [apply blamed_observe|intros _]. unfold process_message, data_obj,
      process_session_capability, process_session_key, process_init_data, process_availability, process_pool_state, process_pipeline_state.
    repeat first [apply blamed_host | apply blamed_updp | apply blamed_updps | apply blamed_ret | apply blamed_throw | apply blamed_lift | apply blamed_get
      | match goal with
        | |- runs _ (mbind _ _) => apply (runs_bind _ blamed_trans); [|intros ?]
        | |- runs _ (if ?b then _ else _) => destruct b
        | |- runs _ (match ?x with _ => _ end) => destruct x
        end].
  Qed.

  (* ---- one poll ---- *)
  Definition asks_for (r : nat) (w : world) (q : sreq) : Prop :=
    q_op q = OpReceive -> q_body q = Some (receive_body (lit "stdout") (ps_command_id (the_ps r w))).
  Definition polled (r : nat) (w w' : world) : Prop :=
    kept r w w' /\ exists q a qs l, requests w w' ((q, a) :: qs) /\ since w w' l /\ q_op q = OpReceive /\ asks_for r w q /\ Forall sends_pr qs /\
      (undisturbed ((q, a) :: qs) l ->
         (late a /\ for_pipeline r l = [] /\ rp_receiver (w_pool w') = rp_receiver (w_pool w) /\
          attended E (the_ps r w) (the_ps r w') [] /\ ps_output (the_ps r w') = ps_output (the_ps r w)) \/
         (exists b v data bs ms, a = WBody b /\ parse_receive (lit "stdout") b = Ok v /\ dict_get str_eqb (lit "stdout") (snd v) = Some data /\
            defragment (rp_receiver (w_pool w)) data = (rp_receiver (w_pool w'), Ok bs) /\
            mapM (message_unpack (ev_codec E (rp_cipher (w_pool w)))) bs = Ok ms /\ for_pipeline r l = ms /\
            attended E (the_ps r w) (the_ps r w') ms /\ ps_output (the_ps r w') = ps_output (the_ps r w) ++ outputs_of ms)).
  Lemma poll_done r t w w' : registered r w -> poll_invoke E r t w = (Ret tt, w') -> polled r w w'.
  Proof.
    intros G H. pose proof G as (Lr & Ni & Dr & Xr). unfold poll_invoke in H.
    destruct (ps_id (the_ps r w)) as [|c s] eqn:Eid; [contradiction|].
    unfold receive in H. rewrite mbind_getp in H. cbv zeta in H. rewrite Dr in H.
    unfold mbind at 1 in H. unfold getps, get in H.
    set (cid := ps_command_id (the_ps r w)) in *.
    set (q := request OpReceive (rp_shell (w_pool w)) (Some (receive_body (lit "stdout") cid)) (Some keepalive) t).
    set (a := ev_srv E (w_disabled w) (w_hist w) q).
    set (w1 := set_w_hist (w_hist w ++ [(q, a)]) w).
    assert (On : on_shell E (fun srv => shell_receive srv (lit "stdout") cid t) w =
      (match (match a with WBody b => Ret b | WFault f => Raise (XFault f) | WHttp z x => Raise (XHttp z x) | WExn e => Raise (XExn e) end) with
       | Raise x => Raise x
       | Ret b => match parse_receive (lit "stdout") b with Ok v => Ret v | Err e => Raise (XExn e) end
       end, w1)).
    { unfold on_shell, shell_receive, call. fold q. fold a. destruct a; reflexivity. }
    assert (G1 : registered r w1) by exact G.
    assert (Ky : forall w2, w_pool w2 = w_pool w -> w_heap w2 = w_heap w -> kept r w w2) by (intros; apply kept_silent; auto).
    assert (Q1 : forall w2 qs, requests w1 w2 qs -> requests w w2 ((q, a) :: qs)).
    { unfold requests. intros w2 qs Q. rewrite Q. unfold w1. cbn [w_hist set_w_hist]. rewrite <- app_assoc. reflexivity. }
    assert (Fin : forall w2 x, (Raise x : out (list (message Obj)), w2) = (Raise x, w2) ->
      (if is_code x operation_timeout then (Ret tt, w2) else (Raise x, w2)) = (Ret tt, w') -> w' = w2 /\ timeout_of x).
    { intros w2 x _ K. destruct (is_code x operation_timeout) eqn:Cx; [|exfalso; congruence]. split; [congruence|]. apply is_code_timeout; exact Cx. }
    unfold mbind at 1 in H. rewrite On in H. clear On.
    assert (Late : forall f, a = WFault f -> f_code f = CInt 2150858793 -> w' = w1 -> polled r w w').
    { intros f Ea Ef ->. split; [apply Ky; reflexivity|]. exists q, a, [], []. split; [apply Q1; unfold requests; rewrite app_nil_r; reflexivity|].
      split; [unfold since, w1; cbn; rewrite app_nil_r; reflexivity|]. split; [reflexivity|]. split; [intros _; reflexivity|]. split; [constructor|].
      intros _. left. split; [exists f; auto|]. split; [reflexivity|]. split; [reflexivity|]. split; [apply attended_nil|reflexivity]. }
    destruct a as [b|f|z x|e] eqn:Ea.
    2: { apply Fin in H as [-> [f' [Ef C]]]; [|reflexivity]. apply (Late f'); auto. congruence. }
    2: { apply Fin in H as [_ [f' [Ef C]]]; [|reflexivity]. discriminate Ef. }
    2: { apply Fin in H as [_ [f' [Ef C]]]; [|reflexivity]. discriminate Ef. }
    clear Late. destruct (parse_receive (lit "stdout") b) as [v|e] eqn:Pr.
    2: { apply Fin in H as [_ [f' [Ef C]]]; [|reflexivity]. discriminate Ef. }
    destruct (dict_get str_eqb (lit "stdout") (snd v)) as [data|] eqn:Dd.
    2: { unfold throw, fail in H. apply Fin in H as [_ [f' [Ef C]]]; [|reflexivity]. discriminate Ef. }
    unfold parse_responses in H. rewrite !mbind_getp in H. change (rp_receiver (w_pool w1)) with (rp_receiver (w_pool w)) in H.
    change (rp_cipher (w_pool w1)) with (rp_cipher (w_pool w)) in H.
    destruct (defragment (rp_receiver (w_pool w)) data) as [rc' rb] eqn:Df. rewrite mbind_updp in H.
    set (w2 := set_w_pool (set_rp_receiver rc' (w_pool w1)) w1) in H.
    assert (G2 : registered r w2) by exact G.
    assert (K2 : kept r w w2) by (split; auto; apply settled_refl).
    destruct rb as [bs|e].
    2: { cbn [lift] in H. unfold mbind, throw, fail in H. apply Fin in H as [_ [f' [Ef C]]]; [|reflexivity]. discriminate Ef. }
    rewrite mbind_ok in H. destruct (mapM (message_unpack (ev_codec E (rp_cipher (w_pool w)))) bs) as [ms|e] eqn:Mu.
    2: { cbn [lift] in H. unfold mbind, throw, fail in H. apply Fin in H as [_ [f' [Ef C]]]; [|reflexivity]. discriminate Ef. }
    rewrite mbind_ok in H. unfold mbind in H. destruct (each (handle E (Some r)) ms w2) as [y w3] eqn:Ey.
    destruct (each_handle r ms w2 w3 y G2 Ey) as (qs & l & dn & Q & Qf & L & K & R & D & Oo & Fl & At & X).
    assert (K3 : kept r w w3) by (eapply kept_trans; eauto).
    assert (Q3 : requests w w3 ((q, WBody b) :: qs)) by (apply Q1; exact Q).
    assert (L3 : since w w3 l) by exact L.
    destruct y as [[]|y].
    - specialize (X eq_refl). unfold ret in H. unfold updps, upd in H. apply pair_inj in H as [_ <-].
      set (g := fun p : ps Obj Cmd => set_ps_output (ps_output p ++ outputs_of ms) p).
      assert (L' : (r < length (w_heap w3))%nat) by (apply (kp_reg _ _ _ K3 G)).
      assert (T : the_ps r (set_w_heap (list_upd r g (w_heap w3)) w3) = g (the_ps r w3)) by (apply the_ps_upd_same; exact L').
      split.
      { eapply kept_trans; [exact G|exact K3|]. split.
        - unfold registered. rewrite T. cbn [w_heap set_w_heap w_pool]. rewrite list_upd_length. auto.
        - auto.
        - rewrite T. unfold g. repeat split. }
      exists q, (WBody b), qs, l. split; [exact Q3|]. split; [exact L3|]. split; [reflexivity|]. split; [intros _; reflexivity|]. split; [exact Qf|].
      intros _. right. exists b, v, data, bs, ms. split; [reflexivity|]. split; [exact Pr|]. split; [exact Dd|].
      split; [change (rp_receiver (w_pool (set_w_heap (list_upd r g (w_heap w3)) w3))) with (rp_receiver (w_pool w3)); rewrite R; exact Df|].
      split; [exact Mu|]. split; [congruence|]. rewrite T. subst dn. rewrite X in At. split; [exact At|].
      unfold g. cbn [ps_output set_ps_output]. rewrite Oo. reflexivity.
    - apply Fin in H as [-> T]; [|reflexivity]. split; [exact K3|].
      exists q, (WBody b), qs, l. split; [exact Q3|]. split; [exact L3|]. split; [reflexivity|]. split; [intros _; reflexivity|]. split; [exact Qf|].
      intros U. exfalso. pose proof (blamed_each _ ms (fun m => blamed_handle (Some r) m) w2) as [qs' [l' [Q' [L' B]]]]. rewrite Ey in Q', L', B. cbn [fst snd err] in *.
      assert (qs' = qs) as -> by (unfold requests in *; eapply app_inv_head; rewrite <- Q', <- Q; reflexivity).
      assert (l' = l) as -> by (unfold since in *; eapply app_inv_head; rewrite <- L', <- L; reflexivity).
      apply (B y eq_refl T). change ((q, WBody b) :: qs) with ([(q, WBody b)] ++ qs) in U. change l with ([] ++ l) in U.
      apply undisturbed_app in U as [_ U]. exact U.
  Qed.

  (* ---- until the end ---- *)
  Lemma receives_app a b : receives (a ++ b) = receives a ++ receives b.
  Proof. unfold receives. rewrite filter_app, map_app. reflexivity. Qed.
  Lemma receives_sends qs : Forall sends_pr qs -> receives qs = [].
  Proof. induction 1 as [|[q r] qs [d [O _]] F IH]; [reflexivity|]. unfold receives in *. cbn [filter fst]. cbn [fst] in O. rewrite O. exact IH. Qed.
  Lemma map_Ok_inj {A} (a : list A) : forall b, map Ok a = map Ok b -> a = b.
  Proof. induction a as [|x a IH]; intros [|y b] H; cbn [map] in H; try discriminate H; auto. apply cons_inj in H as [H1 H2]. apply Ok_inj in H1. subst. f_equal. auto. Qed.
  Lemma unpack_outputs cd bs ms : honest cd -> mapM (message_unpack cd) bs = Ok ms ->
    Forall (fun m : message Obj => m_type m = PIPELINE_OUTPUT -> exists o, m_data m = DOutput o) ms.
  Proof.
    intros Hc. revert ms; induction bs as [|b bs IH]; intros ms H; cbn [mapM] in H.
    - apply Ok_inj in H. subst. constructor.
    - apply bind_ok in H as [m [U H]]. apply bind_ok in H as [ms' [Us H]]. apply Ok_inj in H. subst ms. constructor; [|auto].
      intros T. unfold message_unpack in U. apply bind_ok in U as [h [_ U]]. apply bind_ok in U as [d [D U]].
      unfold message_new in U. apply bind_ok in U as [x [_ U]]. apply bind_ok in U as [y [_ U]]. apply Ok_inj in U. subst m. cbn [m_type m_data] in *.
      unfold unpack_data in D. destruct (negb _); [discriminate D|]. destruct (Z.eqb_spec (h_type h) PIPELINE_OUTPUT) as [Hh|Hh].
      + destruct (cd_deser cd (h_text h)) as [o|e]; [apply Ok_inj in D; subst; eauto|].
        destruct e; try discriminate D. apply bind_ok in D as [o [_ D]]. apply Ok_inj in D. subst; eauto.
      + destruct (Z.eqb_spec (h_type h) PIPELINE_INPUT). { apply bind_ok in D as [o [_ D]]. apply Ok_inj in D. subst. discriminate T. }
        destruct (Z.eqb_spec (h_type h) PUBLIC_KEY_REQUEST). { apply Ok_inj in D. subst. discriminate T. }
        apply bind_ok in D as [o [Do D]]. destruct (cd_type cd o) as [ty|] eqn:Ct; [|discriminate D]. apply Ok_inj in D. subst d. cbn [data_type] in T.
        exfalso. apply Hh. rewrite <- T. symmetry. eapply Hc; eauto.
  Qed.
  Definition ended (r : nat) (w w' : world) (qs : history) (l : list (event Obj Cmd)) : Prop :=
    forall ss, Forall2 says (receives qs) ss ->
      exists bss ms, receive_calls (rp_receiver (w_pool w)) (arrived ss) = (rp_receiver (w_pool w'), map Ok bss) /\
        mapM (message_unpack (ev_codec E (rp_cipher (w_pool w)))) (concat bss) = Ok ms /\ for_pipeline r l = ms /\
        attended E (the_ps r w) (the_ps r w') ms /\ ps_output (the_ps r w') = ps_output (the_ps r w) ++ outputs_of ms.
  Lemma end_done fuel r : forall (w w' : world) out, registered r w -> end_invoke E fuel r w = (Ret out, w') ->
    exists qs l, requests w w' qs /\ since w w' l /\ kept r w w' /\ out = ps_output (the_ps r w') /\ ps_state (the_ps r w') <> pl_running /\
      Forall (fun q => asks_for r w (fst q)) qs /\ (undisturbed qs l -> ended r w w' qs l).
  Proof.
    assert (Stop : forall w : world, exists qs l, requests w w qs /\ since w w l /\ kept r w w /\ Forall (fun q => asks_for r w (fst q)) qs /\ (undisturbed qs l -> ended r w w qs l)).
    { intros w. exists [], []. split; [unfold requests; rewrite app_nil_r; reflexivity|]. split; [apply since_refl|]. split; [apply kept_refl|].
      split; [constructor|]. intros _ ss F. assert (ss = []) as -> by (destruct ss; [reflexivity|inversion F]).
      exists [], []. split; [reflexivity|]. split; [reflexivity|]. split; [reflexivity|]. split; [apply attended_nil|]. cbn. rewrite app_nil_r. reflexivity. }
    induction fuel as [|fuel IH]; intros w w' out G H; cbn [end_invoke] in H; destruct (Z.eqb_spec (ps_state (the_ps r w)) pl_running) as [Sr|Sr]; cbn [negb] in H.
    - exfalso. congruence.
    - destruct (Stop w) as (qs & l & A & B & C & D' & D). apply pair_inj in H as [Ho <-]. exists qs, l. repeat (split; [first [assumption|congruence]|]). exact D.
    - apply mbind_ret in H as [[] [w1 [P H]]]. destruct (poll_done _ _ _ _ G P) as [K1 (q & a & qs1 & l1 & Q1 & L1 & Oq & Aq & F1 & Pd)].
      pose proof (kp_reg _ _ _ K1 G) as G1. destruct (IH _ _ _ G1 H) as (qs & l & Q & L & K & Ho & Ns & As & Ed).
      exists (((q, a) :: qs1) ++ qs), (l1 ++ l). split; [unfold requests in *; rewrite Q, Q1, app_assoc; reflexivity|].
      split; [eapply since_trans; eauto|]. split; [eapply kept_trans; eauto|]. split; [exact Ho|]. split; [exact Ns|].
      assert (Cc : ps_command_id (the_ps r w1) = ps_command_id (the_ps r w)) by apply (kp_settled _ _ _ K1).
      split.
      { apply Forall_app. split; [constructor; [exact Aq|]|].
        - eapply Forall_impl; [|exact F1]. intros [q0 r0] [d [O0 _]] C0. cbn [fst] in *. rewrite O0 in C0. discriminate C0.
        - eapply Forall_impl; [|exact As]. intros q0 A0. unfold asks_for in *. rewrite <- Cc. exact A0. }
      intros U. apply undisturbed_app in U as [U1 U2]. pose proof (Ed U2) as Es. specialize (Pd U1).
      intros ss. rewrite receives_app. change ((q, a) :: qs1) with ([(q, a)] ++ qs1). rewrite receives_app, (receives_sends qs1 F1), app_nil_r.
      assert (receives [(q, a)] = [a]) as -> by (unfold receives; cbn [filter fst]; rewrite Oq; reflexivity). cbn [app].
      intros F. destruct ss as [|s ss]; [inversion F|]. assert (Sa : says a s /\ Forall2 says (receives qs) ss) by (inversion F; auto). clear F.
      destruct Sa as [Sa F]. destruct (Es ss F) as (bss & ms & R & Mu & Fl & At & Oo).
      assert (Cr : rp_cipher (w_pool w1) = rp_cipher (w_pool w)) by (apply (kp_cipher _ _ _ K1); apply G).
      rewrite Cr in Mu. destruct Pd as [(La & Fl1 & R1 & At1 & O1)|(b & v & data & bs & ms1 & Ea & Pr & Dd & Df & Mu1 & Fl1 & At1 & O1)].
      + rewrite (says_late _ _ Sa La). exists bss, ms. cbn [arrived flat_map app]. rewrite <- R1. split; [exact R|]. split; [exact Mu|].
        rewrite for_pipeline_app, Fl1, Fl. split; [reflexivity|]. split; [change ms with ([] ++ ms); eapply attended_app; eauto|]. rewrite Oo, O1. reflexivity.
      + subst a. destruct (says_body _ _ Sa) as (x & y & z & ->). pose proof (said_data _ _ _ _ _ _ _ Sa eq_refl Pr Dd) as Ed1.
        cbn [arrived flat_map app]. rewrite <- Ed1. fold (arrived ss). exists (bs :: bss), (ms1 ++ ms). cbn [receive_calls]. rewrite Df. cbn [map concat]. rewrite R.
        split; [reflexivity|]. split; [rewrite mapM_app, Mu1; cbn [bind]; rewrite Mu; reflexivity|]. rewrite for_pipeline_app, Fl1, Fl. split; [reflexivity|].
        split; [eapply attended_app; eauto|]. rewrite Oo, O1, outputs_app, app_assoc. reflexivity.
    - destruct (Stop w) as (qs & l & A & B & C & D' & D). apply pair_inj in H as [Ho <-]. exists qs, l. repeat (split; [first [assumption|congruence]|]). exact D.
  Qed.

  (* whatever the split over fragments and answers *)
  Lemma end_collects fuel r (w w' : world) out : registered r w -> honest (ev_codec E (rp_cipher (w_pool w))) ->
    end_invoke E fuel r w = (Ret out, w') ->
    exists qs l, requests w w' qs /\ since w w' l /\
      (forall q a, In (q, a) qs -> q_op q = OpReceive -> q_body q = Some (receive_body (lit "stdout") (ps_command_id (the_ps r w)))) /\
      forall ss ts ws, undisturbed qs l -> Forall2 says (receives qs) ss ->
        NoDup (map t_oid ts) -> Forall (fun t => t_pieces t <> []) ts -> (forall t, In t ts -> dict_get Z.eqb (t_oid t) (rp_receiver (w_pool w)) = None) ->
        interleave (map stream ts) (concat ws) -> Forall2 word_wire ws (arrived ss) ->
        Permutation.Permutation (concat (map completes ws)) (map t_msg ts) /\
        exists ms, mapM (message_unpack (ev_codec E (rp_cipher (w_pool w)))) (concat (map completes ws)) = Ok ms /\
          out = ps_output (the_ps r w) ++ objects PIPELINE_OUTPUT ms /\ ps_output (the_ps r w') = out /\
          attended E (the_ps r w) (the_ps r w') ms /\ ps_state (the_ps r w') <> pl_running.
  Proof.
    intros G Hc H. destruct (end_done _ _ _ _ _ G H) as (qs & l & Q & L & K & Ho & Ns & As & Ed). exists qs, l. split; [exact Q|]. split; [exact L|]. split.
    { intros q a I. rewrite Forall_forall in As. exact (As _ I). }
    intros ss ts ws U Fs N Np Nr Il Fw. destruct (interleaved_delivery ts (rp_receiver (w_pool w)) ws (arrived ss) N Np Nr Il Fw) as (r' & Rc & _ & Pm).
    split; [exact Pm|]. destruct (Ed U ss Fs) as (bss & ms & R & Mu & Fl & At & Oo).
    rewrite R in Rc. apply pair_inj in Rc as [_ Rc]. rewrite <- (map_map completes Ok) in Rc. apply map_Ok_inj in Rc. subst bss.
    exists ms. split; [exact Mu|]. rewrite <- (outputs_objects ms) by (eapply unpack_outputs; eauto). subst out. split; [exact Oo|]. split; [reflexivity|]. split; [exact At|exact Ns].
  Qed.
End Ended.
