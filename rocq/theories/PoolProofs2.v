(* What handling one message changes. *)
From Verif Require Import Base BaseProofs Lit NumModel TextModel XmlModel WsmanModel ShellModel ShellSpec FragModel MsgModel UtilModel TransModel PoolModel PoolSpec PoolProofs.
Require Import Lia ZifyBool ZifyNat ZifyN.

Section Handled.
  Context {Obj Cmd HS RK : Type} (E : env Obj Cmd HS RK).
  Notation world := (world Obj Cmd HS RK).
  Notation M A := (world -> out A * world).

  Lemma list_upd_length {A} n (f : A -> A) l : length (list_upd n f l) = length l.
  Proof. revert n; induction l as [|x l IH]; intros [|n]; cbn [list_upd length]; auto. Qed.
  Lemma nth_list_upd_same {A} n (f : A -> A) l d : (n < length l)%nat -> nth n (list_upd n f l) d = f (nth n l d).
  Proof.
    revert n; induction l as [|x l IH]; intros [|n] H; cbn [list_upd length nth] in *; try lia; auto.
    apply IH; lia.
  Qed.
  Lemma nth_list_upd_other {A} n k (f : A -> A) l d : n <> k -> nth k (list_upd n f l) d = nth k l d.
  Proof. revert n k; induction l as [|x l IH]; intros [|n] [|k] H; cbn [list_upd nth]; auto; lia. Qed.
  Lemma list_upd_beyond {A} n (f : A -> A) l : (length l <= n)%nat -> list_upd n f l = l.
  Proof. revert n; induction l as [|x l IH]; intros [|n] H; cbn [list_upd length] in *; auto; try lia. rewrite IH by lia; reflexivity. Qed.

  (* the host's answers *)
  Definition answers (e : event Obj Cmd) : Prop :=
    match e with
    | EMsg _ _ => False
    | EHost _ _ _ _ => True
    | EOut _ (OPoolResponse _ _ _) | EOut _ (OPipelineResponse _ _ _) => True
    | EOut _ _ => False
    end.
  Definition sends_pr (q : sreq * wresult) : Prop := exists data, sends_on (lit "pr") data None (fst q).

  Record frame (w w' : world) : Prop := {
    fr_rp_id : rp_id (w_pool w') = rp_id (w_pool w);
    fr_shell : rp_shell (w_pool w') = rp_shell (w_pool w);
    fr_pipelines : rp_pipelines (w_pool w') = rp_pipelines (w_pool w);
    fr_apartment : rp_apartment (w_pool w') = rp_apartment (w_pool w);
    fr_thread : rp_thread (w_pool w') = rp_thread (w_pool w);
    fr_receiver : rp_receiver (w_pool w') = rp_receiver (w_pool w);
    fr_timeout : rp_key_timeout (w_pool w') = rp_key_timeout (w_pool w);
    fr_new_client : rp_new_client (w_pool w') = rp_new_client (w_pool w);
    fr_ci : rp_ci (w_pool w') = rp_ci (w_pool w);
    fr_disabled : w_disabled w' = w_disabled w;
    fr_heap : length (w_heap w') = length (w_heap w);
    fr_hist : exists qs, requests w w' qs /\ Forall sends_pr qs }.

  Record handled (pl : option nat) (m : message Obj) (w w' : world) : Prop := {
    hd_frame : frame w w';
    hd_log : exists l, since w w' (EMsg pl m :: l) /\ Forall answers l /\
               (ev_host E <> None -> ran l = asked E [EMsg pl m]) /\ (ev_host E = None -> l = []);
    hd_state : (exists st, reports E m st /\ rp_state (w_pool w') = st) \/
               ((forall st, ~ reports E m st) /\ rp_state (w_pool w') = rp_state (w_pool w));
    hd_ps : forall r, settled (the_ps r w) (the_ps r w') /\ ps_output (the_ps r w') = ps_output (the_ps r w) /\
              ((r < length (w_heap w))%nat -> attended E (the_ps r w) (the_ps r w') (for_pipeline (Cmd := Cmd) r [EMsg pl m]));
    hd_table : rp_table (w_pool w') = rp_table (w_pool w) \/
               (exists o ci v k, carries RUNSPACE_AVAILABILITY m o /\ ev_availability E o = (ci, v) /\
                  dict_get Z.eqb ci (rp_table (w_pool w)) = Some (SHandler k) /\ (k = HAvailable \/ rfalsy v = false) /\
                  rp_table (w_pool w') = dict_set Z.eqb ci (SValue v) (rp_table (w_pool w)));
    hd_min : rp_min (w_pool w') = rp_min (w_pool w) \/
             (exists o, carries RUNSPACEPOOL_INIT_DATA m o /\ rp_min (w_pool w') = VInt (fst (ev_init E o)));
    hd_max : rp_max (w_pool w') = rp_max (w_pool w) \/
             (exists o, carries RUNSPACEPOOL_INIT_DATA m o /\ rp_max (w_pool w') = VInt (snd (ev_init E o))) \/
             (exists o ci v, carries RUNSPACE_AVAILABILITY m o /\ ev_availability E o = (ci, v) /\
                dict_get Z.eqb ci (rp_table (w_pool w)) = Some (SHandler HAvailable) /\ rp_max (w_pool w') = v);
    hd_keys : (rp_exchange (w_pool w') = rp_exchange (w_pool w) /\ rp_exchanged (w_pool w') = rp_exchanged (w_pool w) /\
               rp_cipher (w_pool w') = rp_cipher (w_pool w)) \/
              (exists o k b d, carries ENCRYPTED_SESSION_KEY m o /\ rp_exchange (w_pool w) = Some k /\
                 b64decode (ev_session_key E o) = Ok b /\ ev_decrypt E k (rev (slice_from b 12)) = Ok d /\
                 rp_exchange (w_pool w') = None /\ rp_exchanged (w_pool w') = true /\ rp_cipher (w_pool w') = Some d);
    hd_sender : (sd_counter (rp_sender (w_pool w)) <= sd_counter (rp_sender (w_pool w')))%Z }.

  Lemma settled_refl p : @settled Obj Cmd p p.
  Proof. repeat split. Qed.
  Lemma attended_nil p : @attended _ _ _ _ E p p [].
  Proof. unfold attended, grown. cbn. rewrite !app_nil_r, orb_false_r. repeat split. Qed.

  (* a send on "pr" *)
  Lemma send_effect stream data cid w :
    exists q r, send E stream data cid w = (match r with WBody _ => Ret tt | WFault f => Raise (XFault f) | WHttp c t => Raise (XHttp c t) | WExn e => Raise (XExn e) end, set_w_hist (w_hist w ++ [(q, r)]) w) /\
      sends_on stream data cid q /\ q_selectors q = sh_selectors (rp_shell (w_pool w)) /\ q_uri q = sh_uri (rp_shell (w_pool w)) /\ r = ev_srv E (w_disabled w) (w_hist w) q.
  Proof.
    unfold send, mbind, on_shell, shell_send, call.
    set (q := request OpSend (rp_shell (w_pool w)) (Some (send_body stream data cid None)) None None).
    exists q, (ev_srv E (w_disabled w) (w_hist w) q). split; [|repeat split; reflexivity].
    destruct (ev_srv E (w_disabled w) (w_hist w) q); reflexivity.
  Qed.

  (* what a host call may change: only the fragmenter's counter, the history,
     the log and the host *)
  Record hosted (w w' : world) : Prop := {
    ho_pool : exists s, w_pool w' = set_rp_sender s (w_pool w) /\ sd_max s = sd_max (rp_sender (w_pool w)) /\ (sd_counter (rp_sender (w_pool w)) <= sd_counter s)%Z;
    ho_heap : w_heap w' = w_heap w;
    ho_disabled : w_disabled w' = w_disabled w;
    ho_hist : exists qs, requests w w' qs /\ Forall sends_pr qs }.
  Lemma set_sender_same (p : pool Obj RK) : set_rp_sender (rp_sender p) p = p.
  Proof. destruct p; reflexivity. Qed.
  Lemma hosted_refl w : hosted w w.
  Proof. split; auto. exists (rp_sender (w_pool w)). rewrite set_sender_same. repeat split. apply Z.le_refl. exists []. split; [unfold requests; rewrite app_nil_r; reflexivity|constructor]. Qed.
  Lemma hosted_trans a b c : hosted a b -> hosted b c -> hosted a c.
  Proof.
    intros [[s1 [P1 [X1 Y1]]] H1 D1 [q1 [Q1 F1]]] [[s2 [P2 [X2 Y2]]] H2 D2 [q2 [Q2 F2]]]. split; try congruence.
    - exists s2. rewrite P2, P1. split; [destruct (w_pool a); reflexivity|]. rewrite P1 in X2, Y2. cbn in X2, Y2. split; [congruence|].
      eapply Z.le_trans; eauto.
    - exists (q1 ++ q2). unfold requests in *. rewrite Q2, Q1, app_assoc. split; [reflexivity|]. apply Forall_app; auto.
  Qed.
  Lemma sends_effect fs w :
    hosted w (snd (each (fun f => send E (lit "pr") f None) fs w)) /\ w_log (snd (each (fun f => send E (lit "pr") f None) fs w)) = w_log w.
  Proof.
    revert w; induction fs as [|f fs IH]; intros w; cbn [each].
    - split; [apply hosted_refl|reflexivity].
    - destruct (send_effect (lit "pr") f None w) as [q [r [S [Q _]]]].
      assert (K : hosted w (set_w_hist (w_hist w ++ [(q, r)]) w)).
      { split; cbn; auto. exists (rp_sender (w_pool w)). rewrite set_sender_same. repeat split. apply Z.le_refl.
        exists [(q, r)]. split; [reflexivity|]. constructor; [exists f; exact Q|constructor]. }
      unfold mbind. rewrite S. destruct r; cbn [snd].
      + destruct (IH (set_w_hist (w_hist w ++ [(q, WBody b)]) w)) as [A B]. split; [eapply hosted_trans; eauto|]. rewrite B. reflexivity.
      + split; [exact K|reflexivity].
      + split; [exact K|reflexivity].
      + split; [exact K|reflexivity].
  Qed.
  (* fragmenting *)
  Lemma fragment_msg_counter s b rm s' fs : fragment_msg s b rm = Ok (s', fs) -> sd_max s' = sd_max s /\ sd_counter s' = (sd_counter s + 1)%Z.
  Proof.
    unfold fragment_msg. intros H. apply bind_ok in H as [[[[a b'] c] d] [_ H]].
    apply bind_ok in H as [cs [_ H]]. apply bind_ok in H as [bs [_ H]]. apply Ok_pair_inj in H as [<- _]. split; reflexivity.
  Qed.
  Lemma fragment_one_effect o pid w :
    (exists e, fragment_one E o pid w = (Raise (XExn e), w)) \/
    (exists b s fs, packed E (rp_cipher (w_pool w)) (rp_id (w_pool w)) pid o = Ok b /\
       fragment_msg (rp_sender (w_pool w)) b None = Ok (s, fs) /\
       fragment_one E o pid w = (Ret fs, set_w_log (w_log w ++ [EOut pid o]) (set_w_pool (set_rp_sender s (w_pool w)) w))).
  Proof.
    unfold fragment_one, mbind, getp, get.
    destruct (packed E (rp_cipher (w_pool w)) (rp_id (w_pool w)) pid o) as [b|e] eqn:P; [|left; eexists; reflexivity].
    cbn [lift ret]. destruct (fragment_msg (rp_sender (w_pool w)) b None) as [[s fs]|e] eqn:F; [|left; eexists; reflexivity].
    right. exists b, s, fs. repeat split; auto.
  Qed.

  Lemma host_call_effect o pl w :
    hosted w (snd (process_host_call E o pl w)) /\
    exists l, since w (snd (process_host_call E o pl w)) l /\ Forall answers l /\
      (ev_host E <> None -> ran l = [(snd (fst (ev_host_call E o)), snd (ev_host_call E o), pl)]) /\ (ev_host E = None -> l = []).
  Proof.
    unfold process_host_call. destruct (ev_host E) as [run|] eqn:Hh.
    2: { match goal with |- context [if ?b then _ else _] => destruct b end; (split; [apply hosted_refl|]); exists []; repeat split; auto; try (unfold since; cbn; rewrite app_nil_r; reflexivity); intros H; exfalso; apply H; reflexivity. }
    destruct (ev_host_call E o) as [[ci mi] mp]. cbn [fst snd].
    set (pid := match pl with Some r => Some (ps_id (the_ps r w)) | None => None end).
    assert (P : (match pl with Some r => i <-- getps r ps_id;; ret (Some i) | None => ret None end) w = (Ret pid, w)).
    { unfold pid. destruct pl; reflexivity. }
    rewrite (mbind_some _ _ _ _ _ P). clear P. rewrite mbind_get.
    destruct (run (w_host w) mi mp pid) as [r st'] eqn:Hr.
    rewrite mbind_upd, mbind_observe.
    set (w1 := set_w_log _ _).
    assert (H1 : hosted w w1).
    { unfold w1. split; cbn; auto. exists (rp_sender (w_pool w)). rewrite set_sender_same. repeat split. apply Z.le_refl.
      exists []. split; [unfold requests; cbn; rewrite app_nil_r; reflexivity|constructor]. }
    assert (L1 : w_log w1 = w_log w ++ [EHost mi mp pl r]) by reflexivity.
    assert (N : forall (w2 : world), hosted w1 w2 -> w_log w2 = w_log w1 ->
      hosted w w2 /\ exists l, since w w2 l /\ Forall answers l /\ (Some run <> None -> ran l = [(mi, mp, pl)]) /\ (Some run = None -> l = [])).
    { intros w2 H2 L2. split; [eapply hosted_trans; eauto|]. exists [EHost mi mp pl r]. unfold since. rewrite L2, L1.
      repeat split; auto; [repeat constructor|intros C; discriminate C]. }
    destruct r as [[mr|]|x].
    2: apply N; [apply hosted_refl|reflexivity].
    2: apply N; [apply hosted_refl|reflexivity].
    set (om := match pl with Some _ => OPipelineResponse ci mi mr | None => OPoolResponse ci mi mr end).
    destruct (fragment_one_effect om pid w1) as [[e Fe]|[b [s [fs [Pb [Fm Fo]]]]]].
    - rewrite (mbind_raise _ _ _ _ _ Fe). apply N; [apply hosted_refl|reflexivity].
    - rewrite (mbind_some _ _ _ _ _ Fo).
      destruct (fragment_msg_counter _ _ _ _ _ Fm) as [X Y].
      set (w2 := set_w_log _ _).
      destruct (sends_effect fs w2) as [A B]. set (w3 := snd _) in *.
      assert (H2 : hosted w1 w2).
      { unfold w2. split; cbn [w_pool w_heap w_disabled w_hist set_w_log set_w_pool]; auto.
        exists s. repeat split; auto. rewrite Y. clearbody w1. lia.
        exists []. split; [unfold requests, w2; cbn [w_hist set_w_log set_w_pool]; rewrite app_nil_r; reflexivity|constructor]. }
      split; [eapply hosted_trans; [exact H1|]; eapply hosted_trans; eauto|].
      exists [EHost mi mp pl (Ret (Some mr)); EOut pid om]. unfold since. rewrite B. unfold w2. cbn [w_log set_w_log]. rewrite L1.
      repeat split; auto.
      + rewrite <- app_assoc. reflexivity.
      + repeat constructor. unfold om, answers. destruct pl; exact I.
      + intros C; discriminate C.
  Qed.

  Definition pipeline_types : list Z :=
    [ERROR_RECORD; PIPELINE_STATE; DEBUG_RECORD; VERBOSE_RECORD; WARNING_RECORD; PROGRESS_RECORD; INFORMATION_RECORD].
  Definition logged (pl : option nat) (m : message Obj) (w : world) : world := set_w_log (w_log w ++ [EMsg pl m]) w.

  Lemma inert pl m r p : existsb (Z.eqb (m_type m)) pipeline_types = false -> attended E p p (for_pipeline (Cmd := Cmd) r [EMsg pl m]).
  Proof.
    unfold pipeline_types. cbn [existsb]. intros H. rewrite !orb_false_iff in H.
    destruct H as [H1 [H2 [H3 [H4 [H5 [H6 [H7 _]]]]]]].
    unfold for_pipeline. cbn [flat_map]. destruct pl as [r'|]; [destruct (Nat.eqb r r')|]; cbn [app]; try apply attended_nil.
    unfold attended, grown, errors, objects, final_state, any_failed. cbn [flat_map fold_left existsb].
    rewrite H1, H2, H3, H4, H5, H6, H7. cbn [app andb orb]. rewrite !app_nil_r, orb_false_r.
    repeat split. destruct (carried m); rewrite ?app_nil_r; reflexivity.
  Qed.
  Lemma no_reports m : (Z.eqb (m_type m) RUNSPACEPOOL_STATE = false \/ carried m = None) -> forall st, ~ reports E m st.
  Proof. intros H st [o [[T C] _]]. destruct H as [H|H]; [|congruence]. rewrite T, Z.eqb_refl in H. discriminate H. Qed.

  Lemma handled_pool pl m w p' (q := w_pool w) :
    rp_id p' = rp_id q -> rp_shell p' = rp_shell q -> rp_pipelines p' = rp_pipelines q -> rp_apartment p' = rp_apartment q ->
    rp_thread p' = rp_thread q -> rp_receiver p' = rp_receiver q -> rp_key_timeout p' = rp_key_timeout q ->
    rp_new_client p' = rp_new_client q -> rp_ci p' = rp_ci q ->
    (is_host_call pl m = false \/ carried m = None) ->
    (existsb (Z.eqb (m_type m)) pipeline_types = false \/ pl = None) ->
    ((exists st, reports E m st /\ rp_state p' = st) \/ ((forall st, ~ reports E m st) /\ rp_state p' = rp_state q)) ->
    (rp_table p' = rp_table q \/
       (exists o ci v k, carries RUNSPACE_AVAILABILITY m o /\ ev_availability E o = (ci, v) /\
          dict_get Z.eqb ci (rp_table q) = Some (SHandler k) /\ (k = HAvailable \/ rfalsy v = false) /\
          rp_table p' = dict_set Z.eqb ci (SValue v) (rp_table q))) ->
    (rp_min p' = rp_min q \/ (exists o, carries RUNSPACEPOOL_INIT_DATA m o /\ rp_min p' = VInt (fst (ev_init E o)))) ->
    (rp_max p' = rp_max q \/ (exists o, carries RUNSPACEPOOL_INIT_DATA m o /\ rp_max p' = VInt (snd (ev_init E o))) \/
       (exists o ci v, carries RUNSPACE_AVAILABILITY m o /\ ev_availability E o = (ci, v) /\
          dict_get Z.eqb ci (rp_table q) = Some (SHandler HAvailable) /\ rp_max p' = v)) ->
    ((rp_exchange p' = rp_exchange q /\ rp_exchanged p' = rp_exchanged q /\ rp_cipher p' = rp_cipher q) \/
       (exists o k b d, carries ENCRYPTED_SESSION_KEY m o /\ rp_exchange q = Some k /\
          b64decode (ev_session_key E o) = Ok b /\ ev_decrypt E k (rev (slice_from b 12)) = Ok d /\
          rp_exchange p' = None /\ rp_exchanged p' = true /\ rp_cipher p' = Some d)) ->
    sd_counter (rp_sender p') = sd_counter (rp_sender q) ->
    handled pl m w (set_w_pool p' (logged pl m w)).
  Proof.
    intros X1 X2 X3 X4 X5 X6 X7 X8 X9 Hc Hp Hs Ht Hmin Hmax Hk Hsd. split; auto.
    - split; cbn; auto. exists []. split; [unfold requests; cbn; rewrite app_nil_r; reflexivity|constructor].
    - exists []. repeat split; auto. intros _. unfold asked. cbn [flat_map].
      destruct Hc as [-> | ->]; [reflexivity|destruct (is_host_call pl m); reflexivity].
    - intros r. split; [apply settled_refl|]. split; [reflexivity|]. intros _.
      destruct Hp as [Hp | ->]; [apply inert; exact Hp|apply attended_nil].
    - cbn. fold q. rewrite Hsd. apply Z.le_refl.
  Qed.
  Lemma handled_none pl m w :
    (is_host_call pl m = false \/ carried m = None) ->
    (existsb (Z.eqb (m_type m)) pipeline_types = false \/ pl = None) ->
    (Z.eqb (m_type m) RUNSPACEPOOL_STATE = false \/ carried m = None) ->
    handled pl m w (logged pl m w).
  Proof.
    intros Hc Hp Hs. replace (logged pl m w) with (set_w_pool (w_pool w) (logged pl m w)) by (destruct w; reflexivity).
    apply handled_pool; auto.
    right. split; [apply no_reports; exact Hs|reflexivity].
  Qed.
  Lemma handled_nothing m pl w : carried m = None -> handled pl m w (logged pl m w).
  Proof.
    intros C. split.
    - split; cbn; auto. exists []. split; [unfold requests; cbn; rewrite app_nil_r; reflexivity|constructor].
    - exists []. repeat split; auto. intros _. unfold asked. cbn [flat_map]. rewrite C. destruct (is_host_call pl m); reflexivity.
    - right. split; [apply no_reports; auto|reflexivity].
    - intros r. split; [apply settled_refl|]. split; [reflexivity|]. intros _.
      unfold for_pipeline. cbn [flat_map]. destruct pl as [r'|]; [destruct (Nat.eqb r r')|]; cbn [app]; try apply attended_nil.
      unfold attended, grown, errors, objects, final_state, any_failed. cbn [flat_map fold_left existsb]. rewrite C.
      repeat match goal with |- context [if ?b then _ else _] => destruct b end; cbn; rewrite ?app_nil_r, ?andb_false_r, ?orb_false_r; repeat split; reflexivity.
    - left; reflexivity.
    - left; reflexivity.
    - left; reflexivity.
    - left; repeat split; reflexivity.
    - apply Z.le_refl.
  Qed.
  Lemma handled_ps r m w f :
    is_host_call (Some r) m = false -> Z.eqb (m_type m) RUNSPACEPOOL_STATE = false ->
    (forall p, settled p (f p) /\ ps_output (f p) = ps_output p /\ attended E p (f p) [m]) ->
    handled (Some r) m w (set_w_heap (list_upd r f (w_heap w)) (logged (Some r) m w)).
  Proof.
    intros Hc Hs Hf. split.
    - split; cbn; auto. apply list_upd_length. exists []. split; [unfold requests; cbn; rewrite app_nil_r; reflexivity|constructor].
    - exists []. repeat split; auto. intros _. unfold asked. cbn [flat_map]. rewrite Hc. reflexivity.
    - right. split; [apply no_reports; auto|reflexivity].
    - intros k. unfold the_ps, logged. cbn [w_heap set_w_heap set_w_log]. unfold for_pipeline. cbn [flat_map app].
      destruct (Nat.eqb_spec k r) as [-> | Hk]; cbn [app].
      + destruct (Nat.ltb_spec r (length (w_heap w))) as [L|L].
        * rewrite nth_list_upd_same by exact L. destruct (Hf (nth r (w_heap w) (new_ps []))) as [A [B C]]. auto.
        * rewrite list_upd_beyond by exact L. split; [apply settled_refl|split; [reflexivity|]]. intros; lia.
      + rewrite nth_list_upd_other by congruence. split; [apply settled_refl|]. split; [reflexivity|]. intros _. apply attended_nil.
    - left; reflexivity.
    - left; reflexivity.
    - left; reflexivity.
    - left; repeat split; reflexivity.
    - apply Z.le_refl.
  Qed.
  Lemma handled_host pl pl' m w o :
    carried m = Some o -> is_host_call pl m = true -> pl' = caller pl m ->
    existsb (Z.eqb (m_type m)) pipeline_types = false -> Z.eqb (m_type m) RUNSPACEPOOL_STATE = false ->
    handled pl m w (snd (process_host_call E o pl' (logged pl m w))).
  Proof.
    intros C Hc -> Hp Hs. destruct (host_call_effect o (caller pl m) (logged pl m w)) as [[[s [P [X Y]]] H D [qs [Q F]]] [l [L [A [B N]]]]].
    set (w' := snd _) in *. unfold since, requests in *. cbn [w_log logged w_pool w_heap w_disabled w_hist set_w_log] in *.
    split; rewrite ?P.
    - split; rewrite ?P; cbn; auto; try congruence. exists qs. split; auto.
    - exists l. unfold since. rewrite L. rewrite <- app_assoc. repeat split; auto. intros Hh. rewrite (B Hh). unfold asked. cbn [flat_map].
      rewrite Hc, C. destruct (ev_host_call E o) as [[ci mi] mp]. reflexivity.
    - right. split; [apply no_reports; auto|reflexivity].
    - intros r. unfold the_ps. rewrite H. cbn [w_heap logged set_w_log]. split; [apply settled_refl|]. split; [reflexivity|]. intros _. apply inert; exact Hp.
    - left; reflexivity.
    - left; reflexivity.
    - left; reflexivity.
    - left; repeat split; reflexivity.
    - exact Y.
  Qed.

  Lemma data_obj_case m (f : Obj -> M unit) w :
    (carried m = None /\ data_obj (m_data m) f w = (Ret tt, w)) \/
    (exists o, carried m = Some o /\ data_obj (m_data m) f w = f o w).
  Proof. unfold carried, data_obj. destruct (m_data m); [left; auto|right; eauto..]. Qed.

  Ltac pooled T :=
    apply handled_pool; try reflexivity; auto;
    try (left; unfold is_host_call; rewrite T; first [reflexivity | match goal with |- context [match ?pl with _ => _ end] => destruct pl; reflexivity end]);
    try (right; split; [apply no_reports; left; rewrite T; reflexivity|reflexivity]).
  Ltac recorded m r w T :=
    let C := fresh in let o := fresh in
    match goal with |- context [data_obj _ ?f _] => destruct (data_obj_case m f (logged (Some r) m w)) as [[C ->]|[o [C ->]]] end;
    [apply handled_nothing; exact C|];
    unfold updps, upd; cbn [snd]; change (w_heap (logged (Some r) m w)) with (w_heap w); apply handled_ps; [unfold is_host_call; rewrite T; reflexivity|rewrite T; reflexivity|];
    intros p; split; [repeat split|]; split; [reflexivity|];
    unfold attended, grown, errors, objects, final_state, any_failed; cbn [flat_map fold_left existsb]; rewrite C, T;
    repeat split; cbn; rewrite ?app_nil_r, ?orb_false_r; reflexivity.
  Lemma handle_effect pl m w : handled pl m w (snd (handle E pl m w)).
  Proof.
    unfold handle. rewrite mbind_observe. fold (logged pl m w).
    unfold process_message.
    destruct (Z.eqb_spec (m_type m) SESSION_CAPABILITY) as [T|T1].
    { destruct (data_obj_case m (process_session_capability E) (logged pl m w)) as [[C ->]|[o [C ->]]]; [apply handled_nothing; exact C|].
      unfold process_session_capability. destruct (ev_capability E o) as [[a b] c].
      rewrite mbind_updp. cbn [w_pool logged set_w_log].
      set (w1 := set_w_pool _ (logged pl m w)).
      assert (Hh : handled pl m w w1).
      { pooled T. }
      destruct (version_equal_or_newer _ _) as [nw|e]; [|exact Hh]. rewrite mbind_ok, mbind_getp.
      destruct (nw && _)%bool; [|exact Hh].
      cbn [updp upd snd]. unfold w1. cbn [w_pool set_w_pool].
      unfold updp, upd. cbn [snd]. set (p2 := set_rp_sender _ _).
      replace (set_w_pool p2 _) with (set_w_pool p2 (logged pl m w)) by reflexivity.
      pooled T. }
    destruct (Z.eqb_spec (m_type m) ENCRYPTED_SESSION_KEY) as [T|T2].
    { destruct (data_obj_case m (process_session_key E) (logged pl m w)) as [[C ->]|[o [C ->]]]; [apply handled_nothing; exact C|].
      assert (Hh : handled pl m w (logged pl m w)).
      { apply handled_none; left; unfold is_host_call; rewrite T; destruct pl; reflexivity. }
      unfold process_session_key. destruct (b64decode (ev_session_key E o)) as [b|e] eqn:B; [|exact Hh].
      rewrite mbind_ok, mbind_getp. destruct (rp_exchange (w_pool (logged pl m w))) as [k|] eqn:K; [|exact Hh].
      destruct (ev_decrypt E k (rev (slice_from b 12))) as [d|e] eqn:D; [|exact Hh]. rewrite mbind_ok.
      destruct (_ || _ || _)%bool; [|exact Hh].
      unfold updp, upd. cbn [snd]. pooled T.
      right. exists o, k, b, d. repeat split; auto. }
    destruct (Z.eqb_spec (m_type m) PUBLIC_KEY_REQUEST) as [T|T3].
    { apply handled_none; left; unfold is_host_call; rewrite T; destruct pl; reflexivity. }
    destruct (Z.eqb_spec (m_type m) RUNSPACEPOOL_INIT_DATA) as [T|T4].
    { destruct (data_obj_case m (process_init_data E) (logged pl m w)) as [[C ->]|[o [C ->]]]; [apply handled_nothing; exact C|].
      unfold process_init_data. destruct (ev_init E o) as [mn mx] eqn:I. unfold updp, upd. cbn [snd].
      pooled T.
      right. exists o. split; [split; auto|]. rewrite I; reflexivity.
      right. left. exists o. split; [split; auto|]. rewrite I; reflexivity. }
    destruct (Z.eqb_spec (m_type m) RUNSPACE_AVAILABILITY) as [T|T5].
    { destruct (data_obj_case m (process_availability E) (logged pl m w)) as [[C ->]|[o [C ->]]]; [apply handled_nothing; exact C|].
      assert (Hh : handled pl m w (logged pl m w)).
      { apply handled_none; left; unfold is_host_call; rewrite T; destruct pl; reflexivity. }
      unfold process_availability. destruct (ev_availability E o) as [ci v] eqn:A. rewrite mbind_getp.
      destruct (dict_get Z.eqb ci (rp_table (w_pool (logged pl m w)))) as [[k|v']|] eqn:G; try exact Hh.
      destruct k.
      1,2,4: (destruct (rfalsy v) eqn:Fv; [exact Hh|]; rewrite mbind_retm; unfold updp, upd; cbn [snd];
        pooled T;
        [right; exists o, ci, v; eexists; repeat split; eauto]).
      rewrite mbind_updp. unfold updp, upd. cbn [snd w_pool set_w_pool logged set_w_log].
      set (p2 := set_rp_table _ _). replace (set_w_pool p2 _) with (set_w_pool p2 (logged pl m w)) by reflexivity.
      pooled T.
      right; exists o, ci, v; eexists; repeat split; eauto.
      right; right; exists o, ci, v; repeat split; eauto. }
    destruct (Z.eqb_spec (m_type m) RUNSPACEPOOL_STATE) as [T|T6].
    { destruct (data_obj_case m (process_pool_state E) (logged pl m w)) as [[C ->]|[o [C ->]]]; [apply handled_nothing; exact C|].
      unfold process_pool_state. rewrite mbind_updp.
      set (w1 := set_w_pool _ (logged pl m w)).
      assert (Hh : handled pl m w w1).
      { pooled T.
        left. exists (ev_pool_state E o). split; [|reflexivity]. exists o; repeat split; auto. }
      destruct (Z.eqb _ rs_broken); exact Hh. }
    destruct (Z.eqb_spec (m_type m) USER_EVENT) as [T|T7].
    { match goal with |- context [data_obj _ ?f _] => destruct (data_obj_case m f (logged pl m w)) as [[C ->]|[o [C ->]]] end; [apply handled_nothing; exact C|].
      unfold updp, upd. cbn [snd].
      pooled T. }
    destruct (Z.eqb_spec (m_type m) APPLICATION_PRIVATE_DATA) as [T|T8].
    { match goal with |- context [data_obj _ ?f _] => destruct (data_obj_case m f (logged pl m w)) as [[C ->]|[o [C ->]]] end; [apply handled_nothing; exact C|].
      unfold updp, upd. cbn [snd].
      pooled T. }
    destruct (Z.eqb_spec (m_type m) RUNSPACEPOOL_HOST_CALL) as [T|T9].
    { match goal with |- context [data_obj _ ?f _] => destruct (data_obj_case m f (logged pl m w)) as [[C ->]|[o [C ->]]] end; [apply handled_nothing; exact C|].
      apply handled_host; auto; unfold is_host_call, caller; rewrite T; reflexivity. }
    destruct pl as [r|].
    2: { apply handled_none; [|right; reflexivity|left; apply Z.eqb_neq; exact T6].
         left. unfold is_host_call. rewrite (proj2 (Z.eqb_neq _ _) T9). reflexivity. }
    assert (N6 : Z.eqb (m_type m) RUNSPACEPOOL_STATE = false) by (apply Z.eqb_neq; exact T6).
    assert (N9 : Z.eqb (m_type m) RUNSPACEPOOL_HOST_CALL = false) by (apply Z.eqb_neq; exact T9).
    destruct (Z.eqb_spec (m_type m) ERROR_RECORD) as [T|T11]; [recorded m r w T|].
    destruct (Z.eqb_spec (m_type m) PIPELINE_STATE) as [T|T12].
    { destruct (data_obj_case m (process_pipeline_state E r) (logged (Some r) m w)) as [[C ->]|[o [C ->]]]; [apply handled_nothing; exact C|].
      unfold process_pipeline_state. destruct (ev_pipe_state E o) as [st err] eqn:P.
      set (f := fun p : ps Obj Cmd => (if Z.eqb st pl_failed then set_ps_had_errors true else (fun x => x))
                  ((match err with Some e => fun p => set_ps_error (ps_error p ++ [e]) p | None => fun x => x end) (set_ps_state st p))).
      assert (U : forall (g h : ps Obj Cmd -> ps Obj Cmd) l, list_upd r g (list_upd r h l) = list_upd r (fun p => g (h p)) l).
      { clear. intros g h l. revert r; induction l as [|x l IH]; intros [|r]; cbn [list_upd]; auto. rewrite IH; reflexivity. }
      assert (X : snd ((updps r (set_ps_state st);;;
          (match err with Some e => updps r (fun p => set_ps_error (ps_error p ++ [e]) p) | None => ret tt end);;;
          (if Z.eqb st pl_failed then updps r (set_ps_had_errors true) else ret tt)) (logged (Some r) m w)) =
          set_w_heap (list_upd r f (w_heap w)) (logged (Some r) m w)).
      { unfold f. rewrite mbind_updps. destruct err; [rewrite mbind_updps|rewrite mbind_retm]; destruct (Z.eqb st pl_failed);
          unfold updps, upd; cbn [snd ret w_heap set_w_heap logged set_w_log]; rewrite ?U; reflexivity. }
      rewrite X. apply handled_ps; [unfold is_host_call; rewrite T; reflexivity|exact N6|].
      intros p. unfold f. split; [destruct err, (Z.eqb st pl_failed); repeat split|]. split; [destruct err, (Z.eqb st pl_failed); reflexivity|].
      unfold attended, grown, errors, objects, final_state, any_failed; cbn [flat_map fold_left existsb]; rewrite C, T, P. cbn [fst snd].
      destruct err, (Z.eqb st pl_failed) eqn:F; repeat split; cbn; rewrite ?app_nil_r, ?orb_false_r, ?F, ?orb_true_r; try reflexivity.
      all: cbn; rewrite ?F, ?orb_false_r, ?orb_true_r; reflexivity. }
    destruct (Z.eqb_spec (m_type m) DEBUG_RECORD) as [T|T13]; [recorded m r w T|].
    destruct (Z.eqb_spec (m_type m) VERBOSE_RECORD) as [T|T14]; [recorded m r w T|].
    destruct (Z.eqb_spec (m_type m) WARNING_RECORD) as [T|T15]; [recorded m r w T|].
    destruct (Z.eqb_spec (m_type m) PROGRESS_RECORD) as [T|T16]; [recorded m r w T|].
    destruct (Z.eqb_spec (m_type m) INFORMATION_RECORD) as [T|T17]; [recorded m r w T|].
    destruct (Z.eqb_spec (m_type m) PIPELINE_HOST_CALL) as [T|T18].
    { match goal with |- context [data_obj _ ?f _] => destruct (data_obj_case m f (logged (Some r) m w)) as [[C ->]|[o [C ->]]] end; [apply handled_nothing; exact C|].
      apply handled_host; auto; unfold is_host_call, caller; rewrite T; reflexivity. }
    apply handled_none; left; auto.
    - unfold is_host_call. rewrite N9, (proj2 (Z.eqb_neq _ _) T18). reflexivity.
    - unfold pipeline_types. cbn [existsb].
      rewrite (proj2 (Z.eqb_neq _ _) T11), (proj2 (Z.eqb_neq _ _) T12), (proj2 (Z.eqb_neq _ _) T13), (proj2 (Z.eqb_neq _ _) T14),
        (proj2 (Z.eqb_neq _ _) T15), (proj2 (Z.eqb_neq _ _) T16), (proj2 (Z.eqb_neq _ _) T17). reflexivity.
  Qed.
End Handled.
