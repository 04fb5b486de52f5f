(* Relations kept by every operation: the shell's history, host calls, call ids
   and keys. *)
From Verif Require Import Base BaseProofs Lit NumModel TextModel XmlModel WsmanModel ShellModel ShellSpec ShellProofs FragModel MsgModel UtilModel TransModel PoolModel PoolSpec PoolProofs PoolProofs2 PoolProofs3.
Require Import Lia ZifyBool ZifyNat ZifyN.

Section Kept.
  Context {Obj Cmd HS RK : Type} (E : env Obj Cmd HS RK).
  Notation world := (world Obj Cmd HS RK).
  Notation M A := (world -> out A * world).

  Lemma run_ops_steps (R : world -> world -> Prop) (refl : forall w, R w w) (trans : forall a b c, R a b -> R b c -> R a c) :
    (forall fuel o, steps R (run_op E fuel o)) -> forall l w, R w (run_ops E l w).
  Proof.
    intros H l. induction l as [|[fuel o] l IH]; intros w; cbn [run_ops]; [apply refl|].
    eapply trans; [apply H|apply IH].
  Qed.

  (* ---- C21: the shell ---- *)
  Section Shell.
    Context (h0 : history).
    Definition shell_ok (w : world) : Prop := exists new, w_hist w = h0 ++ new /\ inv (rp_shell (w_pool w)) h0 new.
    Definition safe (w w' : world) : Prop := shell_ok w -> shell_ok w'.
    Lemma safe_refl w : safe w w. Proof. intros H; exact H. Qed.
    Lemma safe_trans a b c : safe a b -> safe b c -> safe a c. Proof. unfold safe; auto. Qed.
    Lemma safe_silent w w' : w_hist w' = w_hist w -> sh_opened (rp_shell (w_pool w')) = sh_opened (rp_shell (w_pool w)) -> safe w w'.
    Proof. intros H S [new [N [I1 I2]]]. exists new. split; [congruence|]. split; [rewrite S; exact I1|exact I2]. Qed.
    Lemma inv_quiet s new q r : inv s h0 new -> q_op q <> OpCreate -> q_op q <> OpDelete -> inv s h0 (new ++ [(q, r)]).
    Proof.
      intros [I1 I2] C D. split.
      - intros O. apply alive_snoc; [auto|]. intros [X _]. apply D. exact X.
      - intros a q' r' b H K. apply snoc_split in H as [[-> [<- H]]|[b' [-> H]]].
        + exfalso. apply pair_inj in H as [<- _]. exact (D K).
        + exact (I2 _ _ _ _ H K).
    Qed.
    Lemma inv_sends s qs : Forall sends_pr qs -> forall new, inv s h0 new -> inv s h0 (new ++ qs).
    Proof.
      intros F. induction F as [|[q r] qs [d [Q _]] F IH]; intros new I; [rewrite app_nil_r; exact I|].
      replace (new ++ (q, r) :: qs) with ((new ++ [(q, r)]) ++ qs) by (rewrite <- app_assoc; reflexivity).
      apply IH. apply inv_quiet; auto; cbn [fst] in Q; rewrite Q; discriminate.
    Qed.
    Lemma safe_handle pl m : steps safe (handle E pl m).
    Proof.
      intros w [new [N I]]. destruct (handle_effect E pl m w) as [F _ _ _ _ _ _ _ _]. set (w' := snd _) in *.
      destruct (fr_hist _ _ F) as [qs [Q A]]. exists (new ++ qs). unfold requests in Q. rewrite Q, N, app_assoc. split; [reflexivity|].
      rewrite (fr_shell _ _ F). apply inv_sends; auto.
    Qed.
    Lemma safe_use (o : shop) {A} (f : (history -> sreq -> wresult) -> shell -> history -> out A * history) :
      (forall srv s h, use srv o s h = (s, snd (f srv s h))) -> steps safe (on_shell E f).
    Proof.
      intros U w [new [N I]]. unfold on_shell. pose proof (U (ev_srv E (w_disabled w)) (rp_shell (w_pool w)) (w_hist w)) as H.
      destruct (f _ _ _) as [r h]. cbn [snd] in H |- *. rewrite N in H.
      destruct (inv_step _ _ _ _ _ _ _ I H) as [new' [-> I']]. exists new'. split; [reflexivity|exact I'].
    Qed.
    Lemma safe_receive cid t : steps safe (on_shell E (fun srv => shell_receive srv (lit "stdout") cid t)).
    Proof. apply (safe_use (SReceive (lit "stdout") cid t)). reflexivity. Qed.
    Lemma safe_send stream d cid : steps safe (on_shell E (fun srv => shell_send srv stream d cid None)).
    Proof. apply (safe_use (SSend stream d cid None)). reflexivity. Qed.
    Lemma safe_signal c i : steps safe (on_shell E (fun srv => shell_signal srv c i)).
    Proof. apply (safe_use (SSignal c i)). reflexivity. Qed.
    Lemma safe_command x a n i : steps safe (on_shell E (fun srv => shell_command srv x a n i)).
    Proof. apply (safe_use (SCommand x a n i)). reflexivity. Qed.
    Lemma safe_get t : steps safe (on_shell E (fun srv => get_shell srv t)).
    Proof. apply (safe_use (SGet t)). reflexivity. Qed.
    Lemma safe_open b c : steps safe (on_shell_state E (fun srv => shell_open srv b c)).
    Proof.
      intros w [new [N I]]. unfold on_shell_state.
      assert (H : use (ev_srv E (w_disabled w)) (SOpen b c) (rp_shell (w_pool w)) (w_hist w) =
        (snd (fst (shell_open (ev_srv E (w_disabled w)) b c (rp_shell (w_pool w)) (w_hist w))), snd (shell_open (ev_srv E (w_disabled w)) b c (rp_shell (w_pool w)) (w_hist w)))).
      { cbn [use]. destruct (shell_open _ _ _ _ _) as [[r s] h]. reflexivity. }
      destruct (shell_open _ _ _ _ _) as [[r s] h]. cbn [fst snd] in *. rewrite N in H.
      destruct (inv_step _ _ _ _ _ _ _ I H) as [new' [-> I']]. exists new'. split; [reflexivity|exact I'].
    Qed.
    Lemma safe_close : steps safe (on_shell_state E (fun srv => shell_close srv)).
    Proof.
      intros w [new [N I]]. unfold on_shell_state.
      assert (H : use (ev_srv E (w_disabled w)) SClose (rp_shell (w_pool w)) (w_hist w) =
        (snd (fst (shell_close (ev_srv E (w_disabled w)) (rp_shell (w_pool w)) (w_hist w))), snd (shell_close (ev_srv E (w_disabled w)) (rp_shell (w_pool w)) (w_hist w)))).
      { cbn [use]. destruct (shell_close _ _ _) as [[r s] h]. reflexivity. }
      destruct (shell_close _ _ _) as [[r s] h]. cbn [fst snd] in *. rewrite N in H.
      destruct (inv_step _ _ _ _ _ _ _ I H) as [new' [-> I']]. exists new'. split; [reflexivity|exact I'].
    Qed.
    Lemma safe_raw q : q_op q <> OpCreate -> q_op q <> OpDelete -> steps safe (request_raw E q).
    Proof.
      intros C D w [new [N I]]. unfold request_raw, call. cbn [snd]. eexists. cbn [w_hist set_w_hist w_pool]. rewrite N, <- app_assoc.
      split; [reflexivity|]. apply inv_quiet; auto.
    Qed.
    Lemma safe_updp f : (forall x, sh_opened (rp_shell (f x)) = sh_opened (rp_shell x)) -> steps safe (updp f).
    Proof. intros H w. apply safe_silent; [reflexivity|]. apply H. Qed.
    Lemma safe_upd f : (forall w, w_hist (f w) = w_hist w) -> (forall w, w_pool (f w) = w_pool w) -> steps safe (upd f).
    Proof. intros H H2 w. apply safe_silent; [apply H|]. cbn [snd upd]. rewrite H2. reflexivity. Qed.
    Lemma safe_updps r f : steps safe (updps r f).
    Proof. apply safe_upd; reflexivity. Qed.
    Lemma safe_observe e : steps safe (observe e).
    Proof. apply safe_upd; reflexivity. Qed.
    Lemma safe_receiver rc : steps safe (updp (set_rp_receiver rc)).
    Proof. apply safe_updp. reflexivity. Qed.

    Lemma safe_rec id t : steps safe (receive E id t).
    Proof. apply steps_receive; [exact safe_refl|exact safe_trans|exact safe_handle|exact safe_receiver|exact safe_receive]. Qed.
    Lemma safe_until fuel done : steps safe (receive_until E fuel done).
    Proof. apply steps_receive_until; [exact safe_refl|exact safe_trans|exact safe_handle|exact safe_receiver|exact safe_receive]. Qed.
    Lemma safe_wait fuel start : steps safe (key_wait E fuel start).
    Proof. apply steps_key_wait; [exact safe_refl|exact safe_trans|exact safe_handle|exact safe_receiver|exact safe_receive]. Qed.
    Lemma safe_parse d pl : steps safe (parse_responses E d pl).
    Proof. apply steps_parse; [exact safe_refl|exact safe_trans|exact safe_handle|exact safe_receiver]. Qed.
    Lemma safe_poll r t : steps safe (poll_invoke E r t).
    Proof. apply steps_poll; [exact safe_refl|exact safe_trans|exact safe_handle|exact safe_receiver|exact safe_receive|intros; apply safe_updps]. Qed.
    Lemma safe_end fuel r : steps safe (end_invoke E fuel r).
    Proof. apply steps_end; [exact safe_refl|exact safe_trans|exact safe_handle|exact safe_receiver|exact safe_receive|intros; apply safe_updps]. Qed.
    Lemma safe_alive t : steps safe (is_alive E t).
    Proof.
      intros w H. unfold is_alive.
      assert (G : shell_ok (set_w_disabled true w)) by exact H.
      pose proof (safe_get t _ G) as K. destruct (on_shell E _ (set_w_disabled true w)) as [r w1]. cbn [snd] in K.
      assert (K2 : shell_ok (set_w_disabled (w_disabled w) w1)) by exact K.
      assert (K3 : shell_ok (snd ((updp (set_rp_state rs_closed);;; ret false) (set_w_disabled (w_disabled w) w1)))) by exact K.
      destruct r as [d|x].
      - destruct (dict_get _ _ _) as [[s|]|]; try exact K2. destruct (str_eqb _ _); [exact K3|exact K2].
      - destruct (_ || _)%bool; [exact K3|exact K2].
    Qed.
    Ltac safe_prim := first
      [ apply safe_rec | apply safe_until | apply safe_wait | apply safe_parse | apply safe_poll | apply safe_end | apply safe_alive
      | apply safe_receive | apply safe_send | apply safe_signal | apply safe_command | apply safe_get | apply safe_open | apply safe_close
      | apply safe_raw; discriminate | apply safe_observe | apply safe_updps
      | apply safe_updp; intros; reflexivity | apply safe_upd; intros; reflexivity ].
    Ltac safe_walk := walk safe_refl safe_trans safe_prim.
    Lemma safe_frag1 o pid : steps safe (fragment_one E o pid).
    Proof. unfold fragment_one. safe_walk. Qed.
    Lemma safe_fragn os pid : steps safe (fragment_many E os pid).
    Proof. unfold fragment_many. safe_walk. Qed.
    Lemma safe_inputs r cur rest : steps safe (send_inputs E r cur rest).
    Proof.
      revert cur; induction rest as [|x rest IH]; intros cur; cbn [send_inputs]; unfold send; safe_walk;
        first [apply safe_fragn | apply IH].
    Qed.
    Lemma safe_op fuel o : steps safe (run_op E fuel o).
    Proof.
      destruct o; cbn [run_op];
        unfold pool_open, pool_close, pool_connect, pool_disconnect, connect_new, connect_existing,
          set_min_runspaces, set_max_runspaces, get_available_runspaces, reset_runspace_state, exchange_keys,
          get_command_metadata, create_ps, create_nested, begin_invoke, ps_stop, ps_close, ps_connect_async, void, ask, new_call,
          ps_invoke, send, conn_request, unregister, forget, first_fragment; safe_walk.
      all: first [apply safe_frag1 | apply safe_fragn | apply safe_inputs].
    Qed.
  End Shell.

  Lemma pool_deletes_only_alive l w : sh_opened (rp_shell (w_pool w)) = false ->
    exists new, requests w (run_ops E l w) new /\
      (forall a q r b, new = a ++ (q, r) :: b -> q_op q = OpDelete -> alive a) /\
      (sh_opened (rp_shell (w_pool (run_ops E l w))) = true -> alive new).
  Proof.
    intros O.
    assert (S : shell_ok (w_hist w) w).
    { exists []. rewrite app_nil_r. split; [reflexivity|]. split; [congruence|]. intros a q r b X. destruct a; discriminate. }
    pose proof (run_ops_steps (safe (w_hist w)) (safe_refl _) (safe_trans _) (safe_op _) l w S) as [new [N [I1 I2]]].
    exists new. auto.
  Qed.
  Lemma pool_second_close w x w' : pool_close E w = (Ret x, w') -> pool_close E w' = (Ret tt, w').
  Proof.
    unfold pool_close. rewrite mbind_getp. destruct (in_states (rp_state (w_pool w)) _) eqn:S; intros H.
    - assert (w' = w) as -> by (unfold ret in H; congruence). rewrite mbind_getp, S. reflexivity.
    - apply mbind_ret in H as [y [w1 [_ H]]]. unfold updp, upd in H. apply pair_inj in H as [_ <-].
      rewrite mbind_getp. reflexivity.
  Qed.
End Kept.
