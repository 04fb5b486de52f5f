(* Relations kept by every operation: host calls, call ids and keys. *)
From Verif Require Import Base BaseProofs Lit NumModel TextModel XmlModel WsmanModel ShellModel ShellSpec FragModel MsgModel UtilModel TransModel PoolModel PoolSpec PoolProofs PoolProofs2 PoolProofs3 PoolProofs4.
Require Import Lia ZifyBool ZifyNat ZifyN.

Section Logged.
  Context {Obj Cmd HS RK : Type} (E : env Obj Cmd HS RK).
  Notation world := (world Obj Cmd HS RK).
  Notation event := (event Obj Cmd).
  Notation M A := (world -> out A * world).

  Lemma since_refl (w : world) : since w w [].
  Proof. unfold since. rewrite app_nil_r. reflexivity. Qed.
  Lemma since_trans (a b c : world) l l' : since a b l -> since b c l' -> since a c (l ++ l').
  Proof. unfold since. intros H1 H2. rewrite H2, H1, app_assoc. reflexivity. Qed.

  (* what was negotiated with the server *)
  Definition terms (p : pool Obj RK) : option (list N) * option (list N) * option (list N) * Z * Z :=
    (rp_protocol p, rp_psver p, rp_server p, rp_envelope p, rp_payload p).
  (* what a relation must say about the primitive effects: K is a relation on
     pools, P one on logs *)
  Section Gen.
    Context (R : world -> world -> Prop) (refl : forall w, R w w) (trans : forall a b c, R a b -> R b c -> R a c).
    Context (silent : forall w w' : world, w_log w' = w_log w -> rp_ci (w_pool w') = rp_ci (w_pool w) ->
               rp_exchange (w_pool w') = rp_exchange (w_pool w) -> rp_exchanged (w_pool w') = rp_exchanged (w_pool w) ->
               terms (w_pool w') = terms (w_pool w) -> R w w').
    Context (Hhandle : forall pl m, steps R (handle E pl m)).
    (* messages other than those under a call id, the public key and answers *)
    Definition plain (o : omsg Obj Cmd) : bool :=
      match o with OSetMin _ _ | OSetMax _ _ | OAvailable _ | OReset _ | OPublicKey _ | OPoolResponse _ _ _ | OPipelineResponse _ _ _ => false | _ => true end.
    Context (Hout : forall pid o, plain o = true -> steps R (observe (EOut pid o))).
    Context (Hask : forall k mk, (k = HSetMin /\ (exists v, mk = OSetMin v)) \/ (k = HSetMax /\ (exists v, mk = OSetMax v)) \/
                                 (k = HAvailable /\ mk = OAvailable) \/ (k = HReset /\ mk = OReset) ->
                    steps R (ask E k mk)).
    Context (Hkeys : forall fuel, steps R (exchange_keys E fuel)).

    Lemma gen_shell {A} (f : (history -> sreq -> wresult) -> shell -> history -> out A * history) : steps R (on_shell E f).
    Proof. intros w. unfold on_shell. destruct (f _ _ _) as [r h]. apply silent; reflexivity. Qed.
    Lemma gen_shell_state {A} (f : (history -> sreq -> wresult) -> shell -> history -> out A * shell * history) : steps R (on_shell_state E f).
    Proof. intros w. unfold on_shell_state. destruct (f _ _ _) as [[r s] h]. apply silent; reflexivity. Qed.
    Lemma gen_raw q : steps R (request_raw E q).
    Proof. intros w. unfold request_raw. destruct (call _ _ _) as [r h]. apply silent; reflexivity. Qed.
    Lemma gen_updps r f : steps R (updps r f).
    Proof. intros w. apply silent; reflexivity. Qed.
    Lemma gen_updp f : (forall x, rp_ci (f x) = rp_ci x) -> (forall x, rp_exchange (f x) = rp_exchange x) ->
      (forall x, rp_exchanged (f x) = rp_exchanged x) -> (forall x, terms (f x) = terms x) -> steps R (updp f).
    Proof. intros H1 H2 H3 H4 w. apply silent; [reflexivity|apply H1|apply H2|apply H3|apply H4]. Qed.
    Lemma gen_heap (f : world -> list (ps Obj Cmd)) : steps R (upd (fun w => set_w_heap (f w) w)).
    Proof. intros w. apply silent; reflexivity. Qed.
    Lemma gen_receiver rc : steps R (updp (set_rp_receiver rc)).
    Proof. apply gen_updp; reflexivity. Qed.
    Lemma gen_receive id t : steps R (receive E id t).
    Proof. apply steps_receive; [exact refl|exact trans|exact Hhandle|exact gen_receiver|intros; apply gen_shell]. Qed.
    Lemma gen_until fuel done : steps R (receive_until E fuel done).
    Proof. apply steps_receive_until; [exact refl|exact trans|exact Hhandle|exact gen_receiver|intros; apply gen_shell]. Qed.
    Lemma gen_wait fuel start : steps R (key_wait E fuel start).
    Proof. apply steps_key_wait; [exact refl|exact trans|exact Hhandle|exact gen_receiver|intros; apply gen_shell]. Qed.
    Lemma gen_parse d pl : steps R (parse_responses E d pl).
    Proof. apply steps_parse; [exact refl|exact trans|exact Hhandle|exact gen_receiver]. Qed.
    Lemma gen_poll r t : steps R (poll_invoke E r t).
    Proof. apply steps_poll; [exact refl|exact trans|exact Hhandle|exact gen_receiver|intros; apply gen_shell|intros; apply gen_updps]. Qed.
    Lemma gen_end fuel r : steps R (end_invoke E fuel r).
    Proof. apply steps_end; [exact refl|exact trans|exact Hhandle|exact gen_receiver|intros; apply gen_shell|intros; apply gen_updps]. Qed.
    Lemma gen_alive t : steps R (is_alive E t).
    Proof.
      intros w. unfold is_alive.
      assert (G : R w (set_w_disabled true w)) by (apply silent; reflexivity).
      pose proof (gen_shell (fun srv => get_shell srv t) (set_w_disabled true w)) as K.
      destruct (on_shell E _ (set_w_disabled true w)) as [r w1]. cbn [snd] in K.
      assert (K2 : R w (set_w_disabled (w_disabled w) w1)).
      { eapply trans; [exact G|]. eapply trans; [exact K|]. apply silent; reflexivity. }
      assert (K3 : R w (snd ((updp (set_rp_state rs_closed);;; ret false) (set_w_disabled (w_disabled w) w1)))).
      { eapply trans; [exact K2|]. apply silent; reflexivity. }
      destruct r as [d|x].
      - destruct (dict_get _ _ _) as [[s|]|]; try exact K2. destruct (str_eqb _ _); [exact K3|exact K2].
      - destruct (_ || _)%bool; [exact K3|exact K2].
    Qed.
    Ltac gen_prim := first
      [ apply gen_receive | apply gen_until | apply gen_wait | apply gen_parse | apply gen_poll | apply gen_end | apply gen_alive
      | apply gen_shell | apply gen_shell_state | apply gen_raw | apply gen_updps | apply Hkeys | apply Hask; now eauto 6
      | apply gen_updp; intros; reflexivity | apply gen_heap | apply Hout; first [reflexivity | assumption] ].
    Ltac gen_walk := walk refl trans gen_prim.
    Lemma gen_frag1 o pid : plain o = true -> steps R (fragment_one E o pid).
    Proof. intros P. unfold fragment_one. gen_walk. Qed.
    Lemma gen_outs os pid : forallb plain os = true -> steps R (each (fun o => observe (EOut pid o)) os).
    Proof.
      intros P. induction os as [|o os IH]; cbn [each]; [apply steps_ret; exact refl|]. cbn [forallb] in P. apply andb_true_iff in P as [P1 P2].
      apply steps_bind; [exact trans|apply Hout; exact P1|intros _; apply IH; exact P2].
    Qed.
    Lemma gen_fragn os pid : forallb plain os = true -> steps R (fragment_many E os pid).
    Proof. intros P. unfold fragment_many. walk refl trans ltac:(first [gen_prim | apply gen_outs; exact P]). Qed.
    Lemma plain_inputs l : forallb plain (map OInput l) = true.
    Proof. induction l; auto. Qed.
    Lemma gen_inputs r cur rest : steps R (send_inputs E r cur rest).
    Proof.
      revert cur; induction rest as [|x rest IH]; intros cur; cbn [send_inputs]; unfold send; gen_walk.
      all: first [apply gen_fragn | apply IH]; rewrite ?forallb_app, ?plain_inputs; reflexivity.
    Qed.
    Lemma gen_op fuel o : steps R (run_op E fuel o).
    Proof.
      destruct o; cbn [run_op];
        unfold pool_open, pool_close, pool_connect, pool_disconnect, connect_new, connect_existing,
          set_min_runspaces, set_max_runspaces, get_available_runspaces, reset_runspace_state,
          get_command_metadata, create_ps, create_nested, begin_invoke, ps_stop, ps_close, ps_connect_async, void,
          ps_invoke, send, conn_request, unregister, forget, first_fragment; gen_walk.
      all: first [apply gen_frag1; reflexivity | apply gen_fragn; reflexivity | apply gen_inputs].
    Qed.
  End Gen.

  Lemma out_effect pid o w : since w (snd (observe (EOut pid o) w) : world) [EOut pid o].
  Proof. reflexivity. Qed.

  (* ---- C25: every call runs the host once ---- *)
  Definition hosts (w w' : world) : Prop :=
    exists l, since w w' l /\ (ev_host E <> None -> ran l = asked E l) /\ (ev_host E = None -> ran l = []).
  Lemma ran_app (l l' : list event) : ran (l ++ l') = ran l ++ ran l'.
  Proof. apply flat_map_app. Qed.
  Lemma asked_app (l l' : list event) : asked E (l ++ l') = asked E l ++ asked E l'.
  Proof. apply flat_map_app. Qed.
  Lemma hosts_silent w w' : w_log w' = w_log w -> hosts w w'.
  Proof. intros L. exists []. split; [unfold since; rewrite app_nil_r; exact L|]. split; reflexivity. Qed.
  Lemma hosts_refl w : hosts w w. Proof. apply hosts_silent; reflexivity. Qed.
  Lemma hosts_trans a b c : hosts a b -> hosts b c -> hosts a c.
  Proof.
    intros [l1 [L1 [A1 B1]]] [l2 [L2 [A2 B2]]]. exists (l1 ++ l2). split; [eapply since_trans; eauto|]. rewrite ran_app, asked_app.
    split; intros H; [rewrite A1, A2 by exact H|rewrite B1, B2 by exact H]; reflexivity.
  Qed.
  Lemma answers_asked l : Forall (answers (Obj := Obj) (Cmd := Cmd)) l -> asked E l = [].
  Proof. intros F. induction F as [|e l A F IH]; [reflexivity|]. cbn [asked flat_map]. fold (asked E l). rewrite IH. destruct e; [destruct A|reflexivity|reflexivity]. Qed.
  Lemma hosts_handle pl m : steps hosts (handle E pl m).
  Proof.
    intros w. destruct (handle_effect E pl m w) as [_ [l [L [A [B C]]]] _ _ _ _ _ _ _].
    exists (EMsg pl m :: l). split; [exact L|]. change (EMsg pl m :: l) with ([EMsg pl m] ++ l). rewrite ran_app, asked_app, (answers_asked l A), app_nil_r.
    split; intros H; [rewrite (B H); reflexivity|rewrite (C H); reflexivity].
  Qed.
  Lemma hosts_out pid o : steps hosts (observe (EOut pid o)).
  Proof. intros w. exists [EOut pid o]. split; [reflexivity|]. split; reflexivity. Qed.
  Lemma hosts_op fuel o : steps hosts (run_op E fuel o).
  Proof.
    apply gen_op; [exact hosts_refl|exact hosts_trans|intros; apply hosts_silent; auto|exact hosts_handle|intros; apply hosts_out| |].
    - intros k mk _. unfold ask, new_call, fragment_one, first_fragment, send.
      walk hosts_refl hosts_trans ltac:(first [apply hosts_out | (intros w; apply hosts_silent; reflexivity) ]).
    - intros f. unfold exchange_keys, fragment_one, send.
      walk hosts_refl hosts_trans ltac:(first [apply hosts_out | apply (gen_wait hosts hosts_refl hosts_trans); [intros; apply hosts_silent; auto|exact hosts_handle] | (intros w; apply hosts_silent; reflexivity) | apply (gen_shell hosts); intros; apply hosts_silent; auto ]).
  Qed.
  Lemma hosts_ops l w : hosts w (run_ops E l w).
  Proof. apply run_ops_steps; [exact hosts_refl|exact hosts_trans|exact hosts_op]. Qed.

  (* ---- C24: call ids only rise ---- *)
  Fixpoint rising (a : Z) (l : list Z) (b : Z) : Prop :=
    match l with [] => (a <= b)%Z | x :: l' => (a <= x)%Z /\ rising (x + 1) l' b end.
  Lemma rising_weak l : forall a a' b, (a' <= a)%Z -> rising a l b -> rising a' l b.
  Proof. destruct l as [|x l]; cbn [rising]; intros a a' b H; [lia|]. intros [H1 H2]. split; [lia|exact H2]. Qed.
  Lemma rising_app l l' : forall a b c, rising a l b -> rising b l' c -> rising a (l ++ l') c.
  Proof.
    induction l as [|x l IH]; cbn [rising app]; intros a b c H1 H2; [exact (rising_weak _ _ _ _ H1 H2)|].
    destruct H1 as [H1 H3]. split; [exact H1|]. exact (IH _ _ _ H3 H2).
  Qed.
  Lemma rising_le l : forall a b, rising a l b -> (a <= b)%Z.
  Proof. induction l as [|x l IH]; cbn [rising]; intros a b H; [exact H|]. destruct H as [H1 H2]. apply IH in H2. lia. Qed.
  Lemma rising_ge l : forall a b x, rising a l b -> In x l -> (a <= x < b)%Z.
  Proof.
    induction l as [|y l IH]; cbn [rising In]; intros a b x H I; [destruct I|]. destruct H as [H1 H2]. pose proof (rising_le _ _ _ H2).
    destruct I as [<- | I]; [lia|]. specialize (IH _ _ _ H2 I). lia.
  Qed.
  Lemma rising_nodup l : forall a b, rising a l b -> NoDup l.
  Proof.
    induction l as [|x l IH]; cbn [rising]; intros a b H; [constructor|]. destruct H as [H1 H2].
    constructor; [|exact (IH _ _ H2)]. intros I. pose proof (rising_ge _ _ _ _ H2 I). lia.
  Qed.
  Definition calls (w w' : world) : Prop :=
    exists l, since w w' l /\ rising (rp_ci (w_pool w)) (call_ids l) (rp_ci (w_pool w')).
  Lemma call_ids_app (l l' : list event) : call_ids (l ++ l') = call_ids l ++ call_ids l'.
  Proof. apply flat_map_app. Qed.
  Lemma calls_silent w w' : w_log w' = w_log w -> rp_ci (w_pool w') = rp_ci (w_pool w) -> calls w w'.
  Proof. intros L C. exists []. split; [unfold since; rewrite app_nil_r; exact L|]. cbn [call_ids flat_map rising]. lia. Qed.
  Lemma calls_refl w : calls w w. Proof. apply calls_silent; reflexivity. Qed.
  Lemma calls_trans a b c : calls a b -> calls b c -> calls a c.
  Proof.
    intros [l1 [L1 A1]] [l2 [L2 A2]]. exists (l1 ++ l2). split; [eapply since_trans; eauto|]. rewrite call_ids_app. eapply rising_app; eauto.
  Qed.
  Lemma answers_ids l : Forall (answers (Obj := Obj) (Cmd := Cmd)) l -> call_ids l = [].
  Proof.
    intros F. induction F as [|e l A F IH]; [reflexivity|]. cbn [call_ids flat_map]. fold (call_ids l). rewrite IH.
    destruct e as [| pid o |]; [destruct A| |reflexivity]. destruct o; try destruct A; reflexivity.
  Qed.
  Lemma calls_handle pl m : steps calls (handle E pl m).
  Proof.
    intros w. destruct (handle_effect E pl m w) as [F [l [L [A _]]] _ _ _ _ _ _ _].
    exists (EMsg pl m :: l). split; [exact L|]. cbn [call_ids flat_map app]. fold (call_ids l). rewrite (answers_ids l A), (fr_ci _ _ F). cbn [rising]. lia.
  Qed.
  Lemma calls_out pid o : plain o = true -> steps calls (observe (EOut pid o)).
  Proof.
    intros P w. exists [EOut pid o]. split; [reflexivity|].
    assert (call_ids [EOut pid o] = []) as -> by (destruct o; try discriminate P; reflexivity). cbn. lia.
  Qed.
  Lemma calls_send s d c : steps calls (send E s d c).
  Proof. unfold send. apply steps_bind; [exact calls_trans|apply gen_shell; intros; apply calls_silent; auto|intros; apply steps_ret; exact calls_refl]. Qed.
  Lemma calls_ask k mk : (forall ci, call_ids [EOut None (mk ci) : event] = [ci]) -> steps calls (ask E k mk).
  Proof.
    intros Hm w. unfold ask, new_call.
    assert (B : forall (w1 : world), calls w w1 -> calls w w1) by auto.
    unfold mbind at 1. rewrite mbind_getp, mbind_updp. set (w1 := set_w_pool _ w). cbn [ret].
    assert (C1 : forall w2 : world, w_log w2 = w_log w -> rp_ci (w_pool w2) = (rp_ci (w_pool w) + 1)%Z -> calls w w2).
    { intros w2 L C. exists []. split; [unfold since; rewrite app_nil_r; exact L|]. cbn. lia. }
    destruct (fragment_one_effect E (mk (rp_ci (w_pool w))) None w1) as [[e Fe]|[b [s [fs [_ [_ Fo]]]]]].
    - rewrite (mbind_raise _ _ _ _ _ Fe). apply C1; reflexivity.
    - rewrite (mbind_some _ _ _ _ _ Fo). set (w2 := set_w_log _ _).
      assert (C2 : calls w w2).
      { exists [EOut None (mk (rp_ci (w_pool w)))]. split; [reflexivity|]. rewrite Hm.
        change (rp_ci (w_pool w2)) with (rp_ci (w_pool w) + 1)%Z. cbn [rising]. lia. }
      eapply calls_trans; [exact C2|].
      apply (steps_bind calls calls_trans (first_fragment fs)).
      + unfold first_fragment. destruct fs; [apply steps_throw|apply steps_ret]; exact calls_refl.
      + intros f. apply steps_bind; [exact calls_trans|apply calls_send|intros; apply steps_ret; exact calls_refl].
  Qed.
  Lemma calls_op fuel o : steps calls (run_op E fuel o).
  Proof.
    apply gen_op; [exact calls_refl|exact calls_trans|intros; apply calls_silent; auto|exact calls_handle|exact calls_out| |].
    - intros k mk [[_ [v ->]]|[[_ [v ->]]|[[_ ->]|[_ ->]]]]; apply calls_ask; reflexivity.
    - intros f. unfold exchange_keys, fragment_one.
      walk calls_refl calls_trans ltac:(first [apply calls_send | apply (gen_wait calls calls_refl calls_trans); [intros; apply calls_silent; auto|exact calls_handle] | (intros w; apply calls_silent; reflexivity)]).
      intros w. eexists. split; [reflexivity|]. cbn. lia.
  Qed.
  Lemma calls_ops l w : calls w (run_ops E l w).
  Proof. apply run_ops_steps; [exact calls_refl|exact calls_trans|exact calls_op]. Qed.
  Lemma ids_fresh l w : exists new, since w (run_ops E l w) new /\ NoDup (call_ids new) /\ forall ci, In ci (call_ids new) -> (rp_ci (w_pool w) <= ci)%Z.
  Proof.
    destruct (calls_ops l w) as [new [S R]]. exists new. split; [exact S|]. split; [eapply rising_nodup; exact R|].
    intros ci I. pose proof (rising_ge _ _ _ _ R I). lia.
  Qed.

  (* ---- C39: the public key is sent once ---- *)
  Definition started (w : world) : Prop := rp_exchange (w_pool w) <> None \/ rp_exchanged (w_pool w) = true.
  Definition keyed (w w' : world) : Prop :=
    exists l, since w w' l /\ (public_keys l = [] \/ ((exists k, public_keys l = [k]) /\ ~ started w /\ started w')) /\ (started w -> started w').
  Lemma public_keys_app (l l' : list event) : public_keys (l ++ l') = public_keys l ++ public_keys l'.
  Proof. apply flat_map_app. Qed.
  Lemma keyed_silent w w' : w_log w' = w_log w -> rp_exchange (w_pool w') = rp_exchange (w_pool w) -> rp_exchanged (w_pool w') = rp_exchanged (w_pool w) -> keyed w w'.
  Proof.
    intros L C D. exists []. split; [unfold since; rewrite app_nil_r; exact L|]. split; [left; reflexivity|]. unfold started. rewrite C, D. auto.
  Qed.
  Lemma keyed_refl w : keyed w w. Proof. apply keyed_silent; reflexivity. Qed.
  Lemma keyed_trans a b c : keyed a b -> keyed b c -> keyed a c.
  Proof.
    intros [l1 [L1 [A1 B1]]] [l2 [L2 [A2 B2]]]. exists (l1 ++ l2). split; [eapply since_trans; eauto|]. rewrite public_keys_app.
    split; [|auto]. destruct A1 as [-> | [[k ->] [N S]]]; cbn [app].
    - destruct A2 as [-> | [[k ->] [N S]]]; [left; reflexivity|]. right. split; [eauto|]. auto.
    - destruct A2 as [-> | [[k' ->] [N' S']]]; [|exfalso; auto]. right. split; [eauto|]. auto.
  Qed.
  Lemma answers_keys l : Forall (answers (Obj := Obj) (Cmd := Cmd)) l -> public_keys l = [].
  Proof.
    intros F. induction F as [|e l A F IH]; [reflexivity|]. cbn [public_keys flat_map]. fold (public_keys l). rewrite IH.
    destruct e as [| pid o |]; [destruct A| |reflexivity]. destruct o; try destruct A; reflexivity.
  Qed.
  Lemma keyed_handle pl m : steps keyed (handle E pl m).
  Proof.
    intros w. destruct (handle_effect E pl m w) as [F [l [L [A _]]] _ _ _ _ _ K _].
    exists (EMsg pl m :: l). split; [exact L|]. cbn [public_keys flat_map app]. fold (public_keys l). rewrite (answers_keys l A).
    split; [left; reflexivity|]. unfold started. destruct K as [[-> [-> _]]|[o [k [b [d [_ [_ [_ [_ [_ [-> _]]]]]]]]]]]; auto.
  Qed.
  Lemma keyed_out pid o : (forall k, o <> OPublicKey k) -> steps keyed (observe (EOut pid o)).
  Proof.
    intros P w. exists [EOut pid o]. split; [reflexivity|]. split; [|auto]. left. destruct o; try reflexivity. exfalso. eapply P; reflexivity.
  Qed.
  Lemma keyed_send s d c : steps keyed (send E s d c).
  Proof. unfold send. apply steps_bind; [exact keyed_trans|apply gen_shell; intros; apply keyed_silent; auto|intros; apply steps_ret; exact keyed_refl]. Qed.
  Lemma keyed_wait fuel start : steps keyed (key_wait E fuel start).
  Proof. apply (gen_wait keyed keyed_refl keyed_trans); [intros; apply keyed_silent; auto|exact keyed_handle]. Qed.
  Lemma keyed_exchange fuel : steps keyed (exchange_keys E fuel).
  Proof.
    intros w. unfold exchange_keys. rewrite !mbind_getp. destruct (rp_exchanged (w_pool w)) eqn:X; [apply keyed_refl|].
    destruct (rp_exchange (w_pool w)) as [k|] eqn:K; [apply keyed_refl|].
    assert (N : ~ started w) by (unfold started; intros [C|C]; congruence).
    rewrite mbind_get, mbind_updp. set (k := ev_keygen E (w_hist w)). set (w1 := set_w_pool _ w).
    assert (S1 : forall w2 : world, w_log w2 = w_log w -> keyed w w2).
    { intros w2 L. exists []. split; [unfold since; rewrite app_nil_r; exact L|]. split; [left; reflexivity|]. intros C; contradiction. }
    destruct (public_blob _ _) as [blob|e]; [|apply S1; reflexivity]. rewrite mbind_ok.
    destruct (fragment_one_effect E (OPublicKey (b64encode blob)) None w1) as [[e Fe]|[b [s [fs [_ [_ Fo]]]]]].
    - rewrite (mbind_raise _ _ _ _ _ Fe). apply S1; reflexivity.
    - rewrite (mbind_some _ _ _ _ _ Fo). set (w2 := set_w_log _ _).
      assert (S2 : keyed w w2).
      { exists [EOut None (OPublicKey (b64encode blob))]. split; [reflexivity|]. assert (started w2) by (left; discriminate).
        split; [right; split; [eexists; reflexivity|split; [exact N|assumption]]|]. intros C; contradiction. }
      eapply keyed_trans; [exact S2|].
      match goal with |- keyed _ (snd (?m _)) => assert (W : steps keyed m); [|exact (W w2)] end.
      walk keyed_refl keyed_trans ltac:(first [apply keyed_send | apply keyed_wait]).
  Qed.
  Lemma keyed_op fuel o : steps keyed (run_op E fuel o).
  Proof.
    apply gen_op; [exact keyed_refl|exact keyed_trans|intros; apply keyed_silent; auto|exact keyed_handle| | |exact keyed_exchange].
    - intros pid o' P. apply keyed_out. intros k ->. discriminate P.
    - intros k mk H. unfold ask, new_call, fragment_one, first_fragment.
      walk keyed_refl keyed_trans ltac:(first [apply keyed_send | apply keyed_out; intros; destruct H as [[_ [v ->]]|[[_ [v ->]]|[[_ ->]|[_ ->]]]]; discriminate | (intros w; apply keyed_silent; reflexivity)]).
  Qed.
  Lemma keyed_ops l w : keyed w (run_ops E l w).
  Proof. apply run_ops_steps; [exact keyed_refl|exact keyed_trans|exact keyed_op]. Qed.
  Lemma key_once l w : exists new, since w (run_ops E l w) new /\ (length (public_keys new) <= 1)%nat /\
    (rp_exchange (w_pool w) <> None \/ rp_exchanged (w_pool w) = true -> public_keys new = []).
  Proof.
    destruct (keyed_ops l w) as [new [S [K _]]]. exists new. split; [exact S|]. destruct K as [-> | [[k ->] [N _]]].
    - split; [cbn; lia|reflexivity].
    - split; [cbn; lia|]. intros C; contradiction.
  Qed.
End Logged.
