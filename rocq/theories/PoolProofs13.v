(* What is negotiated, and the requests that depend on it (C54); closing a
   broken pool (C21). *)
From Verif Require Import Base BaseProofs Lit NumModel TextModel XmlModel WsmanModel ShellModel ShellSpec FragModel MsgModel UtilModel TransModel PoolModel PoolSpec PoolSpec2 PoolProofs PoolProofs2 PoolProofs3 PoolProofs4 PoolProofs5 PoolProofs6 PoolProofs11.
Require Import Lia ZifyBool ZifyNat ZifyN.
Section Pool13.
  Context {Obj Cmd HS RK : Type} (E : env Obj Cmd HS RK).
  Notation world := (world Obj Cmd HS RK).
  Notation event := (event Obj Cmd).
  Notation M A := (world -> out A * world).
  Notation "a ;;; b" := (mbind a (fun _ => b)) (at level 61, right associativity).
  Notation "x <-- a ;; b" := (mbind a (fun x => b)) (at level 61, a at next level, right associativity).

  Definition versions (p : pool Obj RK) := (rp_protocol p, rp_psver p, rp_server p).
  Definition sizes (p : pool Obj RK) := (rp_envelope p, rp_payload p).
  Definition newer (c : option (list N) * option (list N) * option (list N)) : bool :=
    match version_equal_or_newer (match protocol_of c with Some t => t | None => [] end) (lit "2.2") with Ok b => b | Err _ => false end.
  Definition agree (w w' : world) : Prop :=
    exists l, since w w' l /\ versions (w_pool w') = List.last (stated E l) (versions (w_pool w)) /\
      sizes (w_pool w') = (if (existsb newer (stated E l) && Z.eqb (rp_envelope (w_pool w)) 153600)%bool
                           then (512000%Z, max_payload_size (ev_skeleton E) 512000) else sizes (w_pool w)).
  Lemma stated_app (l l' : list event) : stated E (l ++ l') = stated E l ++ stated E l'.
  Proof. apply flat_map_app. Qed.
  Lemma last_any {A} (l : list A) : forall x d d', List.last (x :: l) d = List.last (x :: l) d'.
  Proof. induction l as [|y l IH]; intros x d d'; [reflexivity|]. exact (IH y d d'). Qed.
  Lemma last_app {A} (l l' : list A) d : List.last (l ++ l') d = List.last l' (List.last l d).
  Proof.
    revert d; induction l as [|x l IH]; intros d; [reflexivity|]. destruct l as [|y l].
    - cbn [app]. destruct l' as [|a l']; [reflexivity|]. exact (last_any l' a d x).
    - change (List.last ((x :: y :: l) ++ l') d) with (List.last ((y :: l) ++ l') d). rewrite IH. reflexivity.
  Qed.
  Lemma agree_silent w w' : w_log w' = w_log w -> terms (w_pool w') = terms (w_pool w) -> agree w w'.
  Proof.
    intros L T. exists []. split; [unfold since; rewrite app_nil_r; exact L|]. unfold terms in T. cbn [stated flat_map existsb andb List.last]. unfold versions, sizes. split; congruence.
  Qed.
  Lemma agree_refl w : agree w w. Proof. apply agree_silent; reflexivity. Qed.
  Lemma agree_trans a b c : agree a b -> agree b c -> agree a c.
  Proof.
    intros [l1 [L1 [V1 S1]]] [l2 [L2 [V2 S2]]]. exists (l1 ++ l2). split; [eapply since_trans; eauto|]. rewrite stated_app, last_app, existsb_app.
    split; [congruence|]. unfold sizes in *.
    assert (E1 : rp_envelope (w_pool b) = fst (rp_envelope (w_pool b), rp_payload (w_pool b))) by reflexivity. rewrite S1 in E1. revert S1 E1 S2.
    destruct (existsb newer (stated E l1)) eqn:N1; destruct (Z.eqb_spec (rp_envelope (w_pool a)) 153600) as [Ea|Ea]; cbn [andb orb fst]; intros S1 E1 S2; rewrite E1 in S2.
    - change (Z.eqb 512000 153600) with false in S2. rewrite andb_false_r in S2. apply pair_inj in S1 as [_ S1]. rewrite S2, S1. reflexivity.
    - rewrite (proj2 (Z.eqb_neq _ _) Ea), andb_false_r in S2. apply pair_inj in S1 as [_ S1]. rewrite S2, S1. reflexivity.
    - rewrite Ea in S2. destruct (existsb newer (stated E l2)); cbn [andb] in *; [exact S2|]. apply pair_inj in S1 as [_ S1]. rewrite S2, S1, Ea. reflexivity.
    - rewrite (proj2 (Z.eqb_neq _ _) Ea), andb_false_r in S2. rewrite andb_false_r. apply pair_inj in S1 as [_ S1]. rewrite S2, S1. reflexivity.
  Qed.
  Lemma agree_out pid o : steps agree (observe (EOut pid o)).
  Proof. intros w. exists [EOut pid o]. split; [reflexivity|]. split; reflexivity. Qed.
  Lemma agree_host mi mp pl r : steps agree (observe (EHost mi mp pl r)).
  Proof. intros w. exists [EHost mi mp pl r]. split; [reflexivity|]. split; reflexivity. Qed.
  Lemma agree_shell {A} (f : (history -> sreq -> wresult) -> shell -> history -> out A * history) : steps agree (on_shell E f).
  Proof. intros w. unfold on_shell. destruct (f _ _ _) as [r h]. apply agree_silent; reflexivity. Qed.
  Lemma agree_process pl m : Z.eqb (m_type m) SESSION_CAPABILITY = false -> steps agree (process_message E pl m).
  Proof.
    intros H. unfold process_message. rewrite H.
    unfold data_obj, process_session_key, process_init_data, process_availability, process_pool_state, process_pipeline_state, process_host_call, fragment_one, send.
    walk agree_refl agree_trans ltac:(first [apply agree_out | apply agree_host | apply agree_shell | (intros ?w; apply agree_silent; reflexivity)]).
  Qed.
  Lemma agree_handle pl m : steps agree (handle E pl m).
  Proof.
    intros w. unfold handle. rewrite mbind_observe. set (w1 := set_w_log _ _).
    destruct (Z.eqb (m_type m) SESSION_CAPABILITY) eqn:T.
    - unfold process_message. rewrite T.
      destruct (data_obj_case m (process_session_capability E) w1) as [[C ->]|[o [C ->]]].
      + exists [EMsg pl m]. split; [reflexivity|]. cbn [stated flat_map app]. rewrite T, C. split; reflexivity.
      + unfold process_session_capability. destruct (ev_capability E o) as [[p v] s] eqn:Ec.
        assert (X : forall d, List.last (stated E [EMsg pl m]) d = (p, v, s)) by (intros; cbn [stated flat_map app]; rewrite T, C, Ec; reflexivity).
        assert (Y : existsb newer (stated E [EMsg pl m]) = newer (p, v, s)) by (cbn [stated flat_map app]; rewrite T, C, Ec; cbn [existsb]; apply orb_false_r).
        rewrite mbind_updp. 
        change (newer (p, v, s)) with (match version_equal_or_newer (match p with Some t => t | None => [] end) (lit "2.2") with Ok b => b | Err _ => false end) in Y.
        destruct (version_equal_or_newer _ (lit "2.2")) as [nw|e].
        * rewrite mbind_ok, mbind_getp. cbn [w_pool set_w_pool].
          change (rp_envelope (set_rp_server s (set_rp_psver v (set_rp_protocol p (w_pool w1))))) with (rp_envelope (w_pool w)).
          destruct (nw && _)%bool eqn:B; (exists [EMsg pl m]; split; [reflexivity|]; rewrite X, Y, B; split; reflexivity).
        * exists [EMsg pl m]. split; [reflexivity|]. rewrite X, Y. split; reflexivity.
    - pose proof (agree_process pl m T w1) as [l [L [V S]]]. exists (EMsg pl m :: l). split; [unfold since in *; rewrite L; unfold w1; cbn [w_log set_w_log]; rewrite <- app_assoc; reflexivity|].
      cbn [stated flat_map]. rewrite T. exact (conj V S).
  Qed.
  Lemma agree_op fuel o : steps agree (run_op E fuel o).
  Proof.
    apply gen_op; [exact agree_refl|exact agree_trans|intros; apply agree_silent; auto|exact agree_handle|intros; apply agree_out| |].
    - intros k mk _. unfold ask, new_call, fragment_one, first_fragment, send.
      walk agree_refl agree_trans ltac:(first [apply agree_out | apply agree_shell | (intros w; apply agree_silent; reflexivity) ]).
    - intros f. unfold exchange_keys, fragment_one, send.
      walk agree_refl agree_trans ltac:(first [apply agree_out | apply (gen_wait E agree agree_refl agree_trans); [intros; apply agree_silent; auto|exact agree_handle] | apply agree_shell | (intros w; apply agree_silent; reflexivity) ]).
  Qed.
  Lemma existsb_newer c l : In c l -> at_least (protocol_of c) (lit "2.2") -> existsb newer l = true.
  Proof. intros I A. apply existsb_exists. exists c. split; [exact I|]. unfold newer. unfold at_least in A. rewrite A. reflexivity. Qed.
  Lemma negotiated ops (w : world) :
    exists l, since w (run_ops E ops w) l /\
      versions (w_pool (run_ops E ops w)) = List.last (stated E l) (versions (w_pool w)) /\
      (rp_envelope (w_pool w) = 153600%Z -> (exists c, In c (stated E l) /\ at_least (protocol_of c) (lit "2.2")) ->
       sizes (w_pool (run_ops E ops w)) = (512000%Z, max_payload_size (ev_skeleton E) 512000)) /\
      (rp_envelope (w_pool w) <> 153600%Z \/ (forall c, In c (stated E l) -> ~ at_least (protocol_of c) (lit "2.2")) ->
       sizes (w_pool (run_ops E ops w)) = sizes (w_pool w)).
  Proof.
    assert (A : agree w (run_ops E ops w)) by (apply run_ops_steps; [exact agree_refl|exact agree_trans|exact agree_op]).
    destruct A as [l [L [V S]]]. exists l. split; [exact L|]. split; [exact V|]. rewrite S. split.
    - intros -> [c [I Hc]]. rewrite (existsb_newer c _ I Hc). reflexivity.
    - intros [N|N]; [rewrite (proj2 (Z.eqb_neq _ _) N), andb_false_r; reflexivity|].
      destruct (existsb newer (stated E l)) eqn:X; [|reflexivity]. exfalso. apply existsb_exists in X as [c [I Hc]]. apply (N c I).
      unfold newer in Hc. unfold at_least. destruct (version_equal_or_newer _ _); congruence.
  Qed.

  (* ---- resetting ---- *)
  Lemma reset_old fuel (w : world) : rp_state (w_pool w) = rs_opened -> ~ at_least (rp_protocol (w_pool w)) (lit "2.3") ->
    exists e, reset_runspace_state E fuel w = (Raise (XExn e), w) /\
      (version_equal_or_newer (match rp_protocol (w_pool w) with Some t => t | None => [] end) (lit "2.3") = Ok false -> e = InvalidPSRPOperation).
  Proof.
    intros S N. unfold reset_runspace_state. rewrite mbind_getp, S. change (Z.eqb rs_opened rs_before_open) with false. change (negb (Z.eqb rs_opened rs_opened)) with false. cbv iota.
    rewrite mbind_getp. unfold at_least in N. destruct (version_equal_or_newer _ _) as [[|]|e]; [congruence| |].
    - exists InvalidPSRPOperation. split; reflexivity.
    - exists e. split; [reflexivity|discriminate].
  Qed.
  Lemma reset_call fuel (w : world) : rp_state (w_pool w) = rs_opened -> at_least (rp_protocol (w_pool w)) (lit "2.3") ->
    let ci := rp_ci (w_pool w) in
    let '(x, w') := reset_runspace_state E fuel w in
    exists l, since w w' l /\
      (x = Ret tt -> (exists l', l = EOut None (OReset ci) :: l' /\ call_ids l' = []) /\ answers_to E ci l = [VBool true]) /\
      (forall e, x = Raise e -> forall a more, answers_to E ci l = a :: more -> rfalsy a = true -> e = XExn InvalidPSRPOperation).
  Proof.
    intros S A. cbv zeta. unfold reset_runspace_state. rewrite mbind_getp, S. change (Z.eqb rs_opened rs_before_open) with false. change (negb (Z.eqb rs_opened rs_opened)) with false. cbv iota.
    rewrite mbind_getp. unfold at_least in A. rewrite A, mbind_ok. cbn [negb]. cbv iota.
    pose proof (limit_call E HReset (fun ci => OReset ci) fuel (fun ci => forget ci) w) as L. cbv zeta beta in L.
    destruct ((ci <-- ask E HReset (fun ci => OReset ci) ;; receive_until E fuel (fun w0 => is_bool (slot_of ci w0)) ;;; forget ci) w) as [x w'] eqn:Eq.
    cbn [fst snd] in L. destruct L as [B _]; [discriminate|intros ci w1; eexists; split; reflexivity|reflexivity|].
    destruct B as [l [L [B1 B2]]]. exists l. split; [exact L|]. split; [exact B1|]. intros e He. apply (B2 e He).
  Qed.
  Lemma close_done_already (w : world) : In (rp_state (w_pool w)) [rs_closed; rs_closing; rs_broken] -> pool_close E w = (Ret tt, w).
  Proof.
    intros H. unfold pool_close. rewrite mbind_getp. assert (X : in_states (rp_state (w_pool w)) [rs_closed; rs_closing; rs_broken] = true).
    { apply existsb_exists. exists (rp_state (w_pool w)). split; [exact H|apply Z.eqb_refl]. }
    rewrite X. reflexivity.
  Qed.
End Pool13.
