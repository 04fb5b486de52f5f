(* The requests of a call on a pipeline name no other (C78). *)
From Verif Require Import Base BaseProofs Lit NumModel TextModel XmlModel WsmanModel ShellModel ShellSpec FragModel MsgModel UtilModel TransModel PoolModel PoolSpec PoolProofs PoolProofs2 PoolProofs3 PoolProofs4 PoolProofs5 ApartSpec ApartSpec2.
Require Import Lia ZifyBool ZifyNat ZifyN.

Section Asked.
  Context {Obj Cmd HS RK : Type} (E : env Obj Cmd HS RK).
  Notation world := (world Obj Cmd HS RK).
  Notation M A := (world -> out A * world).
  Definition asked (P : list N -> Prop) (w w' : world) : Prop :=
    (exists qs, requests w w' qs /\ Forall (fun e => Forall P (names (fst e))) qs) /\ ((length (w_heap w') = length (w_heap w) /\
    rp_pipelines (w_pool w') = rp_pipelines (w_pool w)) /\ forall k, ps_command_id (the_ps k w') = ps_command_id (the_ps k w) /\ ps_id (the_ps k w') = ps_id (the_ps k w)).
  Section At.
    Context (P : list N -> Prop).
    Lemma asked_refl w : asked P w w.
    Proof. split; [exists []; split; [unfold requests; rewrite app_nil_r; reflexivity|constructor]|]. split; [split; reflexivity|]. intros k. split; reflexivity. Qed.
    Lemma asked_trans a b c : asked P a b -> asked P b c -> asked P a c.
    Proof.
      intros ((q1 & H1 & F1) & ((L1 & G1) & K1)) ((q2 & H2 & F2) & ((L2 & G2) & K2)). split.
      - exists (q1 ++ q2). split; [unfold requests in *; rewrite H2, H1, app_assoc; reflexivity|]. apply Forall_app. split; assumption.
      - split; [split; congruence|]. intros k. destruct (K1 k), (K2 k). split; congruence.
    Qed.
    Lemma asked_silent w w' : w_hist w' = w_hist w -> length (w_heap w') = length (w_heap w) -> rp_pipelines (w_pool w') = rp_pipelines (w_pool w) -> (forall k, ps_command_id (the_ps k w') = ps_command_id (the_ps k w) /\ ps_id (the_ps k w') = ps_id (the_ps k w)) -> asked P w w'.
    Proof. intros H L G K. split; [exists []; split; [unfold requests; rewrite app_nil_r; exact H|constructor]|]. split; [split; assumption|exact K]. Qed.
    Lemma asked_updp f : (forall x, rp_pipelines (f x) = rp_pipelines x) -> steps (asked P) (@updp Obj Cmd HS RK f).
    Proof. intros H w. apply asked_silent; [reflexivity|reflexivity|apply H|split; reflexivity]. Qed.
    Lemma asked_host f : steps (asked P) (@upd Obj Cmd HS RK (set_w_host f)).
    Proof. intros w. apply asked_silent; [reflexivity|reflexivity|reflexivity|split; reflexivity]. Qed.
    Lemma asked_observe e : steps (asked P) (@observe Obj Cmd HS RK e).
    Proof. intros w. apply asked_silent; [reflexivity|reflexivity|reflexivity|split; reflexivity]. Qed.
    Lemma asked_updps r f : (forall p, ps_command_id (f p) = ps_command_id p /\ ps_id (f p) = ps_id p) -> steps (asked P) (@updps Obj Cmd HS RK r f).
    Proof.
      intros H w. apply asked_silent; [reflexivity|unfold updps, upd; cbn [snd w_heap set_w_heap]; apply list_upd_length|reflexivity|]. intros k.
      unfold updps, upd, the_ps. cbn [snd w_heap set_w_heap].
      destruct (Nat.eq_dec k r) as [->|Ne]; [|rewrite (nth_list_upd_other) by congruence; split; reflexivity].
      destruct (Nat.lt_ge_cases r (length (w_heap w))) as [L|L].
      - rewrite nth_list_upd_same by exact L. apply H.
      - rewrite !nth_overflow by (rewrite ?list_upd_length; exact L). split; reflexivity.
    Qed.
    Lemma asked_hist (w : world) q a : Forall P (names q) -> asked P w (set_w_hist (w_hist w ++ [(q, a)]) w).
    Proof. intros F. split; [exists [(q, a)]; split; [reflexivity|constructor; [exact F|constructor]]|]. split; [split; reflexivity|]. intros k. split; reflexivity. Qed.
    Lemma asked_raw q : Forall P (names q) -> steps (asked P) (request_raw E q).
    Proof. intros F w. unfold request_raw, call. apply asked_hist. exact F. Qed.
    Lemma asked_send s d c : (forall i, c = Some i -> P i) -> steps (asked P) (send E s d c).
    Proof.
      intros H. unfold send. apply steps_bind; [exact asked_trans| |intros ?; apply steps_ret; exact asked_refl].
      intros w. unfold on_shell, shell_send, call. apply asked_hist. destruct c as [i|]; [constructor; [apply H; reflexivity|constructor]|constructor].
    Qed.
    Lemma asked_receive s c t : (forall i, c = Some i -> P i) -> steps (asked P) (on_shell E (fun srv => shell_receive srv s c t)).
    Proof.
      intros H w. unfold on_shell, shell_receive, call. apply asked_hist. destruct c as [i|]; [constructor; [apply H; reflexivity|constructor]|constructor].
    Qed.
    Lemma asked_signal c i : P i -> steps (asked P) (on_shell E (fun srv => shell_signal srv c i)).
    Proof. intros H w. unfold on_shell, shell_signal, call. apply asked_hist. constructor; [exact H|constructor]. Qed.
    Lemma asked_command x a n i : P i -> steps (asked P) (on_shell E (fun srv => shell_command srv x (Some [a]) n (Some i))).
    Proof. intros H w. unfold on_shell, shell_command, call. apply asked_hist. constructor; [exact H|constructor]. Qed.
    Ltac base_prim := first
      [ apply asked_send; discriminate | apply asked_observe | apply asked_updp; reflexivity | apply asked_host
      | apply asked_updps; intros ?; split; reflexivity ].
    Ltac base_walk := walk asked_refl asked_trans base_prim.
    Lemma asked_frag1 o pid : steps (asked P) (fragment_one E o pid).
    Proof. unfold fragment_one. base_walk. Qed.
    Lemma asked_fragn os pid : steps (asked P) (fragment_many E os pid).
    Proof. unfold fragment_many. base_walk. Qed.
    Lemma asked_call o pl : steps (asked P) (process_host_call E o pl).
    Proof.
      unfold process_host_call. destruct (ev_host E) as [run|]; [|base_walk]. destruct (ev_host_call E o) as [[ci mi] mp].
      apply steps_bind; [exact asked_trans|destruct pl; base_walk|intros pid]. apply steps_bind; [exact asked_trans|base_walk|intros st]. destruct (run st mi mp pid) as [r st'].
      base_walk; apply asked_frag1.
    Qed.
    Lemma asked_data d f : (forall o, steps (asked P) (f o)) -> steps (asked P) (@data_obj Obj Cmd HS RK d f).
    Proof. intros H. destruct d; cbn [data_obj]; first [apply H | apply steps_ret; exact asked_refl]. Qed.
    Lemma asked_handle pl m : steps (asked P) (handle E pl m).
    Proof.
      unfold handle, process_message. apply steps_bind; [exact asked_trans|apply asked_observe|intros _].
      repeat match goal with |- steps _ (if _ then _ else _) => match goal with |- steps _ (if ?b then _ else _) => destruct b end end;
      try (apply steps_ret; exact asked_refl);
      try (apply asked_data; intros o; first [apply asked_call | unfold process_session_capability, process_session_key, process_init_data, process_availability, process_pool_state; base_walk]).
      destruct pl as [r|]; [|apply steps_ret; exact asked_refl].
      repeat match goal with |- steps _ (if _ then _ else _) => match goal with |- steps _ (if ?b then _ else _) => destruct b end end;
      try (apply steps_ret; exact asked_refl);
      apply asked_data; intros o; first [apply asked_call | unfold process_pipeline_state; base_walk].
    Qed.
    Lemma asked_parse d pl : steps (asked P) (parse_responses E d pl).
    Proof. unfold parse_responses. base_walk. apply asked_handle. Qed.
    Lemma asked_poll r t (w : world) : (forall k, dict_get str_eqb (ps_id (the_ps r w)) (rp_pipelines (w_pool w)) = Some k -> k = r) ->
      (forall i, ps_command_id (the_ps r w) = Some i -> P i) -> asked P w (snd (poll_invoke E r t w)).
    Proof.
      intros G H. assert (R : asked P w (snd (receive E (Some (ps_id (the_ps r w))) t w))).
      { unfold receive. rewrite mbind_getp.
        assert (D : forall c pl, (forall i, c = Some i -> P i) -> steps (asked P)
          (mbind (on_shell E (fun srv => shell_receive srv (lit "stdout") c t))
            (fun b => match dict_get str_eqb (lit "stdout") (snd b) with None => throw KeyError | Some data => parse_responses E data pl end))).
        { intros c pl Hc. apply steps_bind; [exact asked_trans|apply asked_receive; exact Hc|intros b]. destruct (dict_get str_eqb (lit "stdout") (snd b)); [apply asked_parse|apply steps_throw; exact asked_refl]. }
        destruct (ps_id (the_ps r w)) as [|c s] eqn:Ei; [apply (D None); discriminate|].
        destruct (dict_get str_eqb (c :: s) (rp_pipelines (w_pool w))) as [k|] eqn:Ek; [|apply (D None); discriminate].
        rewrite (G k eq_refl). rewrite mbind_getps. apply D. exact H. }
      unfold poll_invoke. destruct (receive E (Some (ps_id (the_ps r w))) t w) as [[ms|x] w']; cbn [snd] in R.
      - refine (asked_trans _ _ _ R _). apply asked_updps. intros p. split; reflexivity.
      - destruct (is_code x operation_timeout); exact R.
    Qed.
    Lemma asked_end r : forall fuel (w : world), (forall k, dict_get str_eqb (ps_id (the_ps r w)) (rp_pipelines (w_pool w)) = Some k -> k = r) ->
      (forall i, ps_command_id (the_ps r w) = Some i -> P i) -> asked P w (snd (end_invoke E fuel r w)).
    Proof.
      induction fuel as [|fuel IH]; intros w G H; cbn [end_invoke].
      - destruct (negb _); apply asked_refl.
      - destruct (negb _); [apply asked_refl|]. pose proof (asked_poll r None w G H) as A. unfold mbind.
        destruct (poll_invoke E r None w) as [[u|x] w']; cbn [snd] in *; [|exact A]. refine (asked_trans _ _ _ A (IH w' _ _)).
        + destruct A as (_ & (_ & A1) & A2). destruct (A2 r) as (_ & ->). rewrite A1. exact G.
        + destruct A as (_ & _ & A2). destruct (A2 r) as (-> & _). exact H.
    Qed.
  End At.

  (* starting: first only requests that name [id], then only such that name the
     command id that the pipeline has from there on *)
  Definition before (id : list N) (w w' : world) : Prop :=
    exists qs, requests w w' qs /\ Forall (fun e => Forall (fun i => i = id) (names (fst e))) qs.
  Lemma before_refl id w : before id w w.
  Proof. exists []. split; [unfold requests; rewrite app_nil_r; reflexivity|constructor]. Qed.
  Lemma before_trans id a b c : before id a b -> before id b c -> before id a c.
  Proof.
    intros (q1 & H1 & F1) (q2 & H2 & F2). exists (q1 ++ q2). split; [unfold requests in *; rewrite H2, H1, app_assoc; reflexivity|]. apply Forall_app. split; assumption.
  Qed.
  Lemma before_asked id (P : list N -> Prop) w w' : (forall i, P i -> i = id) -> asked P w w' -> before id w w'.
  Proof. intros H ((qs & Q & F) & _). exists qs. split; [exact Q|]. revert F. apply Forall_impl. intros e. apply Forall_impl. exact H. Qed.
  Lemma before_silent id w w' : w_hist w' = w_hist w -> before id w w'.
  Proof. intros H. exists []. split; [unfold requests; rewrite app_nil_r; exact H|constructor]. Qed.
  Definition after (r : nat) (w w' : world) : Prop := asked (fun i => ps_command_id (the_ps r w) = Some i) w w'.
  Lemma after_refl r w : after r w w.
  Proof. apply asked_refl. Qed.
  Lemma after_trans r a b c : after r a b -> after r b c -> after r a c.
  Proof.
    intros A B. refine (asked_trans _ a b c A _). unfold after in *. destruct A as (_ & _ & K). destruct (K r) as (K1 & _). rewrite K1 in B. exact B.
  Qed.
  Definition both (id : list N) (r : nat) (w w' : world) : Prop := exists mid, before id w mid /\ after r mid w'.
  Lemma both_left {A B} id r (a : M A) (f : A -> M B) : steps (before id) a -> (forall x, steps (both id r) (f x)) -> steps (both id r) (mbind a f).
  Proof.
    intros H K w. specialize (H w). unfold mbind. destruct (a w) as [[x|e] w1]; cbn [snd] in *.
    - destruct (K x w1) as (mid & B1 & B2). exists mid. split; [exact (before_trans _ _ _ _ H B1)|exact B2].
    - exists w1. split; [exact H|apply after_refl].
  Qed.
  Lemma both_right {A} id r (a : M A) : steps (after r) a -> steps (both id r) a.
  Proof. intros H w. exists w. split; [apply before_refl|apply H]. Qed.
  Lemma both_bind {A B} id r (a : M A) (f : A -> M B) w : both id r w (snd (a w)) -> (forall x, steps (after r) (f x)) -> both id r w (snd (mbind a f w)).
  Proof.
    intros (mid & H1 & H2) K. unfold mbind. destruct (a w) as [[x|e] w1]; cbn [snd] in *.
    - exists mid. split; [exact H1|]. exact (after_trans _ _ _ _ H2 (K x w1)).
    - exists mid. split; assumption.
  Qed.
  Lemma after_each r fs : steps (after r) (each (fun f => mbind (getps r ps_command_id) (fun cid => send E (lit "stdin") f cid)) fs).
  Proof.
    apply steps_each; [exact (after_refl r)|exact (after_trans r)|]. intros f w. rewrite mbind_getps. apply asked_send. auto.
  Qed.
  Lemma after_all r {A} (m : M A) : (forall P, steps (asked P) m) -> steps (after r) m.
  Proof. intros H w. apply H. Qed.
  Lemma invoked r o w : both (ps_id (the_ps r w)) r w (snd (ps_invoke E r o w)).
  Proof.
    unfold ps_invoke. rewrite mbind_getps. generalize (ps_id (the_ps r w)) as id. intros id. revert w. change (steps (both id r)
      (mbind (fragment_one E o (Some id)) (fun fs => mbind (updp (fun x => set_rp_pipelines (dict_set str_eqb id r (rp_pipelines x)) x)) (fun _ => mbind (first_fragment fs) (fun f =>
       mbind (on_shell E (fun srv => shell_command srv [] (Some [b64encode f]) false (Some id))) (fun b => match b with None => throw AttributeError | Some e =>
         mbind (match find_first [rsp (lit "CommandResponse"); rsp (lit "CommandId")] e with Some x => updps r (set_ps_command_id (Some (or_empty (x_text x)))) | None => ret tt end)
         (fun _ => mbind (updps r (set_ps_state pl_running)) (fun _ => each (fun f => mbind (getps r ps_command_id) (fun cid => send E (lit "stdin") f cid)) (tl fs))) end)))))).
    apply both_left; [intros w0; apply (before_asked id (fun i => i = id)); [auto|apply asked_frag1]|intros fs].
    apply both_left; [intros w0; apply before_silent; reflexivity|intros _].
    apply both_left; [destruct fs; [apply steps_throw|apply steps_ret]; apply before_refl|intros f].
    apply both_left; [intros w0; apply (before_asked id (fun i => i = id)); [auto|apply asked_command; reflexivity]|intros b].
    destruct b as [e|]; [|apply both_right; apply steps_throw; apply after_refl].
    apply both_left; [destruct (find_first _ e); [intros w0; apply before_silent; reflexivity|apply steps_ret; apply before_refl]|intros _].
    apply both_left; [intros w0; apply before_silent; reflexivity|intros _].
    apply both_right. apply after_each.
  Qed.
  Lemma after_inputs r l : forall c, steps (after r) (send_inputs E r c l).
  Proof.
    induction l as [|n l IH]; intros [i|]; cbn [send_inputs]; try (apply steps_ret; apply after_refl).
    - apply steps_bind; [exact (after_trans r)|apply steps_getps; apply after_refl|intros id]. apply steps_bind; [exact (after_trans r)|apply after_all; intros P; apply asked_fragn|intros fs]. apply after_each.
    - apply steps_bind; [exact (after_trans r)|apply steps_getps; apply after_refl|intros id]. apply steps_bind; [exact (after_trans r)|apply after_all; intros P; apply asked_fragn|intros fs].
      apply steps_bind; [exact (after_trans r)|apply after_each|intros _]. apply IH.
  Qed.
  Lemma asked_begin r a w : both (ps_id (the_ps r w)) r w (snd (begin_invoke E r a w)).
  Proof.
    unfold begin_invoke. rewrite mbind_getps. cbv beta. destruct (negb _); [apply both_right; apply steps_throw; apply after_refl|].
    destruct (ps_commands (the_ps r w)) as [|c l]; [apply both_right; apply steps_throw; apply after_refl|]. rewrite mbind_getp. cbv zeta.
    apply both_bind; [apply invoked|]. intros _. destruct (ia_input a) as [[i|[|n l']]|]; [apply after_inputs|apply steps_throw; apply after_refl|apply after_inputs|apply steps_ret; apply after_refl].
  Qed.

  Lemma only (P Q : list N -> Prop) (w w' : world) : (forall i, P i -> Q i) -> asked P w w' -> exists qs, requests w w' qs /\ Forall (fun e => Forall Q (names (fst e))) qs.
  Proof. intros H ((qs & R & F) & _). exists qs. split; [exact R|]. revert F. apply Forall_impl. intros e. apply Forall_impl. exact H. Qed.
  Lemma asked_op fuel o r (w : world) : about o = OfPipeline r ->
    (forall k, dict_get str_eqb (ps_id (the_ps r w)) (rp_pipelines (w_pool w)) = Some k -> k = r) ->
    let w' := snd (run_op E fuel o w) in
    exists qs, requests w w' qs /\ Forall (fun e => Forall (fun i =>
      i = ps_id (the_ps r w) \/ i = upper (ps_id (the_ps r w)) \/ ps_command_id (the_ps r w) = Some i \/ ps_command_id (the_ps r w') = Some i) (names (fst e))) qs.
  Proof.
    intros A G w'. subst w'.
    assert (T : forall w', asked (fun i => i = ps_id (the_ps r w) \/ i = upper (ps_id (the_ps r w)) \/ ps_command_id (the_ps r w) = Some i) w w' ->
      exists qs, requests w w' qs /\ Forall (fun e => Forall (fun i =>
        i = ps_id (the_ps r w) \/ i = upper (ps_id (the_ps r w)) \/ ps_command_id (the_ps r w) = Some i \/ ps_command_id (the_ps r w') = Some i) (names (fst e))) qs).
    { intros w'. apply only. intros i. tauto. }
    assert (U : forall j w', (j = ps_id (the_ps r w) \/ j = upper (ps_id (the_ps r w)) \/ ps_command_id (the_ps r w) = Some j) -> before j w w' ->
      exists qs, requests w w' qs /\ Forall (fun e => Forall (fun i =>
        i = ps_id (the_ps r w) \/ i = upper (ps_id (the_ps r w)) \/ ps_command_id (the_ps r w) = Some i \/ ps_command_id (the_ps r w') = Some i) (names (fst e))) qs).
    { intros j w' J (qs & Q & F). exists qs. split; [exact Q|]. revert F. apply Forall_impl. intros e. apply Forall_impl. intros i ->. tauto. }
    destruct o; try discriminate A; cbn [about] in A; assert (Er : r0 = r) by congruence; subst r0; clear A; cbn [run_op].
    - apply T. apply asked_updps. intros p. split; reflexivity.
    - destruct (asked_begin r a w) as (mid & (q1 & H1 & F1) & ((q2 & H2 & F2) & _ & K)). exists (q1 ++ q2). split; [unfold requests in *; rewrite H2, H1, app_assoc; reflexivity|].
      apply Forall_app. destruct (K r) as (K1 & _). rewrite K1. split; [revert F1|revert F2]; apply Forall_impl; intros e; apply Forall_impl; intros i; tauto.
    - apply T. apply asked_poll; [exact G|tauto].
    - pose proof (asked_end (fun i => i = ps_id (the_ps r w) \/ i = upper (ps_id (the_ps r w)) \/ ps_command_id (the_ps r w) = Some i) r fuel w G) as D.
      unfold void, mbind. destruct (end_invoke E fuel r w) as [[u|x] w']; cbn [snd ret] in *; apply T; apply D; tauto.
    - assert (B : before (upper (ps_id (the_ps r w))) w (snd (ps_stop E r w))); [|apply (U (upper (ps_id (the_ps r w)))); [tauto|exact B]].
      unfold ps_stop. rewrite mbind_getps. cbv beta. destruct (in_states _ _); [apply before_refl|]. destruct (negb _); [apply before_refl|].
      generalize (ps_id (the_ps r w)). intros id. match goal with |- before _ _ (snd (?m _)) => enough (Hm : steps (before (upper id)) m) by exact (Hm w) end.
      repeat first [exact (before_trans (upper id)) | apply steps_bind; [| |intros _] | intros w0; apply before_silent; reflexivity
                   | intros w0; apply (before_asked (upper id) (fun i => i = upper id)); [auto|apply asked_signal; reflexivity]].
    - assert (B : before (nonempty (ps_command_id (the_ps r w)) (ps_id (the_ps r w))) w (snd (ps_close E r w))).
      { unfold ps_close. rewrite mbind_getps. cbv beta. destruct (Z.eqb _ _); [apply before_refl|]. destruct (negb _); [apply before_refl|].
        generalize (ps_id (the_ps r w)) (ps_command_id (the_ps r w)). intros id cid. match goal with |- before _ _ (snd (?m _)) => enough (Hm : steps (before (nonempty cid id)) m) by exact (Hm w) end.
        repeat first [exact (before_trans (nonempty cid id)) | apply steps_bind; [| |intros _] | intros w0; apply before_silent; reflexivity
                     | intros w0; apply (before_asked (nonempty cid id) (fun i => i = nonempty cid id)); [auto|apply asked_signal; reflexivity]]. }
      apply (U (nonempty (ps_command_id (the_ps r w)) (ps_id (the_ps r w)))); [|exact B].
      destruct (ps_command_id (the_ps r w)) as [[|c s]|]; cbn [nonempty]; tauto.
    - assert (B : before (ps_id (the_ps r w)) w (snd (ps_connect_async E r w))); [|apply (U (ps_id (the_ps r w))); [tauto|exact B]].
      unfold ps_connect_async, conn_request. rewrite mbind_getps. cbv beta. destruct (negb _); [apply before_refl|]. rewrite mbind_getp.
      generalize (ps_id (the_ps r w)). intros id. match goal with |- before _ ?w0 (snd (?m ?w0)) => generalize (sh_selectors (rp_shell (w_pool w0))); intros sel end.
      match goal with |- before _ _ (snd (?m _)) => enough (Hm : steps (before id) m) by exact (Hm w) end.
      repeat first [exact (before_trans id) | apply steps_bind; [| |intros _] | apply steps_bind; [| |intros ?] | apply steps_getp; apply before_refl | intros w0; apply before_silent; reflexivity
                   | intros w0; apply (before_asked id (fun i => i = id)); [auto|apply asked_raw; constructor; [reflexivity|constructor]]].
  Qed.
End Asked.
