(* C80: nothing that is called forgets that there were errors *)
From Verif Require Import Base BaseProofs Lit NumModel TextModel XmlModel WsmanModel ShellModel ShellSpec FragModel MsgModel UtilModel TransModel PoolModel PoolSpec PoolProofs PoolProofs2 PoolProofs3 PoolProofs4 PoolProofs5 AgainModel AgainSpec.
Require Import Lia ZifyBool ZifyNat ZifyN.

Section Never.
  Context {Obj Cmd HS RK : Type} (E : env Obj Cmd HS RK).
  Notation world := (world Obj Cmd HS RK).
  Notation M A := (world -> out A * world).
  Definition kept (w w' : world) : Prop :=
    (length (w_heap w) <= length (w_heap w'))%nat /\ forall k, (k < length (w_heap w))%nat -> ps_had_errors (the_ps k w) = true -> ps_had_errors (the_ps k w') = true.
  Lemma kept_refl w : kept w w.
  Proof. split; auto. Qed.
  Lemma kept_trans a b c : kept a b -> kept b c -> kept a c.
  Proof. intros [A1 A2] [B1 B2]. split; [lia|]. intros k L H. apply B2; [lia|]. apply A2; assumption. Qed.
  Lemma kept_heap w w' : w_heap w' = w_heap w -> kept w w'.
  Proof. intros H. unfold kept, the_ps. rewrite H. split; auto. Qed.
  Lemma kept_updp f : steps kept (@updp Obj Cmd HS RK f).
  Proof. intros w. apply kept_heap; reflexivity. Qed.
  Lemma kept_host f : steps kept (@upd Obj Cmd HS RK (set_w_host f)).
  Proof. intros w. apply kept_heap; reflexivity. Qed.
  Lemma kept_observe e : steps kept (@observe Obj Cmd HS RK e).
  Proof. intros w. apply kept_heap; reflexivity. Qed.
  Lemma kept_updps r f : (forall p, ps_had_errors p = true -> ps_had_errors (f p) = true) -> steps kept (@updps Obj Cmd HS RK r f).
  Proof.
    intros H w. unfold kept, updps, upd, the_ps. cbn [snd w_heap set_w_heap]. rewrite list_upd_length. split; [auto|]. intros k L.
    destruct (Nat.eq_dec k r) as [->|Ne]; [rewrite nth_list_upd_same by exact L; apply H|rewrite nth_list_upd_other by congruence; auto].
  Qed.
  Lemma kept_append p : steps kept (@upd Obj Cmd HS RK (fun w => set_w_heap (w_heap w ++ [p]) w)).
  Proof. intros w. unfold kept, upd, the_ps. cbn [snd w_heap set_w_heap]. rewrite app_length. split; [lia|]. intros k L. rewrite app_nth1 by exact L. auto. Qed.
  Lemma kept_shell {A} (f : (history -> sreq -> wresult) -> shell -> history -> out A * history) : steps kept (on_shell E f).
  Proof. intros w. unfold on_shell. destruct (f _ _ _). apply kept_heap; reflexivity. Qed.
  Lemma kept_shell_state {A} (f : (history -> sreq -> wresult) -> shell -> history -> out A * shell * history) : steps kept (on_shell_state E f).
  Proof. intros w. unfold on_shell_state. destruct (f _ _ _) as [[r s] h]. apply kept_heap; reflexivity. Qed.
  Lemma kept_raw q : steps kept (request_raw E q).
  Proof. intros w. unfold request_raw, call. apply kept_heap; reflexivity. Qed.
  Ltac base_prim := first
    [ apply kept_shell | apply kept_shell_state | apply kept_raw | apply kept_observe | apply kept_updp | apply kept_host | apply kept_append
    | apply kept_updps; intros ? Hp; solve [exact Hp | reflexivity] ].
  Ltac base_walk := walk kept_refl kept_trans base_prim.
  Lemma kept_frag1 o pid : steps kept (fragment_one E o pid).
  Proof. unfold fragment_one. base_walk. Qed.
  Lemma kept_fragn os pid : steps kept (fragment_many E os pid).
  Proof. unfold fragment_many. base_walk. Qed.
  Lemma kept_call o pl : steps kept (process_host_call E o pl).
  Proof.
    unfold process_host_call, send. destruct (ev_host E) as [run|]; [|base_walk]. destruct (ev_host_call E o) as [[ci mi] mp].
    apply steps_bind; [exact kept_trans|destruct pl; base_walk|intros pid]. apply steps_bind; [exact kept_trans|base_walk|intros st]. destruct (run st mi mp pid) as [r st'].
    base_walk; apply kept_frag1.
  Qed.
  Lemma kept_data d f : (forall o, steps kept (f o)) -> steps kept (@data_obj Obj Cmd HS RK d f).
  Proof. intros H. destruct d; cbn [data_obj]; first [apply H | apply steps_ret; exact kept_refl]. Qed.
  Lemma kept_handle pl m : steps kept (handle E pl m).
  Proof.
    unfold handle, process_message. apply steps_bind; [exact kept_trans|apply kept_observe|intros _].
    repeat match goal with |- steps _ (if _ then _ else _) => match goal with |- steps _ (if ?b then _ else _) => destruct b end end;
    try (apply steps_ret; exact kept_refl);
    try (apply kept_data; intros o; first [apply kept_call | unfold process_session_capability, process_session_key, process_init_data, process_availability, process_pool_state; base_walk]).
    destruct pl as [r|]; [|apply steps_ret; exact kept_refl].
    repeat match goal with |- steps _ (if _ then _ else _) => match goal with |- steps _ (if ?b then _ else _) => destruct b end end;
    try (apply steps_ret; exact kept_refl);
    apply kept_data; intros o; first [apply kept_call | unfold process_pipeline_state; base_walk].
  Qed.
  Lemma kept_parse d pl : steps kept (parse_responses E d pl).
  Proof. unfold parse_responses. base_walk. apply kept_handle. Qed.
  Lemma kept_receive id t : steps kept (receive E id t).
  Proof. unfold receive. base_walk; apply kept_parse. Qed.
  Lemma kept_until done : forall fuel, steps kept (receive_until E fuel done).
  Proof.
    induction fuel as [|fuel IH]; intros w; cbn [receive_until]; destruct (done w); try apply kept_refl.
    apply steps_bind; [exact kept_trans|apply kept_receive|intros _; exact IH].
  Qed.
  Lemma kept_wait start : forall fuel, steps kept (key_wait E fuel start).
  Proof.
    induction fuel as [|fuel IH]; intros w; cbn [key_wait]; destruct (rp_exchanged _); try apply kept_refl; destruct (Z.ltb _ _); try apply kept_refl.
    apply steps_bind; [exact kept_trans|apply kept_receive|intros _; exact IH].
  Qed.
  Lemma kept_poll r t : steps kept (poll_invoke E r t).
  Proof.
    intros w. unfold poll_invoke. pose proof (kept_receive (Some (ps_id (the_ps r w))) t w) as R.
    destruct (receive E (Some (ps_id (the_ps r w))) t w) as [[ms|x] w']; cbn [snd] in R.
    - refine (kept_trans _ _ _ R _). apply kept_updps. intros p Hp. exact Hp.
    - destruct (is_code x operation_timeout); exact R.
  Qed.
  Lemma kept_end r : forall fuel, steps kept (end_invoke E fuel r).
  Proof.
    induction fuel as [|fuel IH]; intros w; cbn [end_invoke]; destruct (negb _); try apply kept_refl.
    apply steps_bind; [exact kept_trans|apply kept_poll|intros _; exact IH].
  Qed.
  Lemma kept_alive t : steps kept (is_alive E t).
  Proof.
    intros w. unfold is_alive, on_shell. destruct (get_shell _ _ _ _) as [r h]. destruct r as [d|x].
    - destruct (dict_get str_eqb (lit "State") d) as [[t'|]|]; try (apply kept_heap; reflexivity). destruct (str_eqb t' (lit "Disconnected")); apply kept_heap; reflexivity.
    - destruct (fault_closed x || net_closed x)%bool; apply kept_heap; reflexivity.
  Qed.
  Ltac prim := first [ apply kept_receive | apply kept_until | apply kept_wait | apply kept_parse | apply kept_alive | apply kept_frag1 | apply kept_fragn | apply kept_poll | apply kept_end | base_prim ].
  Ltac go := walk kept_refl kept_trans prim.
  Lemma kept_inputs r l : forall c, steps kept (send_inputs E r c l).
  Proof. induction l as [|n l IH]; intros [i|]; cbn [send_inputs]; unfold send; go. apply IH. Qed.
  Lemma kept_op fuel o : steps kept (run_op E fuel o).
  Proof.
    destruct o; cbn [run_op];
      unfold pool_open, pool_close, pool_connect, connect_new, connect_existing, pool_disconnect,
          set_min_runspaces, set_max_runspaces, get_available_runspaces, reset_runspace_state, exchange_keys, get_command_metadata, begin_invoke, ps_invoke, ps_stop, ps_close, ps_connect_async, unregister,
          create_ps, create_nested, void, ask, new_call, conn_request, forget, first_fragment, send; go; apply kept_inputs.
  Qed.
  Lemma kept_ops l : forall w : world, kept w (run_ops E l w).
  Proof.
    induction l as [|[fuel o] l IH]; intros w; cbn [run_ops]; [apply kept_refl|]. refine (kept_trans _ _ _ _ (IH _)). apply kept_op.
  Qed.
  Lemma never_reset l k (w : world) : (k < length (w_heap w))%nat -> ps_had_errors (the_ps k w) = true ->
    ps_had_errors (the_ps k (run_ops E l w)) = true /\ ps_had_errors (the_ps k (snd (clear_streams k w))) = true /\ ps_had_errors (the_ps k (snd (clear_commands k w))) = true.
  Proof.
    intros L H. split; [destruct (kept_ops l w) as [_ K]; exact (K k L H)|].
    unfold clear_streams, clear_commands. split; [destruct (kept_updps k (fun p => set_ps_output [] (set_ps_error [] (set_ps_debug [] (set_ps_verbose [] (set_ps_warning [] (set_ps_progress [] (set_ps_information [] p)))))))
      (fun p Hp => Hp) w) as [_ K]; exact (K k L H)|destruct (kept_updps k (set_ps_commands []) (fun p Hp => Hp) w) as [_ K]; exact (K k L H)].
  Qed.
End Never.
