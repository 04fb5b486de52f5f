(* C78: the requests of calls on the pool *)
From Verif Require Import Base BaseProofs Lit NumModel TextModel XmlModel WsmanModel ShellModel ShellSpec FragModel MsgModel UtilModel TransModel PoolModel PoolSpec PoolProofs PoolProofs2 PoolProofs3 PoolProofs4 PoolProofs5 ApartSpec ApartSpec2 ApartProofs2.

Section Pool.
  Context {Obj Cmd HS RK : Type} (E : env Obj Cmd HS RK).
  Notation world := (world Obj Cmd HS RK).
  Notation M A := (world -> out A * world).
  Definition nobody (w w' : world) : Prop := exists qs, requests w w' qs /\ Forall (fun e => names (fst e) = []) qs.
  Lemma nobody_refl w : nobody w w.
  Proof. exists []. split; [unfold requests; rewrite app_nil_r; reflexivity|constructor]. Qed.
  Lemma nobody_trans a b c : nobody a b -> nobody b c -> nobody a c.
  Proof.
    intros (q1 & H1 & F1) (q2 & H2 & F2). exists (q1 ++ q2). split; [unfold requests in *; rewrite H2, H1, app_assoc; reflexivity|]. apply Forall_app. split; assumption.
  Qed.
  Lemma nobody_asked w w' : asked (fun _ => False) w w' -> nobody w w'.
  Proof.
    intros ((qs & Q & F) & _). exists qs. split; [exact Q|]. revert F. apply Forall_impl. intros e H. destruct (names (fst e)) as [|i l]; [reflexivity|]. destruct (Forall_inv H).
  Qed.
  Lemma nobody_silent w w' : w_hist w' = w_hist w -> nobody w w'.
  Proof. intros H. exists []. split; [unfold requests; rewrite app_nil_r; exact H|constructor]. Qed.
  Lemma nobody_one w w' q a : w_hist w' = w_hist w ++ [(q, a)] -> names q = [] -> nobody w w'.
  Proof. intros H N. exists [(q, a)]. split; [exact H|]. constructor; [exact N|constructor]. Qed.
  Lemma nobody_receive t : steps nobody (receive E None t).
  Proof.
    intros w. apply nobody_asked. unfold receive. rewrite mbind_getp, mbind_retm.
    match goal with |- asked ?P ?w0 (snd (?m ?w0)) => enough (Hm : steps (asked P) m) by exact (Hm w0) end.
    apply steps_bind; [apply asked_trans|apply asked_receive; discriminate|intros b]. destruct (dict_get str_eqb (lit "stdout") (snd b)); [apply asked_parse|apply steps_throw; apply asked_refl].
  Qed.
  Lemma nobody_until done : forall fuel, steps nobody (receive_until E fuel done).
  Proof.
    induction fuel as [|fuel IH]; intros w; cbn [receive_until]; destruct (done w); try apply nobody_refl.
    apply steps_bind; [exact nobody_trans|apply nobody_receive|intros _; exact IH].
  Qed.
  Lemma nobody_wait start : forall fuel, steps nobody (key_wait E fuel start).
  Proof.
    induction fuel as [|fuel IH]; intros w; cbn [key_wait]; destruct (rp_exchanged _); try apply nobody_refl; destruct (Z.ltb _ _); try apply nobody_refl.
    apply steps_bind; [exact nobody_trans|apply nobody_receive|intros _; exact IH].
  Qed.
  Lemma nobody_send s d : steps nobody (send E s d None).
  Proof. intros w. apply nobody_asked. apply asked_send. discriminate. Qed.
  Lemma nobody_frag1 o pid : steps nobody (fragment_one E o pid).
  Proof. intros w. apply nobody_asked. apply asked_frag1. Qed.
  Lemma nobody_fragn os pid : steps nobody (fragment_many E os pid).
  Proof. intros w. apply nobody_asked. apply asked_fragn. Qed.
  Lemma nobody_parse d pl : steps nobody (parse_responses E d pl).
  Proof. intros w. apply nobody_asked. apply asked_parse. Qed.
  Lemma nobody_updp f : steps nobody (@updp Obj Cmd HS RK f).
  Proof. intros w. apply nobody_silent. reflexivity. Qed.
  Lemma nobody_updps r f : steps nobody (@updps Obj Cmd HS RK r f).
  Proof. intros w. apply nobody_silent. reflexivity. Qed.
  Lemma nobody_append p : steps nobody (@upd Obj Cmd HS RK (fun w => set_w_heap (w_heap w ++ [p]) w)).
  Proof. intros w. apply nobody_silent. reflexivity. Qed.
  Lemma nobody_raw q : names q = [] -> steps nobody (request_raw E q).
  Proof. intros N w. unfold request_raw, call. eapply nobody_one; [reflexivity|exact N]. Qed.
  Lemma nobody_close : steps nobody (on_shell_state E (fun srv => shell_close srv)).
  Proof.
    intros w. unfold on_shell_state, shell_close, call. destruct (negb _); [apply nobody_silent; reflexivity|]. cbv zeta.
    match goal with |- context [ev_srv E ?a ?b ?c] => destruct (ev_srv E a b c) end; (eapply nobody_one; [reflexivity|]); reflexivity.
  Qed.
  Lemma created_names s o x : named x = [] -> names (create_request s o (Some x)) = [].
  Proof.
    intros Nx. unfold names, create_request, request, shell_content. cbn [q_body named map snd filter fst]. rewrite !flat_map_app.
    assert (Ev : forall l, flat_map named (map (fun kv : list N * list N => Elem (rsp (lit "Variable")) [(lit "Name", fst kv)] (Some (snd kv)) []) l) = []).
    { induction l as [|kv l IH]; [reflexivity|]. cbn [map flat_map]. rewrite IH. reflexivity. }
    destruct (sh_id s), (sh_env s) as [env|], (sh_idle s), (sh_lifetime s), (sh_name s), (sh_dir s); cbn [flat_map named text_elem map filter fst app]; rewrite ?Ev, Nx; reflexivity.
  Qed.
  Lemma nobody_open d : steps nobody (on_shell_state E (fun srv => shell_open srv (Some version_option) (Some (content_xml (lit "creationXml") d)))).
  Proof.
    intros w. unfold on_shell_state, shell_open, call. destruct (sh_opened _); [apply nobody_silent; reflexivity|]. cbv zeta.
    match goal with |- context [ev_srv E ?a ?b ?c] => destruct (ev_srv E a b c) as [y|y|y t|y] end;
      try ((eapply nobody_one; [reflexivity|]); apply created_names; reflexivity).
    destruct (parse_shell_create _ _) as [[v|v] s']; (eapply nobody_one; [reflexivity|]); apply created_names; reflexivity.
  Qed.
  Lemma nobody_alive t : steps nobody (is_alive E t).
  Proof.
    intros w. unfold is_alive, on_shell, get_shell, call. cbv zeta.
    repeat match goal with
    | |- context [match ?x with _ => _ end] => match x with context [match _ with _ => _ end] => fail 1 | _ => destruct x end
    end; (eapply nobody_one; [reflexivity|]); reflexivity.
  Qed.
  Ltac prim := first
    [ apply nobody_receive | apply nobody_until | apply nobody_wait | apply nobody_parse | apply nobody_alive | apply nobody_frag1 | apply nobody_fragn
    | apply nobody_send | apply nobody_open | apply nobody_close | apply nobody_raw; reflexivity | apply nobody_updp | apply nobody_updps | apply nobody_append ].
  Lemma pool_asked fuel o : about o = OfPool -> steps nobody (run_op E fuel o).
  Proof.
    intros A. destruct o; try discriminate A; cbn [run_op];
      unfold pool_open, pool_close, pool_connect, connect_new, connect_existing, pool_disconnect,
          set_min_runspaces, set_max_runspaces, get_available_runspaces, reset_runspace_state, exchange_keys,
          create_ps, create_nested, void, ask, new_call, conn_request, forget, first_fragment; walk nobody_refl nobody_trans prim.
  Qed.
End Pool.
