(* Starting a pipeline and opening a pool: the requests as they are read. *)
From Verif Require WfProofs.
From Verif Require Import Base BaseProofs Lit NumModel TextSpec TextModel TextProofs Utf8Model XmlModel XtModel XtSpec XtProofs XtProofs3
  WsmanModel WsmanSpec ShellModel ShellSpec FragModel FragSpec MsgModel UtilModel TransModel PoolModel PoolSpec PoolProofs PoolProofs2 PoolProofs3 PoolProofs7 PoolProofs8 PoolProofs12
  EnvModel EnvSpec EnvProofs EnvProofs2 HomeSpec HomeProofs HomeProofs2 JobSpec JobProofs BytesProofs.
Require Import Lia ZifyBool ZifyNat ZifyN.
Local Open Scope list_scope.

Lemma built_inj s es es' : ws_values s = [] -> option_map (built s) es = option_map (built s) es' -> es = es'.
Proof.
  intros Z. destruct es as [l|], es' as [l'|]; cbn [option_map]; intros H; try discriminate; [|reflexivity]. apply Some_inj in H.
  assert (K : ws_values (built s l) = ws_values (built s l')) by (rewrite H; reflexivity). rewrite !built_values, Z in K. cbn [app] in K. rewrite K. reflexivity.
Qed.
(* a request for a shell, as the server reads it *)
Lemma legible_read q s oes ses (P : xml -> Prop) : legible q -> q_uri q = sh_uri s -> q_options q = option_map (built option_set) oes ->
  q_selectors q = option_map (built selector_set) ses -> (forall bd, Forall2 XtSpec.arrives (homes (q_body q)) (x_children bd) -> P bd) ->
  request_read s (q_op q) oes ses (q_timeout q) P q.
Proof.
  intros (oes' & ses' & O & Q & L) U O' S' H w uuid W I. destruct (L w uuid W I) as (b & B & R). exists b. split; [exact B|].
  rewrite O in O'. apply (built_inj option_set) in O'; [|reflexivity]. subst oes'. rewrite S' in Q. apply (built_inj selector_set) in Q; [|reflexivity]. subst ses'.
  destruct R as (R1 & y & z & R2 & R3 & bd & R4 & R5). split; [exact R1|]. exists y, z. split; [exact R2|]. split; [exact R3|]. exists bd. split; [rewrite <- U; exact R4|exact (H bd R5)].
Qed.
Lemma command_launches id f bd : bytes_ok f -> Forall2 XtSpec.arrives (homes (Some (command_line [] (Some [b64encode f]) (Some id)))) (x_children bd) -> launches id f bd.
Proof.
  intros K F. assert (E : homes (Some (command_line [] (Some [b64encode f]) (Some id))) = [command_line [] (Some [b64encode f]) (Some id)]) by reflexivity.
  rewrite E in F. apply command_runs in F. destruct F as (c & command & args & F1 & F2 & F3 & F4 & F5 & F6).
  inversion F6 as [|a y m m' L G E1 E2]. subst. inversion G. subst. destruct L as (L1 & L2 & L3 & L4).
  exists c, command, y. repeat (split; [assumption|]).
  assert (V := WfProofs.visible_raw _ (WfProofs.b64_raw (length f) f (le_n _))). rewrite (fed_same _ _ (proj2 V) L3). apply b64_roundtrip, K.
Qed.
Lemma send_homes st d id e : homes (Some (send_body st d id e)) = [send_body st d id e].
Proof. destruct id, e; reflexivity. Qed.

Section Begin.
  Context {Obj Cmd HS RK : Type} (E : env Obj Cmd HS RK).
  Notation world := (world Obj Cmd HS RK).
  Notation M A := (world -> out A * world).

  (* ---- which shell is asked ---- *)
  Definition on (s : shell) (q : sreq) : Prop :=
    q_uri q = sh_uri s /\ q_selectors q = sh_selectors s /\ q_timeout q = None /\
    q_options q = match q_op q with OpCommand => option_map (built option_set) (Some [(lit "WINRS_SKIP_CMD_SHELL", lit "False", [])]) | _ => None end.
  Definition asked_on (w w' : world) : Prop :=
    rp_shell (w_pool w') = rp_shell (w_pool w) /\ exists es, requests w w' es /\ Forall (fun e => on (rp_shell (w_pool w)) (fst e)) es.
  Lemma on_refl w : asked_on w w.
  Proof. split; [reflexivity|]. exists []. split; [unfold requests; rewrite app_nil_r; reflexivity|constructor]. Qed.
  Lemma on_trans a b c : asked_on a b -> asked_on b c -> asked_on a c.
  Proof.
    intros (A1 & e1 & A2 & A3) (B1 & e2 & B2 & B3). split; [congruence|]. exists (e1 ++ e2). unfold requests in *. split; [rewrite B2, A2, app_assoc; reflexivity|].
    apply Forall_app. split; [exact A3|]. rewrite A1 in B3. exact B3.
  Qed.
  Lemma on_silent (w w' : world) : rp_shell (w_pool w') = rp_shell (w_pool w) -> w_hist w' = w_hist w -> asked_on w w'.
  Proof. intros A B. split; [exact A|]. exists []. split; [unfold requests; rewrite app_nil_r; exact B|constructor]. Qed.
  Lemma on_command x a i : steps asked_on (on_shell E (fun srv => shell_command srv x a false i)).
  Proof.
    intros w. unfold on_shell, shell_command, call. cbn [snd]. split; [reflexivity|]. eexists. split; [reflexivity|]. constructor; [|constructor]. repeat split.
  Qed.
  Lemma on_send st d i : steps asked_on (on_shell E (fun srv => shell_send srv st d i None)).
  Proof.
    intros w. unfold on_shell, shell_send, call. cbn [snd]. split; [reflexivity|]. eexists. split; [reflexivity|]. constructor; [|constructor]. repeat split.
  Qed.
  Lemma on_observe e : steps asked_on (observe e).
  Proof. intros w. apply on_silent; reflexivity. Qed.
  Lemma on_updp f : (forall x, rp_shell (f x) = rp_shell x) -> steps asked_on (updp f).
  Proof. intros H w. apply on_silent; [apply H|reflexivity]. Qed.
  Lemma on_updps r f : steps asked_on (updps r f).
  Proof. intros w. apply on_silent; reflexivity. Qed.
  Local Ltac on_prim := first [apply on_command | apply on_send | apply on_observe | apply on_updp; intros; reflexivity | apply on_updps].
  Local Ltac on_walk := walk on_refl on_trans on_prim.
  Lemma on_each os pid : steps asked_on (each (fun o => observe (EOut pid o)) os).
  Proof. on_walk. Qed.
  Lemma on_inputs r cur rest : steps asked_on (send_inputs E r cur rest).
  Proof.
    revert cur; induction rest as [|x rest IH]; intros cur; cbn [send_inputs]; unfold send, fragment_many; on_walk. apply IH.
  Qed.
  Lemma on_begin r a : steps asked_on (begin_invoke E r a).
  Proof. unfold begin_invoke, ps_invoke, fragment_one, first_fragment, send. walk on_refl on_trans ltac:(first [on_prim | apply on_inputs]). Qed.

  (* ---- the messages are bytes ---- *)
  Lemma packed_bytes ci r p o b : PoolModel.packed E ci r p o = Ok b -> bytes_ok b /\ b <> [].
  Proof.
    unfold PoolModel.packed. intros H. apply bind_ok in H as (m & M & H). destruct (message_new_bytes _ _ _ _ _ M) as (A & B). split; [exact (message_pack_bytes _ _ _ A B H)|].
    unfold message_pack in H. apply bind_ok in H as (t & T & H). apply bind_ok in H as (d & D & H). apply bind_ok in H as (y & Y & H). apply Ok_inj in H. subst b.
    unfold struct_pack_le in D. destruct (_ && _)%bool; [|discriminate D]. apply Ok_inj in D. subst d. cbn [le_bytes app]. discriminate.
  Qed.
  Lemma mapM_Forall {A B} (f : A -> res B) (P : B -> Prop) : (forall a b, f a = Ok b -> P b) -> forall l bs, mapM f l = Ok bs -> Forall P bs.
  Proof.
    intros H. induction l as [|a l IH]; intros bs K; cbn [mapM] in K; [apply Ok_inj in K; subst; constructor|].
    apply bind_ok in K as (b & B0 & K). apply bind_ok in K as (r & R & K). apply Ok_inj in K. subst bs. constructor; [exact (H _ _ B0)|exact (IH _ R)].
  Qed.
End Begin.

Section Start.
  Context {Obj Cmd HS RK : Type} (E : env Obj Cmd HS RK) (V : forall b, speaks (ev_srv E b)).
  Notation world := (world Obj Cmd HS RK).
  Theorem begin_read r a ms (w w' : world) : fit_world w -> supplied (ia_input a) = Some ms -> begin_invoke E r a w = (Ret tt, w') ->
    let s := rp_sender (w_pool w) in let sh := rp_shell (w_pool w) in let id := ps_id (the_ps r w) in
    (1 <= sd_max s < 2 ^ 32)%Z -> (0 <= sd_counter s)%Z -> (sd_counter s + 1 + zlen ms <= 2 ^ 64)%Z ->
    exists bs f rest q x qs cid ses, selected sh ses /\
      mapM (PoolModel.packed E (rp_cipher (w_pool w)) (rp_id (w_pool w)) (Some id)) (creation E a (the_ps r w) (rp_apartment (w_pool w)) :: ms) = Ok bs /\
      requests w w' ((q, WBody (Some x)) :: qs) /\
      request_read sh OpCommand (Some [(lit "WINRS_SKIP_CMD_SHELL", lit "False", [])]) ses None (launches id f) q /\
      Forall2 (fun d e => request_read sh OpSend None ses None (feeds (lit "stdin") d cid None) (fst e)) rest qs /\
      ((r < length (w_heap w))%nat -> forall y, find_first [rsp (lit "CommandResponse"); rsp (lit "CommandId")] x = Some y -> cid = Some (or_empty (x_text y))) /\
      (Forall (fun b => zlen b < 2 ^ 63)%Z bs ->
       forall rc, (forall k, (sd_counter s <= k)%Z -> dict_get Z.eqb k rc = None) -> delivered (snd (receive_calls rc (f :: rest))) = Ok bs).
  Proof.
    intros F Y H s sh id H1 H2 H3.
    assert (L : posts w w').
    { destruct (ops_legible E V [(O, Begin r a)] w) as (_ & L); [constructor; [exact I|constructor]|exact F|]. cbn [run_ops run_op] in L. rewrite H in L. exact L. }
    assert (A : asked_on w w'). { pose proof (on_begin E r a w) as K. rewrite H in K. exact K. }
    pose proof F as ((FS & ses & Sel & FSes) & _).
    destruct L as (es & L1 & L2). destruct A as (_ & es' & A1 & A2).
    assert (es' = es) by (unfold requests in A1; rewrite A1 in L1; exact (app_inv_head _ _ _ L1)). subst es'.
    assert (Y' : yields (ia_input a) ms) by (apply supplied_yields; exact Y).
    destruct (begin_done E r a ms w w' Y' H) as (ops & bss & f & rest & q & x & qs & P & S & B & _ & Q & Qo & Qb & cid & Af & Hcid). cbv zeta in *. fold id in P, Qb.
    assert (es = (q, WBody (Some x)) :: qs) by (unfold requests in Q; rewrite Q in L1; symmetry; exact (app_inv_head _ _ _ L1)). subst es. clear A1 L1.
    assert (Bo : Forall bytes_ok (f :: rest)).
    { rewrite <- B. refine (run_sends_bytes _ _ _ _ _ S). refine (mapM_Forall _ _ _ _ _ P). intros o b K. exact (proj1 (packed_bytes _ _ _ _ _ _ K)). }
    exists (concat (map op_msgs ops)), f, rest, q, x, qs, cid, ses. split; [exact Sel|]. split; [exact P|]. split; [exact Q|]. split; [|split; [|split; [exact Hcid|]]].
    - destruct (Forall_inv A2) as (O1 & O2 & O3 & O4). cbn [fst] in O1, O2, O3, O4. rewrite Qo in O4. rewrite <- Qo, <- O3.
      unfold sh in O1, O2. unfold selected in Sel. fold sh in Sel. apply legible_read; try assumption; [exact (Forall_inv L2)|rewrite O2; exact Sel|]. intros bd K. rewrite Qb in K. apply command_launches; [exact (Forall_inv Bo)|exact K].
    - assert (A3 := Forall_inv_tail A2). assert (L3 := Forall_inv_tail L2). assert (B3 := Forall_inv_tail Bo). clear - Af A3 L3 B3 Sel.
      induction Af as [|d e rest qs D Af IH]; constructor; [|apply IH; [exact (Forall_inv_tail A3)|exact (Forall_inv_tail L3)|exact (Forall_inv_tail B3)]].
      destruct (Forall_inv A3) as (O1 & O2 & O3 & O4). destruct D as (D1 & D2). rewrite D1 in O4. rewrite <- D1, <- O3.
      unfold selected in Sel. apply legible_read; try assumption; [exact (Forall_inv L3)|rewrite O2; exact Sel|]. intros bd K. rewrite D2, send_homes in K. apply send_feeds; [exact (Forall_inv B3)|exact K].
    - intros Sz rc Hrc. rewrite <- B. refine (proj1 (run_sends_delivered _ _ _ _ H1 H2 _ _ S rc Hrc)).
      + assert (Ln := mapM_ok_length _ _ _ P). unfold zlen in *. rewrite Ln. cbn [length]. fold s. lia.
      + assert (K := mapM_Forall _ _ (fun o b K => proj2 (packed_bytes E _ _ _ o b K)) _ _ P). clear - K Sz.
        induction K as [|b l K1 K IH]; constructor; [split; [exact K1|exact (Forall_inv Sz)]|exact (IH (Forall_inv_tail Sz))].
  Qed.

  Lemma homed_shell s x : fit_shell s -> homed (shell_content s (Some x)) = shell_content s (Some (homed x)).
  Proof.
    intros F. assert (W : writable (shell_content s None)) by (apply shell_writable; [exact F|intros y K; discriminate]). apply homed_id in W.
    destruct (shell_parts s (Some x)) as (kids & E0 & ->). destruct (shell_parts s (Some (homed x))) as (kids' & E0' & ->). rewrite E0 in W. rewrite E0' in E0.
    assert (Q : kids' = kids) by congruence. subst kids'. clear E0 E0'.
    assert (NX : Forall (fun kv : list N * list N => fst kv <> lit "xmlns") (match sh_id s with Some i => [(lit "ShellId", i)] | None => [] end)) by (destruct (sh_id s); repeat constructor; discriminate).
    rewrite homed_plain in W by exact NX. rewrite homed_plain by exact NX. rewrite map_app. cbn [map]. f_equal. f_equal. congruence.
  Qed.
  Lemma creation_fit f : fit_content (Some (homed (content_xml (lit "creationXml") f))).
  Proof.
    intros x K. apply Some_inj in K. subst x. split; [apply homed_writable, content_homable; apply ncname_nc; reflexivity|].
    repeat (apply Forall_cons; [intros K; vm_compute in K; discriminate K|]). apply Forall_nil.
  Qed.
  Lemma create_opens s f bd : fit_shell s -> bytes_ok f ->
    Forall2 XtSpec.arrives (homes (Some (shell_content s (Some (content_xml (lit "creationXml") f))))) (x_children bd) -> opens s f bd.
  Proof.
    intros F B K. unfold homes in K. rewrite homed_shell in K by exact F. apply shell_settles in K; [|apply creation_fit].
    destruct K as (c & K1 & K2 & K3 & K4 & K5 & K6 & K7 & K8 & K9 & K10 & K11). split.
    - exists c. repeat (split; [assumption|]). intros x K; discriminate K.
    - destruct (K11 _ eq_refl) as (d & S & A). exists c, d. split; [exact K1|]. split; [exact S|].
      assert (L := ar_leaf _ _ _ _ A). destruct L as (_ & _ & L3 & _).
      assert (V1 := WfProofs.visible_raw _ (WfProofs.b64_raw (length f) f (le_n _))). rewrite (fed_same _ _ (proj2 V1) L3). apply b64_roundtrip, B.
  Qed.
  Theorem open_read fuel a (w w' : world) : fit_world w -> rp_state (w_pool w) = rs_before_open -> sh_opened (rp_shell (w_pool w)) = false -> pool_open E fuel a w = (Ret tt, w') ->
    let s := rp_sender (w_pool w) in let sh := rp_shell (w_pool w) in
    exists bs s' f rest q x qs,
      mapM (PoolModel.packed E (rp_cipher (w_pool w)) (rp_id (w_pool w)) None)
        [capability; OInit (rp_min (w_pool w)) (rp_max (w_pool w)) (rp_thread (w_pool w)) (rp_apartment (w_pool w)) a] = Ok bs /\
      fragment_multiple s bs = Ok (s', f :: rest) /\
      requests w w' ((q, WBody x) :: qs) /\
      request_read sh OpCreate (Some (settings sh (Some [(lit "protocolversion", lit "2.3", [(lit "MustComply", lit "true")])]))) None None (opens sh f) q.
  Proof.
    intros F B O H s sh. destruct (open_asks E fuel a w w' B O H) as (bs & s' & f & rest & q & x & qs & P & Fm & Q & Eq).
    exists bs, s', f, rest, q, x, qs. split; [exact P|]. split; [exact Fm|]. split; [exact Q|]. pose proof F as ((FS & _) & _). fold sh in FS, Eq.
    assert (Fo : bytes_ok f).
    { assert (K : Forall bytes_ok (f :: rest)); [|exact (Forall_inv K)]. refine (fragment_multiple_bytes _ _ _ _ _ Fm). refine (mapM_Forall _ _ _ _ _ P). intros o b K. exact (proj1 (packed_bytes _ _ _ _ _ _ K)). }
    assert (L : legible q).
    { rewrite Eq. change (Some version_option) with (sets option_set (Some [(lit "protocolversion", lit "2.3", [(lit "MustComply", lit "true")])])).
      apply create_legible; [exact FS| |exact version_fit]. intros y K. apply Some_inj in K. subst y. apply content_homable, ncname_nc. reflexivity. }
    assert (T : q_op q = OpCreate /\ q_timeout q = None /\ q_uri q = sh_uri sh /\ q_selectors q = None) by (rewrite Eq; repeat split). destruct T as (T1 & T2 & T3 & T4).
    rewrite <- T1, <- T2. apply legible_read; [exact L|exact T3| |exact T4|].
    - rewrite Eq. unfold create_request. cbn [q_options].
      change (Some version_option) with (sets option_set (Some [(lit "protocolversion", lit "2.3", [(lit "MustComply", lit "true")])])).
      rewrite shell_built, built_values. reflexivity.
    - intros bd K. rewrite Eq in K. unfold create_request in K. cbn [q_body] in K. apply create_opens; assumption.
  Qed.
End Start.
