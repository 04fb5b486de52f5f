(* Forms of the lemmas about limits and host calls used by the properties. *)
From Verif Require Import Base BaseProofs Lit NumModel TextModel XmlModel WsmanModel ShellModel ShellSpec FragModel MsgModel UtilModel TransModel PoolModel PoolSpec PoolProofs PoolProofs2 PoolProofs3 PoolProofs4 PoolProofs5 PoolProofs6 PoolProofs7 PoolProofs8 PoolProofs9 PoolProofs10 PoolProofs11.
Require Import Lia ZifyBool ZifyNat ZifyN.
Section Pool12.
  Context {Obj Cmd HS RK : Type} (E : env Obj Cmd HS RK).
  Notation world := (world Obj Cmd HS RK).
  Lemma min_settled fuel v (w : world) : rp_state (w_pool w) = rs_opened -> rval_is (rp_min (w_pool w)) v = false ->
    let ci := rp_ci (w_pool w) in
    let '(x, w') := set_min_runspaces E fuel v w in
    exists l, since w w' l /\
      (x = Ret tt -> rp_min (w_pool w') = VInt v /\ (exists l', l = EOut None (OSetMin v ci) :: l' /\ call_ids l' = []) /\ answers_to E ci l = [VBool true]) /\
      (forall e, x = Raise e -> (forall a more, answers_to E ci l = a :: more -> rfalsy a = true -> e = XExn InvalidPSRPOperation) /\
         (rp_min (w_pool w') = rp_min (w_pool w) \/ exists pl m o, In (EMsg pl m) l /\ PoolSpec.carries RUNSPACEPOOL_INIT_DATA m o)).
  Proof.
    intros S V. cbv zeta. pose proof (min_call E fuel v w S V) as H. destruct (set_min_runspaces E fuel v w) as [x w'].
    destruct H as [[l [L [A B]]] C]. exists l. split; [exact L|]. split; [intros Hx; destruct (A Hx); auto|]. intros e He. destruct (B e He) as [B1 [B2 _]]. auto.
  Qed.
  Lemma max_settled fuel v (w : world) : rp_state (w_pool w) = rs_opened -> rval_is (rp_max (w_pool w)) v = false ->
    let ci := rp_ci (w_pool w) in
    let '(x, w') := set_max_runspaces E fuel v w in
    exists l, since w w' l /\
      (x = Ret tt -> rp_max (w_pool w') = VInt v /\ (exists l', l = EOut None (OSetMax v ci) :: l' /\ call_ids l' = []) /\ answers_to E ci l = [VBool true]) /\
      (forall e, x = Raise e -> (forall a more, answers_to E ci l = a :: more -> rfalsy a = true -> e = XExn InvalidPSRPOperation) /\
         (rp_max (w_pool w') = rp_max (w_pool w) \/ (exists pl m o, In (EMsg pl m) l /\ PoolSpec.carries RUNSPACEPOOL_INIT_DATA m o) \/
          exists pl m o, In (EMsg pl m) l /\ PoolSpec.carries RUNSPACE_AVAILABILITY m o /\ fst (ev_availability E o) <> ci)).
  Proof.
    intros S V. cbv zeta. pose proof (max_call E fuel v w S V) as H. destruct (set_max_runspaces E fuel v w) as [x w'].
    destruct H as [[l [L [A B]]] C]. exists l. split; [exact L|]. split; [intros Hx; destruct (A Hx); auto|]. intros e He. destruct (B e He) as [B1 [_ B2]]. auto.
  Qed.
  Lemma host_call_answered o pl run ci mi mp (w : world) :
    ev_host E = Some run -> ev_host_call E o = (ci, mi, mp) ->
    let pid := match pl with Some r => Some (ps_id (the_ps r w)) | None => None end in
    let '(r, w') := process_host_call E o pl w in
    let '(answer, hs) := run (w_host w) mi mp pid in
    w_host w' = hs /\
    match answer with
    | Ret (Some mr) =>
        let reply := match pl with Some _ => OPipelineResponse ci mi mr | None => OPoolResponse ci mi mr end in
        match packed E (rp_cipher (w_pool w)) (rp_id (w_pool w)) pid reply with
        | Ok b => match fragment_msg (rp_sender (w_pool w)) b None with
                  | Ok (_, fs) =>
                      since w w' [EHost mi mp pl (Ret (Some mr)); EOut pid reply] /\
                      exists qs, requests w w' qs /\
                        Forall2 (fun f e => sends_on (lit "pr") f None (fst e)) (firstn (length qs) fs) qs /\
                        (r = Ret tt -> length qs = length fs)
                  | Err e => r = Raise (XExn e) /\ since w w' [EHost mi mp pl (Ret (Some mr))] /\ requests w w' []
                  end
        | Err e => r = Raise (XExn e) /\ since w w' [EHost mi mp pl (Ret (Some mr))] /\ requests w w' []
        end
    | Ret None => r = Ret tt /\ since w w' [EHost mi mp pl (Ret None)] /\ requests w w' []
    | Raise x => r = Raise x /\ since w w' [EHost mi mp pl (Raise x)] /\ requests w w' []
    end.
  Proof.
    intros He Hc. cbv zeta. pose proof (host_call_cases E o pl run ci mi mp w He Hc) as H. cbv zeta in H.
    destruct (process_host_call E o pl w) as [r w']. destruct (run _ _ _ _) as [answer hs]. cbn [fst snd] in H. exact H.
  Qed.

  (* ---- C25: answers come only from the host ---- *)
  Definition reply (o : omsg Obj Cmd) : option (Z * Z * Obj) :=
    match o with OPoolResponse ci mi mr | OPipelineResponse ci mi mr => Some (ci, mi, mr) | _ => None end.
  Definition prompted (l : list (event Obj Cmd)) : Prop :=
    forall l1 pid o l2 ci mi mr, l = l1 ++ EOut pid o :: l2 -> reply o = Some (ci, mi, mr) ->
      exists l0 pl m c mp, l1 = l0 ++ [EMsg pl m; EHost mi mp (caller pl m) (Ret (Some mr))] /\
        is_host_call pl m = true /\ carried m = Some c /\ ev_host_call E c = (ci, mi, mp) /\
        o = match caller pl m with Some _ => OPipelineResponse ci mi mr | None => OPoolResponse ci mi mr end.
  Definition prompts (w w' : world) : Prop := exists l, since w w' l /\ prompted l.
  Lemma prompted_app l l' : prompted l -> prompted l' -> prompted (l ++ l').
  Proof.
    intros A B l1 pid o l2 ci mi mr H R. apply app_eq_app in H as [x [[H1 H2]|[H1 H2]]].
    - destruct x as [|e x].
      + cbn in H2. rewrite app_nil_r in H1. subst l1. destruct (B [] pid o l2 ci mi mr (eq_sym H2) R) as (l0 & pl & m & c & mp & C & _). destruct l0; discriminate C.
      + assert (e = EOut pid o) by (cbn in H2; congruence). subst e. exact (A l1 pid o x ci mi mr H1 R).
    - destruct (B x pid o l2 ci mi mr H2 R) as (l0 & pl & m & c & mp & C & D). exists (l ++ l0), pl, m, c, mp. split; [|exact D]. rewrite H1, C, app_assoc. reflexivity.
  Qed.
  Lemma prompted_none l : (forall pid o, In (EOut pid o) l -> reply o = None) -> prompted l.
  Proof. intros H l1 pid o l2 ci mi mr -> R. rewrite (H pid o) in R; [discriminate R|]. apply in_or_app. right. left. reflexivity. Qed.
  Lemma prompts_silent (w w' : world) : w_log w' = w_log w -> prompts w w'.
  Proof. intros L. exists []. split; [unfold since; rewrite app_nil_r; exact L|]. apply prompted_none. intros pid o []. Qed.
  Lemma prompts_refl w : prompts w w. Proof. apply prompts_silent; reflexivity. Qed.
  Lemma prompts_trans a b c : prompts a b -> prompts b c -> prompts a c.
  Proof. intros [l1 [L1 A1]] [l2 [L2 A2]]. exists (l1 ++ l2). split; [eapply since_trans; eauto|]. apply prompted_app; assumption. Qed.
  Lemma prompts_out pid o : reply o = None -> steps prompts (observe (EOut pid o)).
  Proof.
    intros H w. exists [EOut pid o]. split; [reflexivity|]. apply prompted_none. intros pid' o' [I|[]]. congruence.
  Qed.
  Definition mute (w w' : world) : Prop := w_log w' = w_log w.
  Lemma mute_process pl m : is_host_call pl m = false -> steps mute (process_message E pl m).
  Proof.
    assert (Rf : forall w : world, mute w w) by (intros; reflexivity).
    assert (Tr : forall a b c : world, mute a b -> mute b c -> mute a c) by (unfold mute; intros; congruence).
    intros H. unfold is_host_call in H. apply orb_false_iff in H as [H1 H2]. unfold process_message. rewrite H1.
    unfold data_obj, process_session_capability, process_session_key, process_init_data, process_availability, process_pool_state, process_pipeline_state.
    destruct pl as [r|]; [rewrite H2|]; walk Rf Tr ltac:(intros ?w; reflexivity).
  Qed.
  Lemma host_prompted pl m c (w : world) : is_host_call pl m = true -> carried m = Some c ->
    exists l, since w (snd (process_host_call E c (caller pl m) w)) l /\ prompted (EMsg pl m :: l).
  Proof.
    intros Hc C. destruct (ev_host E) as [run|] eqn:He.
    2: { exists []. unfold process_host_call. rewrite He. split; [match goal with |- context [if ?b then _ else _] => destruct b end; unfold since; rewrite app_nil_r; reflexivity|]. apply prompted_none. intros pid o [I|[]]; discriminate I. }
    destruct (ev_host_call E c) as [[ci mi] mp] eqn:Hh.
    pose proof (host_call_cases E c (caller pl m) run ci mi mp w He Hh) as H. cbv zeta in H.
    destruct (process_host_call E c (caller pl m) w) as [res w'] eqn:P. cbn [snd]. set (pid := match caller pl m with Some r => _ | None => _ end) in *.
    destruct H as [_ H]. destruct (fst (run _ _ _ _)) as [[mr|]|x] eqn:R.
    - assert (Two : prompted [EMsg pl m; EHost mi mp (caller pl m) (Ret (Some mr)); EOut pid (response (caller pl m) ci mi mr)]).
      { intros l1 pid' o l2 ci' mi' mr' Hl Rp. destruct l1 as [|a [|b [|d [|e l1]]]]; cbn in Hl; try discriminate Hl.
        assert (Ea : a = EMsg pl m) by congruence. assert (Eb : b = EHost mi mp (caller pl m) (Ret (Some mr))) by congruence.
        assert (Eo : o = response (caller pl m) ci mi mr) by congruence. subst a b o.
        assert (Q : (ci, mi, mr) = (ci', mi', mr')) by (unfold response in Rp; destruct (caller pl m); cbn in Rp; congruence).
        assert (ci' = ci /\ mi' = mi /\ mr' = mr) as (-> & -> & ->) by (repeat split; congruence).
        exists [], pl, m, c, mp. split; [reflexivity|]. split; [exact Hc|]. split; [exact C|]. split; [exact Hh|]. unfold response. destruct (caller pl m); reflexivity. }
      destruct (packed E _ _ _ _) as [b|e] eqn:Pk.
      + destruct (fragment_msg _ b None) as [[s fs]|e] eqn:Fg; [destruct H as [L _]; eexists; split; [exact L|exact Two]|].
        destruct H as [_ [L _]]. eexists. split; [exact L|]. apply prompted_none; intros pid' o' [I|[I|[]]]; discriminate I.
      + destruct H as [_ [L _]]. eexists. split; [exact L|]. apply prompted_none; intros pid' o' [I|[I|[]]]; discriminate I.
    - destruct H as [_ [L _]]. eexists. split; [exact L|]. apply prompted_none. intros pid' o' [I|[I|[]]]; discriminate I.
    - destruct H as [_ [L _]]. eexists. split; [exact L|]. apply prompted_none. intros pid' o' [I|[I|[]]]; discriminate I.
  Qed.
  Lemma prompts_handle pl m : steps prompts (handle E pl m).
  Proof.
    intros w. unfold handle. rewrite mbind_observe. set (w1 := set_w_log _ _).
    destruct (is_host_call pl m) eqn:Hc.
    - assert (T : snd (process_message E pl m w1) = w1 \/ exists c, carried m = Some c /\ snd (process_message E pl m w1) = snd (process_host_call E c (caller pl m) w1)).
      { unfold is_host_call in Hc. unfold caller. destruct (Z.eqb_spec (m_type m) RUNSPACEPOOL_HOST_CALL) as [T|T].
        - unfold process_message. rewrite T. repeat match goal with |- context [if Z.eqb ?a ?b then _ else _] => let v := eval vm_compute in (Z.eqb a b) in change (Z.eqb a b) with v; cbv iota end.
          match goal with |- context [data_obj _ ?f _] => destruct (data_obj_case m f w1) as [[C ->]|[o [C ->]]] end; [left; reflexivity|right; exists o; split; [exact C|reflexivity]].
        - destruct pl as [r|]; [|discriminate Hc]. cbn [orb] in Hc. apply Z.eqb_eq in Hc. unfold process_message. rewrite Hc. repeat match goal with |- context [if Z.eqb ?a ?b then _ else _] => let v := eval vm_compute in (Z.eqb a b) in change (Z.eqb a b) with v; cbv iota end.
          match goal with |- context [data_obj _ ?f _] => destruct (data_obj_case m f w1) as [[C ->]|[o [C ->]]] end; [left; reflexivity|right; exists o; split; [exact C|reflexivity]]. }
      destruct T as [T|[c [C T]]]; rewrite T.
      + exists [EMsg pl m]. split; [reflexivity|]. apply prompted_none. intros pid o [I|[]]; discriminate I.
      + destruct (host_prompted pl m c w1 Hc C) as [l [L P]]. exists (EMsg pl m :: l). split; [|exact P].
        unfold since in *. rewrite L. unfold w1. cbn [w_log set_w_log]. rewrite <- app_assoc. reflexivity.
    - exists [EMsg pl m]. split; [unfold since; rewrite (mute_process pl m Hc w1); reflexivity|]. apply prompted_none. intros pid o [I|[]]; discriminate I.
  Qed.
  Lemma prompts_op fuel o : steps prompts (run_op E fuel o).
  Proof.
    apply gen_op; [exact prompts_refl|exact prompts_trans|intros; apply prompts_silent; auto|exact prompts_handle|intros pid k P; apply prompts_out; destruct k; try discriminate P; reflexivity| |].
    - intros k mk H. unfold ask, new_call, fragment_one, first_fragment, send.
      assert (Hm : forall ci, reply (mk ci) = None) by (intros ci; destruct H as [[_ [v ->]]|[[_ [v ->]]|[[_ ->]|[_ ->]]]]; reflexivity).
      walk prompts_refl prompts_trans ltac:(first [apply prompts_out; apply Hm | (intros w; apply prompts_silent; reflexivity) ]).
    - intros f. unfold exchange_keys, fragment_one, send.
      walk prompts_refl prompts_trans ltac:(first [apply prompts_out; reflexivity | apply (gen_wait E prompts prompts_refl prompts_trans); [intros; apply prompts_silent; auto|exact prompts_handle] | (intros w; apply prompts_silent; reflexivity) | apply (gen_shell E prompts); intros; apply prompts_silent; auto ]).
  Qed.
  Lemma prompts_ops l w : prompts w (run_ops E l w).
  Proof. apply run_ops_steps; [exact prompts_refl|exact prompts_trans|exact prompts_op]. Qed.
End Pool12.

Section Pool12b.
  Context {Obj Cmd HS RK : Type} (E : env Obj Cmd HS RK).
  Notation world := (world Obj Cmd HS RK).
  Definition supplied (i : option (input (Obj := Obj))) : option (list (omsg Obj Cmd)) :=
    match i with
    | None => Some []
    | Some (InValue i) => Some (map OInput (item_objs i) ++ [OEnd])
    | Some (InGen l) =>
        if match l with [] => true | _ => existsb (fun x => match x with None => true | Some _ => false end) l end then None
        else Some (map OInput (flat_map (fun x => match x with Some i => item_objs i | None => [] end) l) ++ [OEnd])
    end.
  Lemma gen_some (l : list (option (item (Obj := Obj)))) : existsb (fun x => match x with None => true | Some _ => false end) l = false ->
    exists is_, l = map Some is_ /\ flat_map (fun x => match x with Some i => item_objs i | None => [] end) l = concat (map item_objs is_).
  Proof.
    induction l as [|x l IH]; intros H; [exists []; split; reflexivity|]. cbn [existsb] in H. apply orb_false_iff in H as [H1 H2].
    destruct x as [i|]; [|discriminate H1]. destruct (IH H2) as [is_ [-> F]]. exists (i :: is_). split; [reflexivity|]. cbn [flat_map map concat]. rewrite F. reflexivity.
  Qed.
  Lemma supplied_yields i ms : supplied i = Some ms -> yields i ms.
  Proof.
    destruct i as [[i|l]|]; cbn [supplied]; intros H.
    - apply Some_inj in H. subst. assert (X : map OInput (item_objs i) ++ [OEnd] = input_msgs (Cmd := Cmd) [i]) by (unfold input_msgs; cbn [map concat]; rewrite app_nil_r; reflexivity).
      rewrite X. constructor.
    - destruct l as [|x l]; [discriminate H|]. destruct (existsb _ (x :: l)) eqn:Ex; [discriminate H|]. apply Some_inj in H. subst.
      destruct (gen_some _ Ex) as [is_ [Q F]]. rewrite F. destruct is_ as [|i is_]; [discriminate Q|]. rewrite Q. exact (yields_gen i is_).
    - apply Some_inj in H. subst. constructor.
  Qed.
  Lemma begin_delivers r a ms (w w' : world) : supplied (ia_input a) = Some ms -> begin_invoke E r a w = (Ret tt, w') ->
    let p := the_ps r w in let s := rp_sender (w_pool w) in
    let msgs := OCreate (match ia_input a with None => true | Some i => input_falsy E i end)
      (match ia_apartment a with Some z => if Z.eqb z 0 then rp_apartment (w_pool w) else z | None => rp_apartment (w_pool w) end)
      (ia_options a) (ia_history a) (ps_commands p) (ps_nested p) (ps_history p) (ia_redirect a) :: ms in
    since w w' (map (EOut (Some (ps_id p))) msgs) /\
    ((1 <= sd_max s < 2 ^ 32)%Z -> (0 <= sd_counter s)%Z -> (sd_counter s + zlen msgs <= 2 ^ 64)%Z ->
     exists bs f rest q x qs cid,
       mapM (packed E (rp_cipher (w_pool w)) (rp_id (w_pool w)) (Some (ps_id p))) msgs = Ok bs /\
       requests w w' ((q, WBody (Some x)) :: qs) /\ q_op q = OpCommand /\
       q_body q = Some (command_line [] (Some [b64encode f]) (Some (ps_id p))) /\
       Forall2 (fun f e => sends_on (lit "stdin") f cid (fst e)) rest qs /\
       ((r < length (w_heap w))%nat -> forall y, find_first [rsp (lit "CommandResponse"); rsp (lit "CommandId")] x = Some y -> cid = Some (or_empty (x_text y))) /\
       (Forall (fun b => b <> [] /\ (zlen b < 2 ^ 63)%Z) bs ->
        forall rc, (forall k, (sd_counter s <= k)%Z -> dict_get Z.eqb k rc = None) ->
          FragSpec.delivered (snd (receive_calls rc (f :: rest))) = Ok bs)).
  Proof.
    intros Y H. apply supplied_yields in Y. pose proof (begin_done E r a ms w w' Y H) as B. cbv zeta.
    split.
    - destruct B as [ops [bss [f [rest [q [x [qs [P [S [B [L _]]]]]]]]]]]. exact L.
    - intros H1 H2 H3. exact (begun_reassembled E r _ w w' B H1 H2 H3).
  Qed.
End Pool12b.

Section Pool12c.
  Context {Obj Cmd HS RK : Type} (E : env Obj Cmd HS RK).
  Notation world := (world Obj Cmd HS RK).
  Lemma reg_ok_history l (w0 : world) : rp_pipelines (w_pool w0) = [] -> reg_ok (run_ops E l w0).
  Proof. intros H. apply ops_reg_ok. intros id r I. rewrite H in I. destruct I. Qed.
  Lemma disconnect_lists l (w0 w' : world) : rp_pipelines (w_pool w0) = [] ->
    let w := run_ops E l w0 in rp_state (w_pool w) = rs_opened -> pool_disconnect E w = (Ret tt, w') ->
    rp_pipelines (w_pool w') = rp_pipelines (w_pool w) /\
    create_disconnected w' = (Ret (map snd (rp_pipelines (w_pool w))), w') /\
    forall r, In r (map snd (rp_pipelines (w_pool w))) -> (r < length (w_heap w'))%nat /\ ps_state (the_ps r w') = pl_disconnected.
  Proof.
    intros H w S D. assert (G : reg_ok w) by exact (reg_ok_history l w0 H).
    destruct (disconnect_done E w w' G S D) as (_ & R & G' & L & C & _). split; [exact R|]. split; [exact C|].
    intros r I. split; [|apply L; exact I]. rewrite <- R in I. apply in_map_iff in I as [[i j] [Ej I]]. cbn [snd] in Ej. subst j. apply (G' _ _ I).
  Qed.
  Lemma stop_unlists l later r (w0 w' : world) : rp_pipelines (w_pool w0) = [] -> (forall fuel a, ~ In (fuel, Begin r a) later) ->
    let w := run_ops E l w0 in (r < length (w_heap w))%nat -> ps_state (the_ps r w) = pl_running -> ps_stop E r w = (Ret tt, w') ->
    ~ In r (map snd (rp_pipelines (w_pool (run_ops E later w')))).
  Proof.
    intros H N w L S D. assert (G : reg_ok w) by exact (reg_ok_history l w0 H).
    destruct (stop_done E r w w' S L D) as (_ & P & _). apply (stays_unlisted E r later N).
    - pose proof (reg_op E None 0 (Stop r)) as K. specialize (K ltac:(discriminate) w ltac:(discriminate)). cbn [run_op] in K. rewrite D in K. cbn [snd] in K. destruct K as [[K _] _]. lia.
    - exact (removed_unlisted r w w' G P).
  Qed.
  Lemma close_unlists l later r (w0 w' : world) : rp_pipelines (w_pool w0) = [] -> (forall fuel a, ~ In (fuel, Begin r a) later) ->
    let w := run_ops E l w0 in (r < length (w_heap w))%nat -> In (ps_state (the_ps r w)) [pl_completed; pl_stopped; pl_failed] -> ps_close E r w = (Ret tt, w') ->
    ~ In r (map snd (rp_pipelines (w_pool (run_ops E later w')))).
  Proof.
    intros H N w L S D. assert (G : reg_ok w) by exact (reg_ok_history l w0 H).
    destruct (close_done E r w w' S D) as (Hp & P & _). apply (stays_unlisted E r later N).
    - rewrite Hp. exact L.
    - exact (removed_unlisted r w w' G P).
  Qed.
End Pool12c.

Section Pool12d.
  Context {Obj Cmd HS RK : Type} (E : env Obj Cmd HS RK).
  Notation world := (world Obj Cmd HS RK).
  Lemma begin_whole r a ms (w w' : world) : supplied (ia_input a) = Some ms -> begin_invoke E r a w = (Ret tt, w') ->
    let s := rp_sender (w_pool w) in
    (1 <= sd_max s < 2 ^ 32)%Z -> (0 <= sd_counter s)%Z -> (sd_counter s + 1 + zlen ms <= 2 ^ 64)%Z ->
    exists m bs f rest q x qs cid,
      since w w' (map (EOut (Some (ps_id (the_ps r w)))) (m :: ms)) /\
      mapM (packed E (rp_cipher (w_pool w)) (rp_id (w_pool w)) (Some (ps_id (the_ps r w)))) (m :: ms) = Ok bs /\
      requests w w' ((q, WBody (Some x)) :: qs) /\ q_op q = OpCommand /\
      q_body q = Some (command_line [] (Some [b64encode f]) (Some (ps_id (the_ps r w)))) /\
      Forall2 (fun f e => sends_on (lit "stdin") f cid (fst e)) rest qs /\
      ((r < length (w_heap w))%nat -> forall y, find_first [rsp (lit "CommandResponse"); rsp (lit "CommandId")] x = Some y -> cid = Some (or_empty (x_text y))) /\
      (Forall (fun b => b <> [] /\ (zlen b < 2 ^ 63)%Z) bs ->
       forall rc, (forall k, (sd_counter s <= k)%Z -> dict_get Z.eqb k rc = None) -> FragSpec.delivered (snd (receive_calls rc (f :: rest))) = Ok bs).
  Proof.
    intros Y H s H1 H2 H3. pose proof (begin_delivers E r a ms w w' Y H) as [L K]. cbv zeta in L, K.
    destruct (K H1 H2) as (bs & f & rest & q & x & qs & cid & K2); [unfold zlen in *; cbn [length]; fold s; lia|].
    eexists. exists bs, f, rest, q, x, qs, cid. split; [exact L|exact K2].
  Qed.
  Lemma begin_sent r a ms (w w' : world) : supplied (ia_input a) = Some ms -> begin_invoke E r a w = (Ret tt, w') ->
    exists no_input ap op h cs n ph rd,
      since w w' (map (EOut (Some (ps_id (the_ps r w)))) (OCreate no_input ap op h cs n ph rd :: ms)) /\
      (ia_input a = None -> no_input = true) /\ (forall l, ia_input a = Some (InGen l) -> no_input = false) /\
      (forall i, ia_input a = Some (InValue i) -> input_falsy E (InValue i) = false -> no_input = false).
  Proof.
    intros Y H. pose proof (begin_delivers E r a ms w w' Y H) as [L _]. cbv zeta in L. do 8 eexists. split; [exact L|].
    split; [intros ->; reflexivity|]. split; [intros l ->; reflexivity|]. intros i -> F. exact F.
  Qed.
  Lemma alive_spelled t (w : world) :
    exists q, let a := ev_srv E true (w_hist w) q in
    let '(r, w') := is_alive E t w in
    q_op q = OpGet /\ q_selectors q = sh_selectors (rp_shell (w_pool w)) /\ q_timeout q = t /\
    requests w w' [(q, a)] /\ w_log w' = w_log w /\ w_heap w' = w_heap w /\ w_disabled w' = w_disabled w /\
    w_pool w' = match r with Ret false => set_rp_state rs_closed (w_pool w) | _ => w_pool w end /\
    match a with
    | WBody (Some b) =>
        r = Ret (negb (match find_first [rsp (lit "Shell")] b with
                       | Some e => match dict_get str_eqb (lit "State") (fold_left (fun d c => dict_set str_eqb (field_name (x_tag c)) (x_text c) d) (x_children e) []) with
                                   | Some (Some s) => str_eqb s (lit "Disconnected") | _ => false end
                       | None => false end))
    | WBody None => r = Raise (XExn AttributeError)
    | WFault f => r = if match f_code f with CInt z => (Z.eqb z 2150858793 || Z.eqb z 2150858843)%bool | _ => false end then Ret false else Raise (XFault f)
    | WHttp c x => r = Raise (XHttp c x)
    | WExn e => r = match e with NewConnectionDisabled | BuiltinTimeoutError | RequestsConnectionError | ConnectTimeout => Ret false | _ => Raise (XExn e) end
    end.
  Proof.
    destruct (alive_effect E t w) as [q H]. exists q. cbv zeta in *. destruct (is_alive E t w) as [r w'].
    destruct H as (A1 & A2 & A3 & A4 & A5 & A6 & A7 & A8 & A9). do 8 (split; [assumption|]).
    destruct (ev_srv E true (w_hist w) q) as [[b|]|f|c x|e]; try exact A9.
    - rewrite A9. unfold fault_closed, is_code. destruct (f_code f) as [|s|z]; reflexivity.
    - rewrite A9. destruct e; reflexivity.
  Qed.
End Pool12d.
