(* What execute_ps sends, gives back and closes. *)
From Verif Require Import Base BaseProofs Lit NumModel TextModel XmlModel WsmanModel ShellModel ShellSpec FragModel FragSpec FragProofs FragProofs2 FragProofs3 FragProofs4 MsgModel UtilModel TransModel ObjModel ObjProofs2 PoolModel PoolSpec PoolProofs PoolProofs2 PoolProofs3 PoolProofs4 PoolProofs5 PoolProofs6 PoolProofs7 PoolProofs8 PoolProofs9 PoolProofs12 PoolProofs13 ClientModel ClientSpec ClientProofs.
Require Import Lia ZifyBool ZifyNat ZifyN.

Section Executed2.
  Context {Obj HS RK : Type} (E : env Obj (command Obj) HS RK).
  Notation world := (world Obj (command Obj) HS RK).
  Context (of_text : list N -> Obj) (py_true py_none : Obj) (to_text : Obj -> res (list N)).
  Notation execute := (execute_ps E of_text py_true py_none to_text).
  Notation body := (body E of_text py_true py_none).
  Notation says := (says_script of_text py_true py_none).

  (* ---- closing ---- *)
  Lemma close_shape (w : world) : let '(x, w') := pool_close E w in
    w_log w' = w_log w /\ w_heap w' = w_heap w /\
    ((In (rp_state (w_pool w)) [rs_closed; rs_closing; rs_broken] /\ x = Ret tt /\ w' = w) \/
     (~ In (rp_state (w_pool w)) [rs_closed; rs_closing; rs_broken] /\
      (sh_opened (rp_shell (w_pool w)) = true -> exists q a, requests w w' [(q, a)] /\ q_op q = OpDelete /\ q_selectors q = sh_selectors (rp_shell (w_pool w))) /\
      (x = Ret tt -> rp_state (w_pool w') = rs_closed /\ exists qs, requests w w' qs /\ Forall (fun q => q_op (fst q) = OpDelete) qs))).
  Proof.
    unfold pool_close. rewrite mbind_getp. destruct (in_states _ _) eqn:S.
    - cbn [ret]. split; [reflexivity|]. split; [reflexivity|]. left. apply in_states_iff in S. auto.
    - assert (N : ~ In (rp_state (w_pool w)) [rs_closed; rs_closing; rs_broken]) by (rewrite <- in_states_iff, S; discriminate).
      unfold mbind, on_shell_state, shell_close. destruct (sh_opened (rp_shell (w_pool w))) eqn:O; cbn [negb].
      + unfold call. set (q := request _ _ _ _ _). set (a := ev_srv E _ _ q). 
        assert (R : exists q0 a0, (w_hist w ++ [(q, a)] = w_hist w ++ [(q0, a0)]) /\ q_op q0 = OpDelete /\ q_selectors q0 = sh_selectors (rp_shell (w_pool w))) by (exists q, a; repeat split).
        destruct a as [b|f|c t|e]; cbn.
        * split; [reflexivity|]. split; [reflexivity|]. right. split; [exact N|]. split; [intros _; exact R|]. intros _. split; [reflexivity|]. eexists. split; [reflexivity|]. constructor; [reflexivity|constructor].
        * split; [reflexivity|]. split; [reflexivity|]. right. split; [exact N|]. split; [intros _; exact R|]. intros X; discriminate X.
        * split; [reflexivity|]. split; [reflexivity|]. right. split; [exact N|]. split; [intros _; exact R|]. intros X; discriminate X.
        * split; [reflexivity|]. split; [reflexivity|]. right. split; [exact N|]. split; [intros _; exact R|]. intros X; discriminate X.
      + cbn. split; [reflexivity|]. split; [reflexivity|]. right. split; [exact N|]. split; [intros X; discriminate X|]. intros _. split; [reflexivity|]. exists []. split; [unfold requests; rewrite app_nil_r; reflexivity|constructor].
  Qed.

  (* ---- execute_ps as open, body and close ---- *)
  Lemma execute_world fuel id e script (w : world) :
    snd (execute fuel id e script w) =
    let '(x, w1) := pool_open E fuel None w in
    match x with Raise _ => w1 | Ret _ => snd (pool_close E (snd (body fuel id e script w1))) end.
  Proof.
    unfold execute_ps. fold (body fuel id e script). unfold mbind at 1. unfold with_pool. destruct (pool_open E fuel None w) as [[[]|x] w1]; [|reflexivity].
    destruct (body fuel id e script w1) as [b w2]. cbn [snd]. destruct (pool_close E w2) as [[[]|x] w3]; [|reflexivity].
    destruct b as [r|x]; [|reflexivity]. rewrite mbind_getps. destruct (mapM _ _); reflexivity.
  Qed.
  Lemma execute_returns fuel id e script (w : world) v w' w1 : execute fuel id e script w = (Ret v, w') -> pool_open E fuel None w = (Ret tt, w1) ->
    fst (pool_close E (snd (body fuel id e script w1))) = Ret tt.
  Proof.
    unfold execute_ps. fold (body fuel id e script). unfold mbind at 1. unfold with_pool. intros H O. rewrite O in H.
    destruct (body fuel id e script w1) as [b w2]. cbn [snd]. destruct (pool_close E w2) as [[[]|x] w3]; [reflexivity|exfalso; congruence].
  Qed.

  (* ---- what is sent ---- *)
  Definition proper (id : list N) e script (pid : option (list N)) (o : omsg Obj (command Obj)) : Prop :=
    match o with
    | OCreate no_input _ options to_history cs nested history redirect =>
        pid = Some id /\ no_input = true /\ options = Some 15%Z /\ to_history = false /\ nested = false /\ history = None /\ redirect = false /\ says e script cs
    | _ => True
    end.
  Lemma proper_other id e script pid o : match o with OCreate _ _ _ _ _ _ _ _ => False | _ => True end -> proper id e script pid o.
  Proof. destruct o; intros H; try exact I. destruct H. Qed.
  Notation calm id e script := (calm (HS := HS) (RK := RK) (proper id e script)).

  Lemma calm_begin id e script cs (w : world) : says e script cs -> calm id e script w (snd (begin_invoke E (length (w_heap w)) plain_args (prepared id cs w))).
  Proof.
    intros S. set (r := length (w_heap w)).
    assert (P : calm id e script w (prepared id cs w)) by (apply calm_silent; reflexivity).
    eapply calm_trans; [exact P|]. unfold begin_invoke. rewrite mbind_getps. pose proof (prepared_ps id cs w) as Q. fold r in Q. rewrite Q.
    destruct (negb _); [apply calm_refl|]. destruct (ps_commands _) eqn:C; [apply calm_refl|].
    change (ps_commands (set_ps_commands cs (new_ps id))) with cs in C. rewrite mbind_getp.
    cbn [ia_input plain_args ia_apartment ia_options ia_history ia_redirect ps_nested ps_history set_ps_commands new_ps].
    match goal with |- context [ps_invoke E r ?o] => set (om := o) end.
    assert (K : calm id e script (prepared id cs w) (snd (ps_invoke E r om (prepared id cs w)))).
    { apply calm_invoke. rewrite Q. cbn. rewrite <- C. repeat split; auto. }
    unfold mbind. destruct (ps_invoke E r om (prepared id cs w)) as [[[]|x] w2]; exact K.
  Qed.
  Lemma calm_body fuel id e script (w : world) : calm id e script w (snd (body fuel id e script w)).
  Proof.
    destruct (body_cases E of_text py_true py_none fuel id e script w) as [(x & w' & -> & L & Q)|(cs & S & _ & ->)].
    - apply calm_silent; cbn [snd]; rewrite ?Q; auto.
    - pose proof (calm_begin id e script cs w S) as B. unfold mbind at 1. unfold invoke, mbind at 1.
      destruct (begin_invoke E (length (w_heap w)) plain_args (prepared id cs w)) as [[[]|x] w1]; [|exact B]. cbn [snd] in B.
      pose proof (calm_end E (proper id e script) (proper_other id e script) fuel (length (w_heap w)) w1) as K.
      destruct (end_invoke E fuel (length (w_heap w)) w1) as [[o|x] w2]; eapply calm_trans; eauto.
  Qed.
  Lemma execute_only fuel id e script (w : world) : exists l, since w (snd (execute fuel id e script w)) l /\ forall pid o, In (EOut pid o) l -> proper id e script pid o.
  Proof.
    rewrite execute_world. pose proof (calm_open E (proper id e script) (proper_other id e script) fuel None w) as O.
    destruct (pool_open E fuel None w) as [[[]|x] w1]; cbn [snd] in O; [|exact (cm_log _ _ _ O)].
    pose proof (calm_trans _ _ _ _ O (calm_body fuel id e script w1)) as B. pose proof (close_shape (snd (body fuel id e script w1))) as C.
    destruct (pool_close E _) as [x w']. cbn [snd]. destruct C as [L _]. destruct (cm_log _ _ _ B) as [l [Hl Hp]]. exists l. split; [|exact Hp]. unfold since in *. congruence.
  Qed.
  Lemma created_none (l : list (event Obj (command Obj))) : (forall pid o, In (EOut pid o) l -> match o with OCreate _ _ _ _ _ _ _ _ => False | _ => True end) -> created l = [].
  Proof.
    unfold created, sent. induction l as [|x l IH]; intros H; [reflexivity|]. cbn [flat_map]. rewrite filter_app. rewrite IH by (intros pid o K; apply (H pid o); right; exact K).
    rewrite app_nil_r. destruct x as [pl m|pid o|mi mp pl r]; try reflexivity. cbn [app filter snd]. specialize (H pid o (or_introl eq_refl)). destruct o; try reflexivity. destruct H.
  Qed.
  Lemma created_app (l l' : list (event Obj (command Obj))) : created (l ++ l') = created l ++ created l'.
  Proof. unfold created, sent. rewrite flat_map_app, filter_app. reflexivity. Qed.
  Definition none_created (pid : option (list N)) (o : omsg Obj (command Obj)) : Prop := match o with OCreate _ _ _ _ _ _ _ _ => False | _ => True end.
  Lemma execute_single fuel id e script (w : world) v w' : execute fuel id e script w = (Ret v, w') ->
    exists l cs ap, since w w' l /\ says e script cs /\ created l = [(Some id, OCreate true ap (Some 15%Z) false cs false None false)].
  Proof.
    destruct v as [[text r] bad]. intros H. apply execute_done in H as (w1 & w2 & w3 & cs & out & ls & O & -> & S & _ & B & D & C & _).
    pose proof (calm_open E none_created (fun _ _ K => K) fuel None w) as O1. rewrite O in O1. destruct O1 as [[l1 [L1 F1]] _ _]. cbn [snd] in L1.
    pose proof (calm_end E none_created (fun _ _ K => K) fuel (length (w_heap w1)) w2) as D1. rewrite D in D1. destruct D1 as [[l3 [L3 F3]] _ _]. cbn [snd] in L3.
    pose proof (begin_delivers E (length (w_heap w1)) plain_args [] (prepared id cs w1) w2 eq_refl B) as [L2 _]. cbv zeta in L2. rewrite prepared_ps in L2.
    pose proof (close_shape w3) as K. rewrite C in K. destruct K as [L4 _].
    match type of L2 with since _ _ ?x => exists (l1 ++ x ++ l3) end. exists cs, (rp_apartment (w_pool w1)). split; [|split; [exact S|]].
    - unfold since in *. rewrite L4, L3, L2. change (w_log (prepared id cs w1)) with (w_log w1). rewrite L1, !app_assoc. reflexivity.
    - rewrite !created_app, (created_none l1 F1), (created_none l3 F3), app_nil_r. reflexivity.
  Qed.


  (* ---- what is given back ---- *)
  Lemma open_requests fuel (w w1 : world) : sh_opened (rp_shell (w_pool w)) = false -> pool_open E fuel None w = (Ret tt, w1) -> exists q, requests w w1 q.
  Proof.
    intros S O. destruct (pool_deletes_only_alive E [(fuel, PoolOpen None)] w S) as [new [R _]]. cbn [run_ops run_op] in R. rewrite O in R. eauto.
  Qed.
  Lemma begin_started id cs (w w2 : world) : begin_invoke E (length (w_heap w)) plain_args (prepared id cs w) = (Ret tt, w2) -> id <> [] -> rp_exchange (w_pool w) = None ->
    registered (length (w_heap w)) w2 /\ rp_cipher (w_pool w2) = rp_cipher (w_pool w) /\
    same_got E (new_ps id) (the_ps (length (w_heap w)) w2).
  Proof.
    intros H Ni X. unfold begin_invoke in H. rewrite mbind_getps in H. rewrite prepared_ps in H. destruct (negb _); [exfalso; unfold throw, fail in H; congruence|].
    destruct (ps_commands _) eqn:C; [exfalso; unfold throw, fail in H; congruence|]. rewrite mbind_getp in H. cbn [ia_input plain_args] in H.
    match type of H with context [ps_invoke E ?r ?o] => set (om := o) in * end.
    apply mbind_ret in H as [[] [w2' [H K]]]. unfold ret in K. apply pair_inj in K as [_ ->].
    pose proof (starts_invoke E (length (w_heap w)) om (prepared id cs w)) as S. rewrite H in S. cbn [snd] in S. destruct S as [G L X' C' R].
    apply ps_invoke_done in H as [_ _ Pl [_ [_ _]] _]. rewrite prepared_ps in Pl, G. cbn [ps_id set_ps_commands new_ps] in Pl.
    destruct G as (G1 & G2 & G3 & G4). cbn [ps_id ps_output ps_had_errors set_ps_commands new_ps] in G1, G2, G3.
    split; [|split; [exact C'|split; [exact G1|split; [exact G2|split; [exact G3|exact G4]]]]].
    split; [rewrite L; unfold prepared; cbn [w_heap set_w_heap]; rewrite app_length; cbn [length]; clear; lia|]. rewrite G1. split; [exact Ni|]. split; [|rewrite X'; exact X].
    rewrite Pl. apply (dict_get_set_same str_eqb str_eqb_spec).
  Qed.
  Lemma execute_collects fuel id e script (w w' : world) text r bad : unused w -> id <> [] -> honest (ev_codec E None) ->
    execute fuel id e script w = (Ret (text, r, bad), w') ->
    exists w2 q1 qs q2 l1 l, requests w w2 q1 /\ since w w2 l1 /\ requests w w' (q1 ++ qs ++ q2) /\ since w w' (l1 ++ l) /\
      length (created l1) = 1%nat /\ Forall (fun q => q_op (fst q) = OpDelete) q2 /\
      (forall q a, In (q, a) qs -> q_op q = OpReceive -> q_body q = Some (receive_body (lit "stdout") (ps_command_id (the_ps r w2)))) /\
      forall ss ts ws, undisturbed qs l -> Forall2 ShellSpec.says (receives qs) ss ->
        NoDup (map t_oid ts) -> Forall (fun t => t_pieces t <> []) ts -> (forall t, In t ts -> dict_get Z.eqb (t_oid t) (rp_receiver (w_pool w2)) = None) ->
        interleave (map FragSpec.stream ts) (concat ws) -> Forall2 word_wire ws (arrived ss) ->
        Permutation.Permutation (concat (map completes ws)) (map t_msg ts) /\
        exists ms ls, mapM (message_unpack (ev_codec E None)) (concat (map completes ws)) = Ok ms /\
          mapM to_text (objects PIPELINE_OUTPUT ms) = Ok ls /\ lined ls text /\ bad = any_failed E ms /\ grown E (new_ps id) (the_ps r w') ms.
  Proof.
    intros (U1 & U2 & U3 & U4) Ni Hc H. apply execute_done in H as (w1 & w2 & w3 & cs & out & ls & O & -> & S & _ & B & D & C & M & Li & Hb).
    destruct (open_requests _ _ _ U2 O) as [qo Qo].
    pose proof (calm_open E none_created (fun _ _ K => K) fuel None w) as O1. rewrite O in O1. destruct O1 as [[l1 [L1 F1]] Ko _]. cbn [snd] in L1, Ko.
    destruct (Ko U3) as [X1 C1]. rewrite U4 in C1.
    pose proof (begin_done E (length (w_heap w1)) plain_args [] (prepared id cs w1) w2 (supplied_yields (ia_input plain_args) [] eq_refl) B) as Bd.
    destruct Bd as (ops & bss & f & rest & q & x & qb & _ & _ & _ & L2 & Qb & _). rewrite prepared_ps in L2.
    destruct (begin_started id cs w1 w2 B Ni X1) as (G & C2 & Gt). rewrite C1 in C2.
    assert (Hc' : honest (ev_codec E (rp_cipher (w_pool w2)))) by (rewrite C2; exact Hc).
    destruct (end_collects E fuel _ w2 w3 out G Hc' D) as (qs & l & Qs & Ls & Bo & Ed).
    pose proof (close_shape w3) as K. rewrite C in K. destruct K as [L4 [H4 K]].
    assert (Q2 : exists q2, requests w3 w' q2 /\ Forall (fun q => q_op (fst q) = OpDelete) q2).
    { destruct K as [(_ & _ & ->)|(_ & _ & K)]; [exists []; split; [unfold requests; rewrite app_nil_r; reflexivity|constructor]|]. destruct (K eq_refl) as [_ [q2 Z]]. exists q2; exact Z. }
    destruct Q2 as [q2 [Q2 Fq2]].
    match type of L2 with since _ _ ?lx => exists w2, (qo ++ (q, WBody (Some x)) :: qb), qs, q2, (l1 ++ lx), l end.
    assert (R1 : requests w w2 (qo ++ (q, WBody (Some x)) :: qb)) by (unfold requests in *; rewrite Qb; change (w_hist (prepared id cs w1)) with (w_hist w1); rewrite Qo, <- app_assoc; reflexivity).
    match type of L2 with since _ _ ?x => assert (R2 : since w w2 (l1 ++ x)) by (unfold since in *; rewrite L2; change (w_log (prepared id cs w1)) with (w_log w1); rewrite L1, <- app_assoc; reflexivity) end.
    assert (Hw : the_ps (length (w_heap w1)) w' = the_ps (length (w_heap w1)) w3) by (unfold the_ps; rewrite H4; reflexivity).
    split; [exact R1|]. split; [exact R2|]. split; [unfold requests in *; rewrite Q2, Qs, R1, !app_assoc; reflexivity|].
    split; [unfold since in *; rewrite L4, Ls, R2, !app_assoc; reflexivity|]. split; [rewrite created_app, (created_none l1 F1); reflexivity|].
    split; [exact Fq2|]. split; [exact Bo|].
    intros ss ts ws U Fs Nd Np Nr Il Fw. destruct (Ed ss ts ws U Fs Nd Np Nr Il Fw) as (Pm & ms & Mu & Ho & Oo & At & _). split; [exact Pm|].
    exists ms, ls. rewrite C2 in Mu. split; [exact Mu|]. destruct Gt as (_ & G2 & G3 & G4). cbn [ps_output ps_had_errors new_ps] in G2, G3.
    rewrite Hw, Oo, Ho, G2 in M. split; [exact M|]. split; [exact Li|]. rewrite Hb, Hw. destruct At as [Gr [_ Eb]]. rewrite Eb, G3. split; [reflexivity|].
    unfold grown in *. cbn [errors objects flat_map] in G4. rewrite !app_nil_r in G4. destruct G4 as (g1 & g2 & g3 & g4 & g5 & g6). rewrite g1, g2, g3, g4, g5, g6 in Gr. exact Gr.
  Qed.

  (* ---- the pool is closed ---- *)
  Lemma told_body fuel id e script (w : world) : told E w (snd (body fuel id e script w)).
  Proof.
    destruct (body_cases E of_text py_true py_none fuel id e script w) as [(x & w' & -> & L & Q)|(cs & S & _ & ->)].
    - apply told_silent; cbn [snd]; rewrite ?Q; auto.
    - eapply told_trans; [apply (told_silent E w (prepared id cs w)); reflexivity|].
      pose proof (told_op E fuel (Begin (length (w_heap w)) plain_args) eq_refl (prepared id cs w)) as B. cbn [run_op] in B. unfold mbind at 1. unfold invoke, mbind at 1.
      destruct (begin_invoke E (length (w_heap w)) plain_args (prepared id cs w)) as [[[]|x] w1]; [|exact B]. cbn [snd] in B.
      pose proof (told_end E fuel (length (w_heap w)) w1) as K.
      destruct (end_invoke E fuel (length (w_heap w)) w1) as [[o|x] w2]; eapply told_trans; eauto.
  Qed.
  Lemma open_opens fuel (w w1 : world) : rp_state (w_pool w) = rs_before_open -> sh_opened (rp_shell (w_pool w)) = false -> pool_open E fuel None w = (Ret tt, w1) -> sh_opened (rp_shell (w_pool w1)) = true.
  Proof.
    intros B S H. unfold pool_open in H. rewrite mbind_getp, B in H. cbn [Z.eqb rs_before_open rs_opened negb] in H.
    rewrite mbind_getp in H. apply mbind_ret in H as [fs [wa [F H]]]. apply mbind_ret in H as [f [wb [F2 H]]].
    apply mbind_ret in H as [b [wc [So H]]]. rewrite mbind_updp in H.
    set (wd := set_w_pool _ wc) in H.
    assert (Sb : sh_opened (rp_shell (w_pool wb)) = sh_opened (rp_shell (w_pool w))).
    { assert (Sa : rp_shell (w_pool wa) = rp_shell (w_pool w)).
      { match type of F with fragment_many E ?x ?y w = _ => assert (T : steps (fun a b : world => rp_shell (w_pool b) = rp_shell (w_pool a)) (fragment_many E x y)) end.
        { unfold fragment_many. cbn [each]. walk (fun a : world => eq_refl (rp_shell (w_pool a))) (fun (a b c : world) (x : rp_shell (w_pool b) = rp_shell (w_pool a)) (y : rp_shell (w_pool c) = rp_shell (w_pool b)) => eq_trans y x) ltac:(intros ?w; reflexivity). }
        specialize (T w). cbv beta in T. rewrite F in T. exact T. }
      unfold first_fragment in F2. destruct fs; [exfalso; unfold throw, fail in F2; congruence|]. assert (wb = wa) as -> by (unfold ret in F2; congruence). rewrite Sa. reflexivity. }
    assert (Sc : sh_opened (rp_shell (w_pool wc)) = true).
    { unfold on_shell_state, shell_open in So. rewrite Sb, S in So. destruct (call _ _ _) as [[y|y] h]; [|exfalso; apply pair_inj in So as [So _]; discriminate So].
      destruct (parse_shell_create _ _) as [[y'|y'] s']; apply pair_inj in So as [So <-]; [reflexivity|discriminate So]. }
    pose proof (calm_until E none_created (fun _ _ K => K) fuel (fun w => negb (Z.eqb (rp_state (w_pool w)) rs_negotiation_sent)) wd) as K. rewrite H in K. cbn [snd] in K.
    apply (cm_opened _ _ _ K). exact Sc.
  Qed.
  Lemma execute_closes fuel id e script (w w1 w' : world) x : unused w -> pool_open E fuel None w = (Ret tt, w1) -> execute fuel id e script w = (x, w') ->
    (exists l st, since w w' l /\ last_reported E l st /\
       (In st [rs_closed; rs_closing; rs_broken] \/ exists h q a, w_hist w' = h ++ [(q, a)] /\ q_op q = OpDelete)) /\
    (forall v, x = Ret v -> In (rp_state (w_pool w')) [rs_closed; rs_closing; rs_broken]).
  Proof.
    intros (U1 & U2 & U3 & U4) O H. pose proof (f_equal snd H) as Hw. cbn [snd] in Hw. rewrite execute_world, O in Hw.
    assert (Hf : forall v, x = Ret v -> fst (pool_close E (snd (body fuel id e script w1))) = Ret tt) by (intros v ->; eapply execute_returns; eauto).
    destruct (open_waits E fuel None w w1 U1 O) as (l1 & L1 & R1 & _). pose proof (open_opens fuel w w1 U1 U2 O) as S1.
    destruct (told_body fuel id e script w1) as (l2 & L2 & R2).
    pose proof (cm_opened _ _ _ (calm_body fuel id e script w1) S1) as S2. set (w2 := snd (body fuel id e script w1)) in *.
    pose proof (close_shape w2) as K. destruct (pool_close E w2) as [y w3]. cbn [fst snd] in Hw, Hf. subst w3. destruct K as [L3 [_ K]].
    assert (R : last_reported E (l1 ++ l2) (rp_state (w_pool w2))).
    { destruct R2 as [[R2 N2]|R2].
      - rewrite R2. destruct R1 as (a & pl & m & b & -> & Ra & Rb). exists a, pl, m, (b ++ l2). split; [rewrite <- app_assoc; reflexivity|]. split; [exact Ra|].
        intros pl' m' st' Ii. apply in_app_or in Ii as [Ii|Ii]; eauto.
      - destruct R2 as (a & pl & m & b & -> & Ra & Rb). exists (l1 ++ a), pl, m, b. rewrite app_assoc. auto. }
    split.
    - exists (l1 ++ l2), (rp_state (w_pool w2)). split; [unfold since in *; rewrite L3, L2, L1, app_assoc; reflexivity|]. split; [exact R|].
      destruct K as [(K & _)|(_ & K & _)]; [left; exact K|]. right. destruct (K S2) as (q & a & Q & Qd & _). exists (w_hist w2), q, a. auto.
    - intros v Hv. specialize (Hf v Hv). destruct K as [(K & _ & ->)|(_ & _ & K)]; [exact K|]. destruct (K Hf) as [-> _]. left. reflexivity.
  Qed.
End Executed2.
