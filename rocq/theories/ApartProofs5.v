(* C78: the requests of get_command_metadata *)
From Verif Require Import Base BaseProofs Lit NumModel TextModel XmlModel WsmanModel ShellModel ShellSpec FragModel MsgModel UtilModel TransModel PoolModel PoolSpec PoolProofs PoolProofs2 PoolProofs3 PoolProofs4 PoolProofs5 PoolProofs7 ApartSpec ApartSpec2 ApartProofs2.

Lemma metadata_asked {Obj Cmd HS RK} (E : env Obj Cmd HS RK) fuel id a (w : world Obj Cmd HS RK) :
  let w' := snd (run_op E fuel (Metadata id a) w) in
  exists qs, requests w w' qs /\ Forall (fun e => Forall (fun i => i = id \/ ps_command_id (the_ps (length (w_heap w)) w') = Some i) (names (fst e))) qs.
Proof.
  cbv zeta. set (r := length (w_heap w)).
  assert (D : both id r w (snd (get_command_metadata E fuel id a w))).
  { unfold get_command_metadata, create_ps. rewrite mbind_getp. destruct (negb _); [exists w; split; [apply before_refl|apply after_refl]|].
    unfold mbind at 1. rewrite mbind_get, mbind_upd. cbn [ret]. set (w1 := set_w_heap (w_heap w ++ [new_ps id]) w). fold r.
    assert (I1 : ps_id (the_ps r w1) = id) by (unfold w1, r, the_ps; cbn [w_heap set_w_heap]; rewrite nth_middle; reflexivity).
    assert (B : forall w', both id r w1 w' -> both id r w w').
    { intros w' (mid & B1 & B2). exists mid. split; [|exact B2]. refine (before_trans id w w1 mid _ B1). apply before_silent. reflexivity. }
    apply B. clear B. pose proof (invoked E r (OMetadata a) w1) as V. rewrite I1 in V.
    unfold mbind at 1. destruct (ps_invoke E r (OMetadata a) w1) as [[[]|x] w2] eqn:Ei; cbn [snd] in *; [|exact V].
    pose proof (ps_invoke_done E r (OMetadata a) w1 w2 Ei) as Dn. pose proof (cp_reg _ _ _ _ _ Dn) as Rg. destruct (cp_same _ _ _ _ _ Dn) as (_ & _ & I2).
    assert (F : after r w2 (snd (end_invoke E fuel r w2))).
    { apply asked_end; [|auto]. intros k. rewrite Rg, I2. rewrite dict_get_set_same by apply str_eqb_spec. congruence. }
    destruct V as (mid & V1 & V2). exists mid. split; [exact V1|]. refine (after_trans r _ _ _ V2 _).
    unfold mbind at 1. destruct (end_invoke E fuel r w2) as [[out|y] w3]; cbn [snd] in *; [|exact F]. refine (after_trans r _ _ _ F _).
    destruct out as [|o l]; [apply after_refl|]. unfold mbind. cbn [snd ret updps upd]. apply (asked_updps _ r (set_ps_output l)). intros p. split; reflexivity. }
  cbn [run_op]. unfold void, mbind. destruct (get_command_metadata E fuel id a w) as [[l|x] w']; cbn [snd ret] in *;
    destruct D as (mid & (q1 & H1 & F1) & ((q2 & H2 & F2) & _ & K)); exists (q1 ++ q2); (split; [unfold requests in *; rewrite H2, H1, app_assoc; reflexivity|]);
    apply Forall_app; destruct (K r) as (K1 & _); rewrite K1; (split; [revert F1|revert F2]; apply Forall_impl; intros e; apply Forall_impl; intros i; tauto).
Qed.
