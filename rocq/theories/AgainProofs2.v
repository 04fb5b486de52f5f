(* C80: cleared, started and waited for *)
From Verif Require Import Base BaseProofs Lit NumModel TextModel Utf8Model MsgModel MsgSpec XmlModel WsmanModel WsmanSpec ShellModel ShellSpec FragModel FragSpec SerModel WireModel ObjModel TellModel PoolModel PoolSpec LibModel RdSpec HearSpec HearProofs4 AgainModel AgainSpec AgainProofs.
Local Open Scope list_scope.

Lemma run_again : forall HS RK (x : outside HS RK) fuel heap hs n r a (w0 w w' : world graph (command value) HS RK) out,
  let E := library_env x fuel heap hs in
  let ci := option_map (x_cipher x) (rp_cipher (w_pool w)) in
  r < length (w_heap w0) -> begin_invoke E r a (snd (clear_streams r w0)) = (Ret tt, w) ->
  ps_id (the_ps r w0) <> [] -> dict_get str_eqb (ps_id (the_ps r w0)) (rp_pipelines (w_pool w)) = Some r -> rp_exchange (w_pool w) = None ->
  end_invoke E n r w = (Ret out, w') ->
  exists qs l, requests w w' qs /\ since w w' l /\
    forall ss ts ws items,
      undisturbed qs l -> Forall2 says (receives qs) ss ->
      NoDup (map t_oid ts) -> Forall (fun t => t_pieces t <> []) ts ->
      (forall t, In t ts -> dict_get Z.eqb (t_oid t) (rp_receiver (w_pool w)) = None) ->
      interleave (map stream ts) (concat ws) -> Forall2 word_wire ws (arrived ss) ->
      Forall2 written items (concat (map completes ws)) -> Forall (fit ci (x_float x)) items ->
      let p' := the_ps r w' in
      ps_output p' = out /\ gained ci (x_float x) PIPELINE_OUTPUT items [] out /\
      gained_errors ci (x_float x) items [] (ps_error p') /\
      gained ci (x_float x) DEBUG_RECORD items [] (ps_debug p') /\
      gained ci (x_float x) VERBOSE_RECORD items [] (ps_verbose p') /\
      gained ci (x_float x) WARNING_RECORD items [] (ps_warning p') /\
      gained ci (x_float x) PROGRESS_RECORD items [] (ps_progress p') /\
      gained ci (x_float x) INFORMATION_RECORD items [] (ps_information p') /\
      forall zs, Forall2 (fun e => says_state (snd e)) (of_type PIPELINE_STATE items) zs ->
        ps_had_errors p' = (ps_had_errors (the_ps r w0) || existsb (Z.eqb pl_failed) zs)%bool.
Proof.
  intros HS RK x fuel heap hs n r a w0 w w' out E ci L B I1 G X D.
  destruct (cleared r w0 L) as (_ & R0 & _ & (S1 & _ & S3 & _) & _).
  pose proof (idle_begin E r a (snd (clear_streams r w0))) as (L1 & K). rewrite B in L1, K. cbn [snd] in L1, K. destruct (K r) as (K1 & K2 & _ & K4).
  assert (L2 : r < length (w_heap w)).
  { rewrite L1. unfold clear_streams, updps, upd. cbn [snd w_heap set_w_heap]. rewrite PoolProofs2.list_upd_length. exact L. }
  assert (Ei : ps_id (the_ps r w) = ps_id (the_ps r w0)) by congruence.
  rewrite R0 in K1. unfold results in K1. rewrite <- Ei in I1, G.
  destruct (waited x fuel heap hs n r w w' out L2 I1 G X D) as (qs & l & Q & Sl & _ & W).
  exists qs, l. split; [exact Q|]. split; [exact Sl|]. intros ss ts ws items U1 U2 U3 U4 U5 U6 U7 U8 U9.
  destruct (W ss ts ws items U1 U2 U3 U4 U5 U6 U7 U8 U9) as (_ & A1 & A2 & A3 & A4 & A5 & A6 & A7 & A8 & _ & A9). cbv zeta in *.
  assert (O : ps_output (the_ps r w) = [] /\ ps_error (the_ps r w) = [] /\ ps_debug (the_ps r w) = [] /\ ps_verbose (the_ps r w) = [] /\ ps_warning (the_ps r w) = [] /\ ps_progress (the_ps r w) = [] /\ ps_information (the_ps r w) = []) by (repeat split; congruence).
  destruct O as (O1 & O2 & O3 & O4 & O5 & O6 & O7). rewrite O1 in A2. rewrite O2 in A3. rewrite O3 in A4. rewrite O4 in A5. rewrite O5 in A6. rewrite O6 in A7. rewrite O7 in A8.
  split; [exact A1|]. split; [exact A2|]. split; [exact A3|]. split; [exact A4|]. split; [exact A5|]. split; [exact A6|]. split; [exact A7|]. split; [exact A8|].
  intros zs Z1. destruct (A9 zs Z1) as (_ & ->). rewrite K2, S3. reflexivity.
Qed.
