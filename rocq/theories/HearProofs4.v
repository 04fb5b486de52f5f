(* C69: waiting for a pipeline, with the library's own reading. *)
From Verif Require Import Base BaseProofs Lit NumModel TextModel MsgModel MsgSpec XmlModel WsmanModel ShellModel ShellSpec FragModel FragSpec SerModel SerClasses SendClasses WireModel ObjModel StartModel TellModel PoolModel PoolSpec PoolProofs9 LibModel RdSpec HearSpec HearProofs HearProofs2 HearProofs3.
From Coq Require Import Permutation.
Local Open Scope list_scope.

Theorem waited {HS RK} (x : outside HS RK) fuel heap hs n r (w w' : world graph (command value) HS RK) out :
  let E := library_env x fuel heap hs in
  let ci := option_map (x_cipher x) (rp_cipher (w_pool w)) in
  r < length (w_heap w) -> ps_id (the_ps r w) <> [] ->
  dict_get str_eqb (ps_id (the_ps r w)) (rp_pipelines (w_pool w)) = Some r -> rp_exchange (w_pool w) = None ->
  end_invoke E n r w = (Ret out, w') ->
  exists qs l, requests w w' qs /\ since w w' l /\
    (forall q a, In (q, a) qs -> q_op q = OpReceive -> q_body q = Some (receive_body (lit "stdout") (ps_command_id (the_ps r w)))) /\
    forall ss ts ws items,
      undisturbed qs l -> Forall2 says (receives qs) ss ->
      NoDup (map t_oid ts) -> Forall (fun t => t_pieces t <> []) ts ->
      (forall t, In t ts -> dict_get Z.eqb (t_oid t) (rp_receiver (w_pool w)) = None) ->
      interleave (map stream ts) (concat ws) -> Forall2 word_wire ws (arrived ss) ->
      Forall2 written items (concat (map completes ws)) -> Forall (fit ci (x_float x)) items ->
      Permutation (concat (map completes ws)) (map t_msg ts) /\
      let p := the_ps r w in let p' := the_ps r w' in
      ps_output p' = out /\ gained ci (x_float x) PIPELINE_OUTPUT items (ps_output p) out /\
      gained_errors ci (x_float x) items (ps_error p) (ps_error p') /\
      gained ci (x_float x) DEBUG_RECORD items (ps_debug p) (ps_debug p') /\
      gained ci (x_float x) VERBOSE_RECORD items (ps_verbose p) (ps_verbose p') /\
      gained ci (x_float x) WARNING_RECORD items (ps_warning p) (ps_warning p') /\
      gained ci (x_float x) PROGRESS_RECORD items (ps_progress p) (ps_progress p') /\
      gained ci (x_float x) INFORMATION_RECORD items (ps_information p) (ps_information p') /\
      ps_state p' <> pl_running /\
      forall zs, Forall2 (fun e => says_state (snd e)) (of_type PIPELINE_STATE items) zs ->
        ps_state p' = last zs (ps_state p) /\ ps_had_errors p' = (ps_had_errors p || existsb (Z.eqb pl_failed) zs)%bool.
Proof.
  intros E ci L I1 G X H. destruct (end_collects E n r w w' out (conj L (conj I1 (conj G X))) (library_honest x fuel (rp_cipher (w_pool w))) H) as (qs & l & Q & Sn & As & K).
  exists qs, l. split; [exact Q|]. split; [exact Sn|]. split; [exact As|]. intros ss ts ws items U Fs Nd Np Nr Il Fw Wr Ft.
  destruct (K ss ts ws U Fs Nd Np Nr Il Fw) as (Pm & ms & Mu & Oo & Po & At & Ns). clear K. split; [exact Pm|]. cbv zeta.
  destruct (all_heard x fuel (rp_cipher (w_pool w)) items _ Wr Ft) as (ms' & Mu' & Hd). assert (ms' = ms) by (change (ev_codec E (rp_cipher (w_pool w))) with (library_codec x fuel (rp_cipher (w_pool w)) []) in Mu; congruence). subst ms'. clear Mu'.
  destruct At as ((A1 & A2 & A3 & A4 & A5 & A6) & A7 & A8).
  assert (B : forall ty, ty <> PUBLIC_KEY_REQUEST -> Forall2 (had_message ci (x_float x)) (of_type ty items) (objects ty ms)) by (intros ty Ny; exact (objects_heard x (rp_cipher (w_pool w)) ty items ms Ny Hd)).
  split; [exact Po|]. split; [eexists; split; [exact Oo|]; apply B; discriminate|].
  split; [eexists; split; [exact A1|]; exact (errors_heard x fuel heap hs (rp_cipher (w_pool w)) items ms Hd Ft)|].
  split; [eexists; split; [exact A2|]; apply B; discriminate|]. split; [eexists; split; [exact A3|]; apply B; discriminate|]. split; [eexists; split; [exact A4|]; apply B; discriminate|].
  split; [eexists; split; [exact A5|]; apply B; discriminate|]. split; [eexists; split; [exact A6|]; apply B; discriminate|]. split; [exact Ns|].
  intros zs Z. destruct (states_heard x fuel heap hs (rp_cipher (w_pool w)) items ms Hd Ft zs Z (ps_state (the_ps r w))) as (S1 & S2). rewrite A7, A8. split; [exact S1|]. f_equal. exact S2.
Qed.
