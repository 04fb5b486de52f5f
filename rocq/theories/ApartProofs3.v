(* C78: the requests, in the worlds that are reached *)
From Verif Require Import Base BaseProofs Lit NumModel TextModel XmlModel WsmanModel ShellModel ShellSpec FragModel MsgModel UtilModel TransModel PoolModel PoolSpec PoolProofs PoolProofs10 PoolProofs12 ApartSpec ApartSpec2 ApartProofs2.

Lemma reached_asked {Obj Cmd HS RK} (E : env Obj Cmd HS RK) l fuel o r w0 :
  let w := run_ops E l w0 in let w' := snd (run_op E fuel o w) in
  rp_pipelines (w_pool w0) = [] -> about o = OfPipeline r -> (forall k, k < length (w_heap w) -> ps_id (the_ps k w) = ps_id (the_ps r w) -> k = r) ->
  exists qs, requests w w' qs /\ Forall (fun e => Forall (fun i =>
    i = ps_id (the_ps r w) \/ i = upper (ps_id (the_ps r w)) \/ ps_command_id (the_ps r w) = Some i \/ ps_command_id (the_ps r w') = Some i) (names (fst e))) qs.
Proof.
  intros w w' R A U. apply asked_op; [exact A|]. intros k K. apply PoolProofs10.dict_get_in in K. pose proof (reg_ok_history E l w0 R _ _ K) as (L & I). exact (U k L I).
Qed.
