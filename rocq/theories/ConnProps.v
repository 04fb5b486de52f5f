(* Property theorem C34. *)
From Verif Require Import Base BaseProofs Lit ConnModel ConnSpec ConnProofs.

(* ---- C34 ---- *)
(* A program of a thread does what [means] says, from any state: connections
   are refused inside blocks, at any depth, and made outside them.  Afterwards
   the context of every thread is what it was. *)
Theorem C34_scoped : forall net p open t s, separate open p ->
  exists s', run net p t s =
    (fst (means net (if cv s t then true else false) p), s', snd (means net (if cv s t then true else false) p)) /\
    (forall t', cv s' t' = cv s t') /\ (forall i, In i open -> tok s' i = tok s i).
Proof. exact run_means. Qed.
Print Assumptions C34_scoped.

(* A block touches no network, however its body ends, and after it every
   program of every thread does what it would have done before. *)
Theorem C34_block : forall net open i p t s, separate open (Within i p) ->
  exists s', run net (Within i p) t s = (fst (means net true p), s', []) /\
    forall q t', separate open q ->
      fst (fst (run net q t' s')) = fst (fst (run net q t' s)) /\ snd (run net q t' s') = snd (run net q t' s).
Proof. exact block_scoped. Qed.
Print Assumptions C34_block.

(* Threads in any interleaving: an attempt is refused exactly when its own
   thread has an open block. *)
Theorem C34_threads : forall net l r, schedule net (fun _ => []) l r ->
  fst (csteps net l (mkC (fun _ => None) (fun _ => None))) = r.
Proof. exact schedule_told. Qed.
Print Assumptions C34_threads.

(* Every connection of every pool the adapter makes without a proxy refuses to
   connect while the context is set, wherever and whenever it was made, and
   touches no network. *)
Theorem C34_adapter_partial : forall base scheme mk host arg p c t1 s1 s1' n1 t2 s2 s2' n2 t s,
  dict_get str_eqb scheme (direct (create_request_adapter base)) = Some mk ->
  mk host t1 s1 = (Ok p, s1', n1) -> ConnectionCls p arg t2 s2 = (Ok c, s2', n2) ->
  cv s t <> None -> connect c tt t s = (Err NewConnectionDisabled, s, []).
Proof. exact direct_refused. Qed.
Print Assumptions C34_adapter_partial.
(* and otherwise does what the classes of urllib3 do *)
Theorem C34_adapter_same : forall base scheme host arg t s,
  (forall mk host t s r s' n, dict_get str_eqb scheme base = Some mk -> mk host t s = (r, s', n) -> cv s' t = cv s t) ->
  (forall mk host t s p s' n arg t2 s2 r s2' n2, dict_get str_eqb scheme base = Some mk -> mk host t s = (Ok p, s', n) ->
     ConnectionCls p arg t2 s2 = (r, s2', n2) -> cv s2' t2 = cv s2 t2) ->
  cv s t = None ->
  open_connection (direct (create_request_adapter base)) scheme host arg t s = open_connection base scheme host arg t s.
Proof. exact direct_allowed. Qed.
Print Assumptions C34_adapter_same.

Definition C34_base : schemes :=
  [(lit "http", fun _ => aret (mkCPool (fun _ => aret (mkConn (fun _ _ s => (Ok tt, s, [80%N]))))));
   (lit "https", fun _ => aret (mkCPool (fun _ => aret (mkConn (fun _ _ s => (Ok tt, s, [443%N]))))))].
Definition C34_none : cstate := mkC (fun _ => None) (fun _ => None).
Example C34_case :
  (let p := Then (Guarded (Within 1 (Then (Guarded (Attempt 5) Skip) (Within 2 (Fail OtherError)))) (Attempt 6)) (Within 1 (Attempt 7)) in
   separate [] p /\ means (fun _ => Ok tt) false p = (Err NewConnectionDisabled, [6%N])) /\
  schedule (fun _ => Ok tt) (fun _ => [])
    [(0%nat, CEnter 1); (1%nat, CAttempt 5); (0%nat, CAttempt 6); (1%nat, CEnter 2); (0%nat, CLeave 1); (0%nat, CAttempt 7); (1%nat, CAttempt 8); (1%nat, CLeave 2)]
    [(Ok tt, []); (Ok tt, [5%N]); (Err NewConnectionDisabled, []); (Ok tt, []); (Ok tt, []); (Ok tt, [7%N]); (Err NewConnectionDisabled, []); (Ok tt, [])] /\
  (let '(r, _, n) := open_connection (direct (create_request_adapter C34_base)) (lit "https") [] [] 0%nat C34_none in (r, n)) = (Ok tt, [443%N]) /\
  (let '(r, _, n) := open_connection (direct (create_request_adapter C34_base)) (lit "https") [] [] 0%nat (enter 0 1 C34_none) in (r, n)) = (Err NewConnectionDisabled, []).
Proof.
  split; [split; [cbn; intuition congruence|reflexivity]|]. split; [|split; reflexivity].
  repeat first [apply SDone | apply SEnter; [intros [|[|t]]; cbn; intuition congruence|] | eapply SLeave; [reflexivity|] | apply SRefused; [discriminate|] | apply SAllowed; [reflexivity|]].
Qed.

(* False without [separate]: an object whose block is entered inside its own
   block has lost the outer token, leaving the outer block raises
   AttributeError, and connections stay disabled for good. *)
Theorem C34_reentered_refuted : exists net i p t s,
  cv s t = None /\ fst (fst (run net (Within i p) t s)) = Err AttributeError /\
  fst (fst (run net (Attempt 5) t (snd (fst (run net (Within i p) t s))))) = Err NewConnectionDisabled.
Proof. exists (fun _ => Ok tt), 1%nat, (Within 1 Skip), 0%nat, C34_none. repeat split. Qed.
Print Assumptions C34_reentered_refuted.

(* False through a proxy: those connections come from a pool manager that the
   adapter does not change, so they are made inside a block as well. *)
Theorem C34_proxy_refuted : exists base scheme t s,
  cv s t <> None /\
  exists s', open_connection (proxied (create_request_adapter base)) scheme [] [] t s = (Ok tt, s', [443%N]).
Proof. exists C34_base, (lit "https"), 0%nat, (enter 0 1 C34_none). split; [discriminate|]. eexists. reflexivity. Qed.
Print Assumptions C34_proxy_refuted.
