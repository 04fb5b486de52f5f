(* Lemmas about the context that disables connections. *)
From Verif Require Import Base BaseProofs ConnModel ConnSpec.
Require Import Lia ZifyBool ZifyNat ZifyN.

Lemma put_same {A} k (v : A) f : put k v f k = v.
Proof. unfold put. now rewrite Nat.eqb_refl. Qed.
Lemma put_other {A} k k' (v : A) f : k' <> k -> put k v f k' = f k'.
Proof. intros D. unfold put. destruct (Nat.eqb_spec k' k); [contradiction|reflexivity]. Qed.

Section P.
  Context (net : N -> res unit).

  Lemma attempt_means c t s :
    attempt net c t s = (fst (means net (if cv s t then true else false) (Attempt c)), s, snd (means net (if cv s t then true else false) (Attempt c))).
  Proof.
    unfold attempt, wrap, guard, abind. destruct (cv s t) as [i|]; cbn [means fst snd]; [reflexivity|]. cbn.
    destruct (net c); [reflexivity|reflexivity].
  Qed.

  Lemma run_means p : forall open t s, separate open p ->
    exists s', run net p t s =
      (fst (means net (if cv s t then true else false) p), s', snd (means net (if cv s t then true else false) p)) /\
      (forall t', cv s' t' = cv s t') /\ (forall i, In i open -> tok s' i = tok s i).
  Proof.
    induction p as [|c|e|p IHp q IHq|i p IHp|p IHp q IHq]; intros open t s W.
    - exists s. cbn. auto.
    - exists s. cbn [run]. rewrite attempt_means. auto.
    - exists s. cbn. auto.
    - destruct W as [Wp Wq]. destruct (IHp open t s Wp) as (s1 & R1 & C1 & T1).
      cbn [run means]. unfold abind. rewrite R1. destruct (means net (if cv s t then true else false) p) as [r n]. cbn [fst snd].
      destruct r as [u|e]; [|exists s1; auto].
      destruct (IHq open t s1 Wq) as (s2 & R2 & C2 & T2). rewrite R2, C1.
      destruct (means net (if cv s t then true else false) q) as [r' n']. cbn [fst snd].
      exists s2. split; [reflexivity|]. split; intros x; [rewrite C2; apply C1|intros I; rewrite T2 by exact I; apply T1, I].
    - destruct W as [Wi Wp]. cbn [run means].
      destruct (IHp (i :: open) t (enter t i s) Wp) as (s1 & R1 & C1 & T1). rewrite R1.
      assert (Ce : cv (enter t i s) t = Some i) by (cbn; apply put_same). rewrite Ce.
      assert (Te : tok s1 i = Some (t, cv s t)) by (rewrite T1 by (left; reflexivity); cbn; apply put_same).
      unfold leave. rewrite Te, Nat.eqb_refl.
      exists (mkC (put t (cv s t) (cv s1)) (put i None (tok s1))). split; [reflexivity|]. cbn [cv tok]. split.
      + intros t'. destruct (Nat.eq_dec t' t) as [->|D]; [apply put_same|]. rewrite put_other by exact D. rewrite C1. cbn. now apply put_other.
      + intros j J. assert (j <> i) by (intros ->; contradiction). rewrite put_other by assumption. rewrite T1 by (right; exact J). cbn. now apply put_other.
    - destruct W as [Wp Wq]. destruct (IHp open t s Wp) as (s1 & R1 & C1 & T1).
      cbn [run means]. rewrite R1. destruct (means net (if cv s t then true else false) p) as [r n]. cbn [fst snd].
      destruct r as [u|e]; [exists s1; auto|].
      destruct (IHq open t s1 Wq) as (s2 & R2 & C2 & T2). rewrite R2, C1.
      destruct (means net (if cv s t then true else false) q) as [r' n']. cbn [fst snd].
      exists s2. split; [reflexivity|]. split; intros x; [rewrite C2; apply C1|intros I; rewrite T2 by exact I; apply T1, I].
  Qed.

  (* nothing inside a block touches the network *)
  Lemma means_disabled p : snd (means net true p) = [].
  Proof.
    induction p as [| | |p IHp q IHq|i p IHp|p IHp q IHq]; cbn [means]; auto.
    - destruct (means net true p) as [[u|e] n]; destruct (means net true q) as [r' n']; cbn [snd] in *; subst; reflexivity.
    - destruct (means net true p) as [[u|e] n]; destruct (means net true q) as [r' n']; cbn [snd] in *; subst; reflexivity.
  Qed.

  Lemma block_scoped open i p t s : separate open (Within i p) ->
    exists s', run net (Within i p) t s = (fst (means net true p), s', []) /\
      forall q t', separate open q ->
        fst (fst (run net q t' s')) = fst (fst (run net q t' s)) /\ snd (run net q t' s') = snd (run net q t' s).
  Proof.
    intros W. destruct (run_means _ _ t s W) as (s' & R & C & T). cbn [means] in R. rewrite means_disabled in R.
    exists s'. split; [exact R|]. intros q t' Wq.
    destruct (run_means q open t' s' Wq) as (a & Ra & _). destruct (run_means q open t' s Wq) as (b & Rb & _).
    rewrite Ra, Rb, C. cbn [fst snd]. auto.
  Qed.

  (* ---- threads ---- *)
  (* the tokens of the open blocks of a thread restore the next one *)
  Fixpoint chained (s : cstate) (t : nat) (l : list nat) : Prop :=
    match l with
    | [] => True
    | i :: rest => tok s i = Some (t, match rest with [] => None | j :: _ => Some j end) /\ chained s t rest
    end.
  Definition holds (o : nat -> list nat) (s : cstate) : Prop :=
    (forall t, cv s t = match o t with [] => None | i :: _ => Some i end) /\ (forall t, chained s t (o t)) /\
    (forall t, NoDup (o t)) /\ (forall t t' i, In i (o t) -> In i (o t') -> t = t').

  Lemma chained_ext s s' t l : (forall i, In i l -> tok s' i = tok s i) -> chained s t l -> chained s' t l.
  Proof.
    induction l as [|i l IH]; intros E H; [exact I|]. destruct H as [H1 H2]. split; [rewrite E by (left; reflexivity); exact H1|].
    apply IH; [intros; apply E; right; assumption|exact H2].
  Qed.

  Lemma schedule_runs o l r : schedule net o l r -> forall s, holds o s -> fst (csteps net l s) = r.
  Proof.
    intros S. induction S as [o|o t i l r F S IH|o t i rest l r E S IH|o t c l r E S IH|o t c l r E S IH]; intros s (C & T & D & U).
    - reflexivity.
    - cbn [csteps cstep]. specialize (IH (enter t i s)). destruct (csteps net l (enter t i s)) as [rs s2]. cbn [fst] in *. f_equal. apply IH.
      repeat split.
      + intros t'. cbn. destruct (Nat.eq_dec t' t) as [->|N]; [rewrite !put_same; reflexivity|rewrite !put_other by exact N; apply C].
      + intros t'. destruct (Nat.eq_dec t' t) as [->|N].
        * rewrite put_same. cbn [chained]. split; [cbn; rewrite put_same, C; reflexivity|].
          apply (chained_ext s); [|apply T]. intros j J. cbn. apply put_other. intros ->. exact (F t J).
        * rewrite put_other by exact N. apply (chained_ext s); [|apply T]. intros j J. cbn. apply put_other. intros ->. exact (F t' J).
      + intros t'. destruct (Nat.eq_dec t' t) as [->|N]; [rewrite put_same; constructor; auto|rewrite put_other by exact N; apply D].
      + intros a b j Ja Jb. destruct (Nat.eq_dec a t) as [->|Na]; destruct (Nat.eq_dec b t) as [->|Nb]; try reflexivity.
        * rewrite put_same in Ja. rewrite put_other in Jb by exact Nb. destruct Ja as [->|Ja]; [exfalso; exact (F b Jb)|exact (U _ _ _ Ja Jb)].
        * rewrite put_same in Jb. rewrite put_other in Ja by exact Na. destruct Jb as [->|Jb]; [exfalso; exact (F a Ja)|exact (U _ _ _ Ja Jb)].
        * rewrite put_other in Ja by exact Na. rewrite put_other in Jb by exact Nb. exact (U _ _ _ Ja Jb).
    - pose proof (T t) as Tt. rewrite E in Tt. cbn [chained] in Tt. destruct Tt as [T1 T2].
      pose proof (D t) as Dt. rewrite E in Dt. apply NoDup_cons_iff in Dt. destruct Dt as [D1 D2].
      cbn [csteps cstep]. unfold leave. rewrite T1, Nat.eqb_refl.
      set (s1 := mkC _ _). specialize (IH s1). destruct (csteps net l s1) as [rs s2]. cbn [fst] in *. f_equal. apply IH.
      repeat split.
      + intros t'. cbn. destruct (Nat.eq_dec t' t) as [->|N]; [rewrite !put_same; reflexivity|rewrite !put_other by exact N; apply C].
      + intros t'. destruct (Nat.eq_dec t' t) as [->|N].
        * rewrite put_same. apply (chained_ext s); [|exact T2]. intros j J. cbn. apply put_other. intros ->. contradiction.
        * rewrite put_other by exact N. apply (chained_ext s); [|apply T]. intros j J. cbn. apply put_other. intros ->. apply N. apply (U t' t i J). rewrite E. left. reflexivity.
      + intros t'. destruct (Nat.eq_dec t' t) as [->|N]; [rewrite put_same; exact D2|rewrite put_other by exact N; apply D].
      + intros a b j Ja Jb. apply (U a b j).
        * destruct (Nat.eq_dec a t) as [->|Na]; [rewrite put_same in Ja; rewrite E; right; exact Ja|rewrite put_other in Ja by exact Na; exact Ja].
        * destruct (Nat.eq_dec b t) as [->|Nb]; [rewrite put_same in Jb; rewrite E; right; exact Jb|rewrite put_other in Jb by exact Nb; exact Jb].
    - cbn [csteps cstep]. rewrite attempt_means, C. destruct (o t) as [|j rest]; [contradiction|]. cbn [means fst snd].
      specialize (IH s). destruct (csteps net l s) as [rs s2]. cbn [fst] in *. f_equal. apply IH. repeat split; auto.
    - cbn [csteps cstep]. rewrite attempt_means, C, E. cbn [means fst snd].
      specialize (IH s). destruct (csteps net l s) as [rs s2]. cbn [fst] in *. f_equal. apply IH. repeat split; auto.
  Qed.

  Lemma fresh_holds : holds (fun _ => []) (mkC (fun _ => None) (fun _ => None)).
  Proof. repeat split; cbn; auto; try constructor. intros t t' i []. Qed.
  Lemma schedule_told l r : schedule net (fun _ => []) l r -> fst (csteps net l (mkC (fun _ => None) (fun _ => None))) = r.
  Proof. intros S. exact (schedule_runs _ _ _ S _ fresh_holds). Qed.
End P.

(* ---- the adapter ---- *)
Lemma direct_get base scheme : dict_get str_eqb scheme (direct (create_request_adapter base)) =
  option_map (wrap None (Some guard_pool)) (dict_get str_eqb scheme base).
Proof.
  cbn [create_request_adapter direct]. induction base as [|[k f] base IH]; [reflexivity|]. cbn [map fst snd dict_get].
  destruct (str_eqb scheme k); [reflexivity|exact IH].
Qed.

(* connecting is guarded in every thread and state it is tried in *)
Lemma direct_refused base scheme mk host arg p c t1 s1 s1' n1 t2 s2 s2' n2 t s :
  dict_get str_eqb scheme (direct (create_request_adapter base)) = Some mk ->
  mk host t1 s1 = (Ok p, s1', n1) -> ConnectionCls p arg t2 s2 = (Ok c, s2', n2) ->
  cv s t <> None -> connect c tt t s = (Err NewConnectionDisabled, s, []).
Proof.
  rewrite direct_get. destruct (dict_get str_eqb scheme base) as [f|]; [|discriminate]. cbn [option_map]. intros M P C D.
  apply Some_inj in M. subst mk. unfold wrap, abind, aret, guard_pool in P. destruct (f host t1 s1) as [[[p0|e0] s0] n0]; [|discriminate P].
  assert (Ep : p = mkCPool (wrap None (Some guard_connection) (ConnectionCls p0))) by (cbn in P; congruence). subst p.
  cbn [ConnectionCls] in C. unfold wrap, abind, aret, guard_connection in C. destruct (ConnectionCls p0 arg t2 s2) as [[[c0|e0'] sc] nc]; [|discriminate C].
  assert (Ec : c = mkConn (wrap (Some guard) None (connect c0))) by (cbn in C; congruence). subst c.
  cbn [connect]. unfold wrap, abind, guard. destruct (cv s t); [reflexivity|contradiction].
Qed.

(* outside a block the adapter's connections do what the module's do *)
Lemma direct_allowed base scheme host arg t s :
  (forall mk host t s r s' n, dict_get str_eqb scheme base = Some mk -> mk host t s = (r, s', n) -> cv s' t = cv s t) ->
  (forall mk host t s p s' n arg t2 s2 r s2' n2, dict_get str_eqb scheme base = Some mk -> mk host t s = (Ok p, s', n) ->
     ConnectionCls p arg t2 s2 = (r, s2', n2) -> cv s2' t2 = cv s2 t2) ->
  cv s t = None ->
  open_connection (direct (create_request_adapter base)) scheme host arg t s = open_connection base scheme host arg t s.
Proof.
  intros K1 K2 D. unfold open_connection. rewrite direct_get. revert K1 K2. unfold schemes, act in *. generalize (dict_get str_eqb scheme base).
  intros [f|] K1 K2; [|reflexivity]. cbn [option_map]. unfold wrap at 1, guard_pool, abind, aret. destruct (f host t s) as [[[p|e] s1] n1] eqn:F; [|cbn; reflexivity].
  cbn [ConnectionCls app]. unfold wrap, guard_connection, abind, aret. destruct (ConnectionCls p arg t s1) as [[[c|e] s2] n2] eqn:G; [|cbn; rewrite ?app_nil_r; reflexivity].
  cbn [connect app]. unfold guard.
  assert (C : cv s2 t = None) by (rewrite (K2 f host t s p s1 n1 arg t s1 _ _ _ eq_refl F G), (K1 f host t s _ _ _ eq_refl F); exact D).
  unfold wrap, abind. rewrite C. destruct (connect c tt t s2) as [[[u|e] s3] n3]; cbn; rewrite ?app_nil_r; reflexivity.
Qed.
