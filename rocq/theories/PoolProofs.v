(* Reasoning about the effects of PoolModel. *)
From Verif Require Import Base BaseProofs Lit NumModel TextModel XmlModel WsmanModel ShellModel FragModel MsgModel UtilModel TransModel PoolModel.

Notation "x <-- a ;; b" := (mbind a (fun x => b)) (at level 61, a at next level, right associativity).
Notation "a ;;; b" := (mbind a (fun _ => b)) (at level 61, right associativity).

Section Steps.
  Context {Obj Cmd HS RK : Type} (E : env Obj Cmd HS RK).
  Notation world := (world Obj Cmd HS RK).
  Notation M A := (world -> out A * world).

  Lemma mbind_ret {A B} (a : M A) (f : A -> M B) w x w' :
    mbind a f w = (Ret x, w') -> exists y w1, a w = (Ret y, w1) /\ f y w1 = (Ret x, w').
  Proof.
    unfold mbind. destruct (a w) as [[y | y] w1]; intros H; [eauto|].
    exfalso. assert (K : fst (@Raise B y, w1) = fst (Ret x, w')) by (rewrite H; reflexivity). discriminate K.
  Qed.
  Lemma mbind_some {A B} (a : M A) (f : A -> M B) w y w1 : a w = (Ret y, w1) -> mbind a f w = f y w1.
  Proof. unfold mbind. intros ->. reflexivity. Qed.
  Lemma mbind_raise {A B} (a : M A) (f : A -> M B) w y w1 : a w = (Raise y, w1) -> mbind a f w = (Raise y, w1).
  Proof. unfold mbind. intros ->. reflexivity. Qed.

  Lemma mbind_get {A B} (f : world -> A) (k : A -> M B) w : mbind (get f) k w = k (f w) w.
  Proof. reflexivity. Qed.
  Lemma mbind_getp {A B} f (k : A -> M B) w : mbind (getp f) k w = k (f (w_pool w)) w.
  Proof. reflexivity. Qed.
  Lemma mbind_getps {A B} r f (k : A -> M B) w : mbind (getps r f) k w = k (f (the_ps r w)) w.
  Proof. reflexivity. Qed.
  Lemma mbind_upd {B} f (k : unit -> M B) w : mbind (upd f) k w = k tt (f w).
  Proof. reflexivity. Qed.
  Lemma mbind_updp {B} f (k : unit -> M B) w : mbind (updp f) k w = k tt (set_w_pool (f (w_pool w)) w).
  Proof. reflexivity. Qed.
  Lemma mbind_updps {B} r f (k : unit -> M B) w : mbind (updps r f) k w = k tt (set_w_heap (list_upd r f (w_heap w)) w).
  Proof. reflexivity. Qed.
  Lemma mbind_observe {B} e (k : unit -> M B) w : mbind (observe e) k w = k tt (set_w_log (w_log w ++ [e]) w).
  Proof. reflexivity. Qed.
  Lemma mbind_retm {A B} (a : A) (k : A -> M B) w : mbind (ret a) k w = k a w.
  Proof. reflexivity. Qed.
  Lemma mbind_ok {A B} (a : A) (k : A -> M B) w : mbind (lift (Ok a)) k w = k a w.
  Proof. reflexivity. Qed.

  (* ---- a reflexive and transitive relation kept by every step ---- *)
  Section Rel.
    Context (R : world -> world -> Prop) (Rrefl : forall w, R w w) (Rtrans : forall a b c, R a b -> R b c -> R a c).
    Definition steps {A} (m : M A) : Prop := forall w, R w (snd (m w)).
    Lemma steps_ret {A} (a : A) : steps (ret a).
    Proof. intros w. apply Rrefl. Qed.
    Lemma steps_fail {A} x : steps (@fail _ _ _ _ A x).
    Proof. intros w. apply Rrefl. Qed.
    Lemma steps_throw {A} x : steps (@throw _ _ _ _ A x).
    Proof. intros w. apply Rrefl. Qed.
    Lemma steps_get {A} (f : world -> A) : steps (get f).
    Proof. intros w. apply Rrefl. Qed.
    Lemma steps_getp {A} f : steps (@getp _ _ _ _ A f).
    Proof. intros w. apply Rrefl. Qed.
    Lemma steps_getps {A} r f : steps (@getps _ _ _ _ A r f).
    Proof. intros w. apply Rrefl. Qed.
    Lemma steps_lift {A} (r : res A) : steps (lift r).
    Proof. destruct r; intros w; apply Rrefl. Qed.
    Lemma steps_bind {A B} (a : M A) (f : A -> M B) : steps a -> (forall x, steps (f x)) -> steps (mbind a f).
    Proof.
      intros Ha Hf w. unfold mbind. specialize (Ha w). destruct (a w) as [[y | y] w1]; [|exact Ha].
      eapply Rtrans; [exact Ha|apply Hf].
    Qed.
    Lemma steps_each {A} (f : A -> M unit) l : (forall x, steps (f x)) -> steps (each f l).
    Proof. intros Hf. induction l as [|x l IH]; [apply steps_ret|]. cbn [each]. apply steps_bind; auto. Qed.
    Lemma steps_upd f : (forall w, R w (f w)) -> steps (upd f).
    Proof. intros H w. apply H. Qed.

    (* ---- receiving, from what it is made of ---- *)
    Context (Hhandle : forall pl m, steps (handle E pl m))
            (Hreceiver : forall rc, steps (updp (set_rp_receiver rc)))
            (Hrequest : forall cid t, steps (on_shell E (fun srv => shell_receive srv (lit "stdout") cid t))).
    Lemma steps_parse data pl : steps (parse_responses E data pl).
    Proof.
      unfold parse_responses. apply steps_bind; [apply steps_getp|intros rc]. apply steps_bind; [apply steps_getp|intros c].
      destruct (defragment rc data) as [rc' r]. apply steps_bind; [apply Hreceiver|intros _].
      apply steps_bind; [apply steps_lift|intros bs]. apply steps_bind; [apply steps_lift|intros ms].
      apply steps_bind; [apply steps_each; intros; apply Hhandle|intros _; apply steps_ret].
    Qed.
    Lemma steps_receive id t : steps (receive E id t).
    Proof.
      unfold receive. apply steps_bind; [apply steps_getp|intros reg].
      set (pl := match id with Some (c :: s) => dict_get str_eqb (c :: s) reg | _ => None end).
      apply steps_bind; [destruct pl; [apply steps_getps|apply steps_ret]|intros cid].
      apply steps_bind; [apply Hrequest|intros b].
      destruct (dict_get str_eqb (lit "stdout") (snd b)); [apply steps_parse|apply steps_throw].
    Qed.
    Lemma steps_receive_until fuel done : steps (receive_until E fuel done).
    Proof.
      induction fuel as [|fuel IH]; intros w; cbn [receive_until]; destruct (done w); try apply Rrefl.
      apply (steps_bind (receive E None None) (fun _ => receive_until E fuel done)); [apply steps_receive|intros _; exact IH].
    Qed.
    Lemma steps_key_wait fuel start : steps (key_wait E fuel start).
    Proof.
      induction fuel as [|fuel IH]; intros w; cbn [key_wait]; destruct (rp_exchanged (w_pool w)); try apply Rrefl;
        destruct (Z.ltb (rp_key_timeout (w_pool w)) (ev_clock E (w_hist w) - start)); try apply Rrefl.
      apply (steps_bind (receive E None None) (fun _ => key_wait E fuel start)); [apply steps_receive|intros _; exact IH].
    Qed.
    Context (Houtput : forall r f, (forall p, exists l, f p = set_ps_output (ps_output p ++ l) p) -> steps (updps r f)).
    Lemma steps_poll r t : steps (poll_invoke E r t).
    Proof.
      intros w. unfold poll_invoke. pose proof (steps_receive (Some (ps_id (the_ps r w))) t w) as H.
      destruct (receive E (Some (ps_id (the_ps r w))) t w) as [[ms | x] w1]; cbn [snd] in H.
      - eapply Rtrans; [exact H|]. apply (Houtput r); eauto.
      - destruct (is_code x operation_timeout); exact H.
    Qed.
    Lemma steps_end fuel r : steps (end_invoke E fuel r).
    Proof.
      induction fuel as [|fuel IH]; intros w; cbn [end_invoke]; destruct (negb (Z.eqb (ps_state (the_ps r w)) pl_running)); try apply Rrefl.
      apply (steps_bind (poll_invoke E r None) (fun _ => end_invoke E fuel r)); [apply steps_poll|intros _; exact IH].
    Qed.
  End Rel.
End Steps.

(* cut a computation into its steps *)
Ltac walk1 :=
  match goal with
  | |- steps _ (ret _) => apply steps_ret
  | |- steps _ (fail _) => apply steps_fail
  | |- steps _ (throw _) => apply steps_throw
  | |- steps _ (get _) => apply steps_get
  | |- steps _ (getp _) => apply steps_getp
  | |- steps _ (getps _ _) => apply steps_getps
  | |- steps _ (lift _) => apply steps_lift
  | |- steps _ (mbind _ _) => apply steps_bind; [| |intros ?]
  | |- steps _ (each _ _) => apply steps_each; [| |intros ?]
  | |- steps _ (if ?b then _ else _) => destruct b
  | |- steps _ (match ?x with _ => _ end) => destruct x
  | |- steps _ (let '(_, _) := ?x in _) => destruct x
  end.
