(* Runspace limits (C24). *)
From Verif Require Import Base BaseProofs Lit NumModel TextModel XmlModel WsmanModel ShellModel ShellSpec FragModel MsgModel UtilModel TransModel PoolModel PoolSpec PoolProofs PoolProofs2 PoolProofs3 PoolProofs4 PoolProofs5.
Require Import Lia ZifyBool ZifyNat ZifyN.

Section Runs.
  Context {Obj Cmd HS RK : Type} (E : env Obj Cmd HS RK).
  Notation world := (world Obj Cmd HS RK).
  Notation event := (event Obj Cmd).
  Notation M A := (world -> out A * world).

  (* relations that also see how a computation ended *)
  Definition err {A} (r : out A) : option raised := match r with Ret _ => None | Raise x => Some x end.
  Section Rel.
    Context (Q : world -> option raised -> world -> Prop).
    Context (trans : forall a b e c, Q a None b -> Q b e c -> Q a e c).
    Context (still : forall w e, Q w e w).
    Definition runs {A} (m : M A) : Prop := forall w, Q w (err (fst (m w))) (snd (m w)).
    Lemma runs_ret {A} (a : A) : runs (ret a). Proof. intros w. apply still. Qed.
    Lemma runs_throw {A} x : runs (@throw _ _ _ _ A x). Proof. intros w. apply still. Qed.
    Lemma runs_getp {A} f : runs (@getp _ _ _ _ A f). Proof. intros w. apply still. Qed.
    Lemma runs_getps {A} r f : runs (@getps _ _ _ _ A r f). Proof. intros w. apply still. Qed.
    Lemma runs_lift {A} (r : res A) : runs (lift r). Proof. destruct r; intros w; apply still. Qed.
    Lemma runs_bind {A B} (a : M A) (f : A -> M B) : runs a -> (forall x, runs (f x)) -> runs (mbind a f).
    Proof.
      intros Ha Hf w. unfold mbind. specialize (Ha w). destruct (a w) as [[y | y] w1]; cbn [err fst snd] in Ha |- *; [|exact Ha].
      eapply trans; [exact Ha|]. apply Hf.
    Qed.
    Lemma runs_each {A} (f : A -> M unit) l : (forall x, runs (f x)) -> runs (each f l).
    Proof. intros Hf. induction l as [|x l IH]; [apply runs_ret|]. cbn [each]. apply runs_bind; auto. Qed.
    Context (Hhandle : forall pl m, runs (handle E pl m)) (Hreceiver : forall rc, runs (updp (set_rp_receiver rc)))
            (Hrequest : forall cid t, runs (on_shell E (fun srv => shell_receive srv (lit "stdout") cid t))).
    Lemma runs_parse data pl : runs (parse_responses E data pl).
    Proof.
      unfold parse_responses. apply runs_bind; [apply runs_getp|intros rc]. apply runs_bind; [apply runs_getp|intros c].
      destruct (defragment rc data) as [rc' r]. apply runs_bind; [apply Hreceiver|intros _].
      apply runs_bind; [apply runs_lift|intros bs]. apply runs_bind; [apply runs_lift|intros ms].
      apply runs_bind; [apply runs_each; intros; apply Hhandle|intros _; apply runs_ret].
    Qed.
    Lemma runs_receive id t : runs (receive E id t).
    Proof.
      unfold receive. apply runs_bind; [apply runs_getp|intros reg].
      set (pl := match id with Some (c :: s) => dict_get str_eqb (c :: s) reg | _ => None end).
      apply runs_bind; [destruct pl; [apply runs_getps|apply runs_ret]|intros cid].
      apply runs_bind; [apply Hrequest|intros b].
      destruct (dict_get str_eqb (lit "stdout") (snd b)); [apply runs_parse|apply runs_throw].
    Qed.
    Lemma runs_until fuel done : runs (receive_until E fuel done).
    Proof.
      induction fuel as [|fuel IH]; intros w; cbn [receive_until]; destruct (done w); try apply still.
      apply (runs_bind (receive E None None) (fun _ => receive_until E fuel done)); [apply runs_receive|intros _; exact IH].
    Qed.
  End Rel.

  Lemma dict_get_zset (ci ci' : Z) (v : slot) d :
    dict_get Z.eqb ci (dict_set Z.eqb ci' v d) = if Z.eqb ci ci' then Some v else dict_get Z.eqb ci d.
  Proof.
    induction d as [|[k x] d IH]; cbn [dict_set dict_get].
    - destruct (Z.eqb_spec ci ci'); reflexivity.
    - destruct (Z.eqb_spec ci' k) as [-> |N]; cbn [dict_get].
      + destruct (Z.eqb_spec ci k); reflexivity.
      + destruct (Z.eqb_spec ci k) as [-> |N2].
        * destruct (Z.eqb_spec k ci'); [congruence|reflexivity].
        * exact IH.
  Qed.
  Lemma answers_to_app ci (l l' : list event) : answers_to E ci (l ++ l') = answers_to E ci l ++ answers_to E ci l'.
  Proof. apply flat_map_app. Qed.
  Lemma answers_answer ci l : Forall (answers (Obj := Obj) (Cmd := Cmd)) l -> answers_to E ci l = [].
  Proof. intros F. induction F as [|e l A F IH]; [reflexivity|]. cbn [answers_to flat_map]. fold (answers_to E ci l). rewrite IH. destruct e; [destruct A|reflexivity|reflexivity]. Qed.

  Section Call.
    Context (ci : Z) (k : handler) (Hk : k <> HAvailable).
    Definition initial (l : list event) : Prop := exists pl m o, In (EMsg pl m) l /\ carries RUNSPACEPOOL_INIT_DATA m o.
    Definition other_available (l : list event) : Prop := exists pl m o, In (EMsg pl m) l /\ carries RUNSPACE_AVAILABILITY m o /\ fst (ev_availability E o) <> ci.
    Definition awaits (w : world) (e : option raised) (w' : world) : Prop :=
      exists l, since w w' l /\ call_ids l = [] /\
        (rp_min (w_pool w') = rp_min (w_pool w) \/ initial l) /\
        ((slot_of ci w = Some (SHandler k) \/ exists v, slot_of ci w = Some (SValue v)) ->
           rp_max (w_pool w') = rp_max (w_pool w) \/ initial l \/ other_available l) /\
        (slot_of ci w = Some (SHandler k) ->
           (answers_to E ci l = [] /\ slot_of ci w' = Some (SHandler k)) \/
           (exists v, answers_to E ci l = [v] /\ rfalsy v = false /\ slot_of ci w' = Some (SValue v)) \/
           (exists v, answers_to E ci l = [v] /\ rfalsy v = true /\ slot_of ci w' = Some (SHandler k) /\ e = Some (XExn InvalidPSRPOperation)) \/
           (exists v v2, answers_to E ci l = [v; v2] /\ rfalsy v = false /\ slot_of ci w' = Some (SValue v) /\ e = Some (XExn TypeError))) /\
        (forall v, slot_of ci w = Some (SValue v) -> slot_of ci w' = Some (SValue v) /\
           (answers_to E ci l = [] \/ exists v2, answers_to E ci l = [v2] /\ e = Some (XExn TypeError))).
    Lemma awaits_silent w e w' : w_log w' = w_log w -> rp_table (w_pool w') = rp_table (w_pool w) ->
      rp_min (w_pool w') = rp_min (w_pool w) -> rp_max (w_pool w') = rp_max (w_pool w) -> awaits w e w'.
    Proof.
      intros L T A B. exists []. split; [unfold since; rewrite app_nil_r; exact L|]. unfold slot_of. rewrite T.
      split; [reflexivity|]. split; [auto|]. split; [auto|]. split; [intros H; left; auto|]. intros v H. split; [exact H|left; reflexivity].
    Qed.
    Lemma initial_app l l' : initial l \/ initial l' -> initial (l ++ l').
    Proof. intros [[pl [m [o [I C]]]]|[pl [m [o [I C]]]]]; exists pl, m, o; (split; [apply in_or_app; auto|exact C]). Qed.
    Lemma other_app l l' : other_available l \/ other_available l' -> other_available (l ++ l').
    Proof. intros [[pl [m [o [I C]]]]|[pl [m [o [I C]]]]]; exists pl, m, o; (split; [apply in_or_app; auto|exact C]). Qed.
    Lemma awaits_trans a b e c : awaits a None b -> awaits b e c -> awaits a e c.
    Proof.
      intros [l1 [L1 [I1 [M1 [X1 [H1 V1]]]]]] [l2 [L2 [I2 [M2 [X2 [H2 V2]]]]]]. exists (l1 ++ l2).
      split; [eapply since_trans; eauto|]. rewrite call_ids_app, I1, I2, answers_to_app. split; [reflexivity|].
      split; [|split; [|split]].
      - destruct M2 as [M2|M2]; [destruct M1 as [M1|M1]; [left; congruence|right; apply initial_app; auto]|right; apply initial_app; auto].
      - intros S. assert (S2 : slot_of ci b = Some (SHandler k) \/ exists v, slot_of ci b = Some (SValue v)).
        { destruct S as [S|[v S]].
          - destruct (H1 S) as [[_ K]|[[v [_ [_ K]]]|[[v [_ [_ [K _]]]]|[v [v2 [_ [_ [K _]]]]]]]]; eauto.
          - destruct (V1 v S) as [K _]. eauto. }
        destruct (X2 S2) as [Y2|[Y2|Y2]]; [destruct (X1 S) as [Y1|[Y1|Y1]]; [left; congruence|right; left; apply initial_app; auto|right; right; apply other_app; auto]|right; left; apply initial_app; auto|right; right; apply other_app; auto].
      - intros S. destruct (H1 S) as [[A K]|[[v [A [F K]]]|[[v [_ [_ [_ C]]]]|[v [v2 [_ [_ [_ C]]]]]]]]; try discriminate C.
        + rewrite A. cbn [app]. exact (H2 K).
        + rewrite A. cbn [app]. destruct (V2 v K) as [K2 [A2|[v2 [A2 Ee]]]]; rewrite A2.
          * right. left. exists v. auto.
          * right. right. right. exists v, v2. auto.
      - intros v S. destruct (V1 v S) as [K [A|[v2 [_ C]]]]; [|discriminate C]. rewrite A. cbn [app]. exact (V2 v K).
    Qed.
    Lemma awaits_handle pl m : runs awaits (handle E pl m).
    Proof.
      intros w. pose proof (handle_effect E pl m w) as [F [l [L [A _]]] _ _ T Mn Mx _ _].
      assert (AT : answers_to E ci (EMsg pl m :: l) = answers_to E ci [EMsg pl m]).
      { change (EMsg pl m :: l) with ([EMsg pl m] ++ l). rewrite answers_to_app, (answers_answer ci l A), app_nil_r. reflexivity. }
      exists (EMsg pl m :: l). split; [exact L|]. rewrite AT.
      split. { change (EMsg pl m :: l) with ([EMsg pl m] ++ l). rewrite call_ids_app, (answers_ids l A). reflexivity. }
      split. { destruct Mn as [Mn|[o [C _]]]; [left; exact Mn|right; exists pl, m, o; split; [left; reflexivity|exact C]]. }
      split.
      { intros S. destruct Mx as [Mx|[[o [C _]]|[o [ci' [v [C [Av [G _]]]]]]]]; [left; exact Mx|right; left; exists pl, m, o; split; [left; reflexivity|exact C]|].
        right; right. exists pl, m, o. split; [left; reflexivity|]. split; [exact C|]. rewrite Av. cbn [fst]. intros ->.
        unfold slot_of in S. rewrite G in S. destruct S as [S|[v' S]]; congruence. }
      destruct (answers_to E ci [EMsg pl m]) as [|v vs] eqn:AN.
      - assert (K : slot_of ci (snd (handle E pl m w)) = slot_of ci w).
        { unfold slot_of. destruct T as [T|[o [ci' [v [k' [[Ty C] [Av [_ [_ T]]]]]]]]]; rewrite T; [reflexivity|]. rewrite dict_get_zset.
          destruct (Z.eqb_spec ci ci') as [-> |N]; [|reflexivity]. exfalso. cbn [answers_to flat_map] in AN. rewrite Ty, Z.eqb_refl, C, Av in AN.
          cbn [fst snd] in AN. rewrite Z.eqb_refl in AN. discriminate AN. }
        rewrite K. split; [intros S; left; auto|intros u S; split; [exact S|left; reflexivity]].
      - cbn [answers_to flat_map] in AN. destruct (Z.eqb_spec (m_type m) RUNSPACE_AVAILABILITY) as [Ty|]; [|discriminate AN].
        destruct (carried m) as [o|] eqn:C; [|discriminate AN]. destruct (ev_availability E o) as [ci' v'] eqn:Av. cbn [fst snd] in AN.
        destruct (Z.eqb_spec ci' ci) as [-> |]; [|discriminate AN]. cbn [app] in AN.
        assert (v = v') as <- by congruence. assert (vs = []) as -> by congruence. clear AN.
        assert (Ex : handle E pl m w = process_availability E o (logged pl m w)).
        { unfold handle. rewrite mbind_observe. fold (logged pl m w). unfold process_message. rewrite Ty.
          change (Z.eqb RUNSPACE_AVAILABILITY SESSION_CAPABILITY) with false. change (Z.eqb RUNSPACE_AVAILABILITY ENCRYPTED_SESSION_KEY) with false.
          change (Z.eqb RUNSPACE_AVAILABILITY PUBLIC_KEY_REQUEST) with false. change (Z.eqb RUNSPACE_AVAILABILITY RUNSPACEPOOL_INIT_DATA) with false.
          rewrite Z.eqb_refl. cbv iota. destruct (data_obj_case m (process_availability E) (logged pl m w)) as [[C' _]|[o' [C' ->]]]; [congruence|].
          congruence. }
        rewrite Ex. unfold process_availability. rewrite Av, mbind_getp.
        change (dict_get Z.eqb ci (rp_table (w_pool (logged pl m w)))) with (slot_of ci w).
        split.
        + intros S. rewrite S. destruct (rfalsy v) eqn:Fv.
          * right. right. left. exists v. destruct k; [| |contradiction|]; (repeat split; auto).
          * right. left. exists v. destruct k; [| |contradiction|]; (rewrite mbind_retm; split; [reflexivity|split; [exact Fv|]]; unfold slot_of, updp, upd; cbn [snd w_pool set_w_pool rp_table set_rp_table]; rewrite dict_get_zset, Z.eqb_refl; reflexivity).
        + intros u S. rewrite S. cbn [throw fail fst snd err]. split; [exact S|]. right. exists v. auto.
    Qed.
    Lemma awaits_until fuel done : runs awaits (receive_until E fuel done).
    Proof.
      apply runs_until; [exact awaits_trans| |exact awaits_handle| |].
      - intros w e. apply awaits_silent; reflexivity.
      - intros rc w. apply awaits_silent; reflexivity.
      - intros cid t w. unfold on_shell. destruct (shell_receive _ _ _ _ _ _). apply awaits_silent; reflexivity.
    Qed.
  End Call.

  (* the request of a call *)
  Lemma ask_effect k mk w :
    let ci := rp_ci (w_pool w) in
    let w1 := snd (ask E k mk w) in
    exists l, since w w1 l /\ (l = [] \/ l = [EOut None (mk ci)]) /\
      rp_min (w_pool w1) = rp_min (w_pool w) /\ rp_max (w_pool w1) = rp_max (w_pool w) /\ slot_of ci w1 = Some (SHandler k) /\
      (forall x, fst (ask E k mk w) = Ret x -> x = ci /\ l = [EOut None (mk ci)] /\
         exists q r, requests w w1 [(q, r)] /\ (exists data, sends_on (lit "stdin") data None q)) /\
      (forall x, fst (ask E k mk w) = Raise x -> exists qs, requests w w1 qs /\ (length qs <= 1)%nat).
  Proof.
    cbv zeta. set (ci := rp_ci (w_pool w)).
    set (w1 := set_w_pool (set_rp_table (dict_set Z.eqb ci (SHandler k) (rp_table (w_pool w))) (set_rp_ci (ci + 1) (w_pool w))) w).
    assert (A : ask E k mk w = (fs <-- fragment_one E (mk ci) None ;; f <-- first_fragment fs ;; send E (lit "stdin") f None ;;; ret ci) w1) by reflexivity.
    rewrite A. clear A.
    assert (S1 : slot_of ci w1 = Some (SHandler k)) by (unfold slot_of, w1; cbn [w_pool set_w_pool rp_table set_rp_table set_rp_ci]; rewrite dict_get_zset, Z.eqb_refl; reflexivity).
    assert (None_ : requests w w1 []) by (unfold requests, w1; cbn [w_hist set_w_pool]; rewrite app_nil_r; reflexivity).
    destruct (fragment_one_effect E (mk ci) None w1) as [[e Fe]|[b [s [fs [_ [_ Fo]]]]]].
    - rewrite (mbind_raise _ _ _ _ _ Fe). cbn [fst snd]. exists []. split; [unfold since, w1; cbn [w_log set_w_pool]; rewrite app_nil_r; reflexivity|].
      split; [auto|]. split; [reflexivity|]. split; [reflexivity|]. split; [exact S1|]. split; [discriminate|]. intros _ _. exists []. split; [exact None_|cbn; lia].
    - rewrite (mbind_some _ _ _ _ _ Fo). set (w2 := set_w_log _ _).
      assert (S2 : slot_of ci w2 = Some (SHandler k)) by exact S1.
      destruct fs as [|f fs]; cbn [first_fragment].
      + unfold throw, fail, mbind. cbn [fst snd]. exists [EOut None (mk ci)].
        split; [reflexivity|]. split; [auto|]. split; [reflexivity|]. split; [reflexivity|]. split; [exact S2|]. split; [discriminate|].
        intros _ _. exists []. split; [exact None_|cbn; lia].
      + rewrite mbind_retm. destruct (send_effect E (lit "stdin") f None w2) as [q [r [Se [Sq _]]]].
        assert (Rq : requests w (set_w_hist (w_hist w2 ++ [(q, r)]) w2) [(q, r)]) by reflexivity.
        unfold mbind. rewrite Se. exists [EOut None (mk ci)].
        split; [destruct r; reflexivity|]. split; [right; reflexivity|]. split; [destruct r; reflexivity|]. split; [destruct r; reflexivity|].
        split; [destruct r; exact S2|]. destruct r; cbn [fst snd ret]; (split; [intros x Hx|intros x Hx]); try discriminate Hx.
        * split; [congruence|]. split; [reflexivity|]. exists q, (WBody b0). split; [exact Rq|eauto].
        * eexists; split; [exact Rq|cbn; lia].
        * eexists; split; [exact Rq|cbn; lia].
        * eexists; split; [exact Rq|cbn; lia].
  Qed.

  (* what the server was asked and answered during one call *)
  Definition settled_call (ci : Z) (k : omsg Obj Cmd) (r : out unit) (w w' : world) : Prop :=
    exists l, since w w' l /\
      (r = Ret tt -> (exists l', l = EOut None k :: l' /\ call_ids l' = []) /\ answers_to E ci l = [VBool true]) /\
      (forall x, r = Raise x -> (forall v vs, answers_to E ci l = v :: vs -> rfalsy v = true -> x = XExn InvalidPSRPOperation) /\
         (rp_min (w_pool w') = rp_min (w_pool w) \/ initial l) /\
         (rp_max (w_pool w') = rp_max (w_pool w) \/ initial l \/ other_available ci l)).
  Lemma limit_call k mk fuel (post : Z -> M unit) w :
    k <> HAvailable -> (forall ci w1, exists w2, post ci w1 = (Ret tt, w2) /\ w_log w2 = w_log w1) ->
    (forall ci, call_ids [EOut None (mk ci) : event] = [ci]) ->
    let ci := rp_ci (w_pool w) in
    let r := (ci <-- ask E k mk ;; receive_until E fuel (fun w => is_bool (slot_of ci w)) ;;; post ci) w in
    settled_call ci (mk ci) (fst r) w (snd r) /\ (fst r = Ret tt -> exists w1, snd r = snd (post ci w1)).
  Proof.
    intros Hk Hp Hm. cbv zeta. set (ci := rp_ci (w_pool w)). pose proof (ask_effect k mk w) as [l1 [L1 [O1 [Mn1 [Mx1 [S1 [R1 X1]]]]]]]. fold ci in O1, S1, R1.
    destruct (ask E k mk w) as [[c|x] w1] eqn:A; cbn [fst snd] in *; [rewrite (mbind_some _ _ _ _ _ A)|rewrite (mbind_raise _ _ _ _ _ A)].
    - destruct (R1 c eq_refl) as [-> [-> _]]. pose proof (awaits_until ci k Hk fuel (fun w => is_bool (slot_of ci w)) w1) as [l2 [L2 [I2 [M2 [N2 [H2 _]]]]]].
      specialize (H2 S1). destruct (receive_until E fuel _ w1) as [[u|x] w2] eqn:U; cbn [fst snd err] in *; [rewrite (mbind_some _ _ _ _ _ U)|rewrite (mbind_raise _ _ _ _ _ U)].
      + apply until_done in U. destruct (Hp ci w2) as [w3 [P3 L3]]. rewrite P3. cbn [fst snd]. split; [|intros _; exists w2; rewrite P3; reflexivity].
        exists ([EOut None (mk ci)] ++ l2). split; [unfold since; rewrite L3; apply (since_trans _ _ _ _ _ L1 L2)|]. split; [|discriminate].
        intros _. split; [exists l2; split; [reflexivity|exact I2]|]. rewrite answers_to_app. cbn [answers_to flat_map app]. fold (answers_to E ci l2).
        destruct H2 as [[_ K]|[[v [-> [F K]]]|[[v [_ [_ [_ C]]]]|[v [v2 [_ [_ [_ C]]]]]]]]; try discriminate C; rewrite K in U.
        * discriminate U.
        * destruct v as [[|]|z|]; try discriminate U; [reflexivity|discriminate F].
      + split; [|discriminate]. exists ([EOut None (mk ci)] ++ l2). split; [apply (since_trans _ _ _ _ _ L1 L2)|]. split; [discriminate|].
        intros y Hy. cbn [fst] in Hy. cbn [snd]. assert (y = x) as -> by congruence. rewrite answers_to_app. cbn [answers_to flat_map app]. fold (answers_to E ci l2).
        split; [|split].
        * intros v vs I Fv. destruct H2 as [[K _]|[[v' [K [F _]]]|[[v' [K [F [_ C]]]]|[v' [v2 [K [F [_ C]]]]]]]]; rewrite K in I; try discriminate I;
            [apply cons_inj in I as [<- _]; congruence|congruence|apply cons_inj in I as [<- _]; congruence].
        * destruct M2 as [M2|M2]; [left; congruence|right; apply (initial_app [EOut None (mk ci)] l2); auto].
        * destruct (N2 (or_introl S1)) as [M3|[M3|M3]]; [left; congruence|right; left; apply (initial_app [EOut None (mk ci)] l2); auto|right; right; apply (other_app ci [EOut None (mk ci)] l2); auto].
    - split; [|discriminate]. exists l1. split; [exact L1|]. split; [discriminate|]. intros y Hy. split; [|split; [left; exact Mn1|left; exact Mx1]].
      intros v vs I. exfalso. destruct O1 as [-> | ->]; discriminate I.
  Qed.
End Runs.
