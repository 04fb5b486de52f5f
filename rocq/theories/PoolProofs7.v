(* What is put on the wire: host responses (C25), pipeline creation (C41) and
   input (C40). *)
From Verif Require Import Base BaseProofs Lit NumModel TextModel XmlModel WsmanModel ShellModel ShellSpec FragModel FragSpec FragProofs FragProofs2 FragProofs3 FragProofs4 MsgModel UtilModel TransModel PoolModel PoolSpec PoolProofs PoolProofs2 PoolProofs3 PoolProofs4 PoolProofs5.
Require Import Lia ZifyBool ZifyNat ZifyN.

(* several sends arrive as the messages sent *)
Lemma same_table_none (r r' : receiver) k : same_table r r' -> dict_get Z.eqb k r' = None -> dict_get Z.eqb k r = None.
Proof. intros H K. rewrite H. exact K. Qed.
Lemma receive_calls_app a : forall r b, receive_calls r (a ++ b) =
  let '(r1, o1) := receive_calls r a in let '(r2, o2) := receive_calls r1 b in (r2, o1 ++ o2).
Proof.
  induction a as [|c a IH]; intros r b; cbn [app receive_calls]; [destruct (receive_calls r b); reflexivity|].
  destruct (defragment r c) as [r' o]. rewrite IH. destruct (receive_calls r' a) as [r1 o1]. destruct (receive_calls r1 b) as [r2 o2]. reflexivity.
Qed.
Lemma mapM_app {A B} (f : A -> res B) a : forall b, mapM f (a ++ b) = (do x <- mapM f a; do y <- mapM f b; Ok (x ++ y)).
Proof.
  induction a as [|c a IH]; intros b; cbn [app mapM bind].
  - destruct (mapM f b); reflexivity.
  - destruct (f c); [|reflexivity]. cbn [bind]. rewrite IH. destruct (mapM f a); [|reflexivity]. cbn [bind]. destruct (mapM f b); reflexivity.
Qed.
Lemma delivered_app a b x y : delivered a = Ok x -> delivered b = Ok y -> delivered (a ++ b) = Ok (x ++ y).
Proof.
  unfold delivered. rewrite mapM_app. intros H1 H2. apply bind_ok in H1 as [l1 [-> H1]]. apply bind_ok in H2 as [l2 [-> H2]].
  cbn [bind]. apply Ok_inj in H1, H2. subst. rewrite concat_app. reflexivity.
Qed.
Lemma run_sends_delivered ops : forall s s' bss,
  (1 <= sd_max s < 2 ^ 32)%Z -> (0 <= sd_counter s)%Z -> (sd_counter s + zlen (concat (map op_msgs ops)) <= 2 ^ 64)%Z ->
  Forall (fun m => m <> [] /\ (zlen m < 2 ^ 63)%Z) (concat (map op_msgs ops)) ->
  run_sends s ops = Ok (s', bss) ->
  forall r, (forall k, (sd_counter s <= k)%Z -> dict_get Z.eqb k r = None) ->
  delivered (snd (receive_calls r (concat bss))) = Ok (concat (map op_msgs ops)) /\ same_table (fst (receive_calls r (concat bss))) r.
Proof.
  induction ops as [|o ops IH]; intros s s' bss Hs Hc Hl Hm H r Hr; cbn [run_sends map concat] in *.
  - apply Ok_pair_inj in H as [_ <-]. split; [reflexivity|]. intros k; reflexivity.
  - apply bind_ok in H as [[s1 bs] [S1 H]]. apply bind_ok in H as [[s2 bss'] [S2 H]]. apply Ok_pair_inj in H as [_ <-].
    apply Forall_app in Hm as [Hm1 Hm2]. unfold zlen in Hl. rewrite app_length, Nat2Z.inj_add in Hl.
    assert (St : exists n, s1 = mkSender (sd_max s) (sd_counter s + n) /\ n = zlen (op_msgs o) /\
                 delivered (snd (receive_calls r bs)) = Ok (op_msgs o) /\ same_table (fst (receive_calls r bs)) r).
    { destruct o as [m|ms]; cbn [send_step op_msgs] in *.
      - pose proof (Forall_inv Hm1) as [Nm L]. cbn [length] in Hl.
        destruct (single_message_roundtrip s m) as [blocks [pieces [F [_ [_ [_ D]]]]]]; auto; [lia|].
        rewrite F in S1. apply Ok_pair_inj in S1 as [<- <-]. exists 1%Z. split; [reflexivity|]. split; [reflexivity|].
        specialize (D r (Hr _ (Z.le_refl _)) (length blocks) (map (fun b => [b]) blocks)).
        assert (C1 : concat (map (fun b : bytes => [b]) blocks) = firstn (length blocks) blocks).
        { rewrite firstn_all. clear. induction blocks as [|x l IHl]; [reflexivity|]. cbn. rewrite IHl. reflexivity. }
        assert (C2 : map (@concat N) (map (fun b : bytes => [b]) blocks) = blocks).
        { clear. induction blocks as [|x l IHl]; [reflexivity|]. cbn. rewrite app_nil_r, IHl. reflexivity. }
        destruct (D C1) as [D1 D2]. rewrite C2 in D1, D2. rewrite Nat.ltb_irrefl in D1. split; [exact D1|]. apply D2. lia.
      - destruct (multiple_roundtrip s ms) as [blocks [ts [ws [F [_ [_ [_ [_ D]]]]]]]]; auto.
        + unfold zlen. lia.
        + eapply Forall_impl; [|exact Hm1]. intros a [_ K]. exact K.
        + rewrite F in S1. apply Ok_pair_inj in S1 as [<- <-]. exists (zlen ms). split; [reflexivity|]. split; [reflexivity|].
          apply D. intros k Hk. apply Hr. lia. }
    destruct St as [n [-> [-> [D1 T1]]]]. cbn [concat]. rewrite receive_calls_app.
    destruct (receive_calls r bs) as [r1 o1]. cbn [fst snd] in D1, T1.
    assert (P2 : delivered (snd (receive_calls r1 (concat bss'))) = Ok (concat (map op_msgs ops)) /\ same_table (fst (receive_calls r1 (concat bss'))) r1).
    { eapply IH; [| | | |exact S2|]; cbn [sd_max sd_counter]; auto.
      - unfold zlen. lia.
      - unfold zlen in *. lia.
      - intros k Hk. eapply same_table_none; [exact T1|]. apply Hr. unfold zlen in Hk. lia. }
    destruct (receive_calls r1 (concat bss')) as [r2 o2]. cbn [fst snd] in *. destruct P2 as [D2 T2]. split; [apply delivered_app; assumption|].
    intros k. rewrite T2. apply T1.
Qed.

Section Wire.
  Context {Obj Cmd HS RK : Type} (E : env Obj Cmd HS RK).
  Notation world := (world Obj Cmd HS RK).
  Notation event := (event Obj Cmd).
  Notation M A := (world -> out A * world).

  (* a run of sends *)
  Lemma sends_run stream (cid : world -> option (list N)) fs : (forall w h, cid (set_w_hist h w) = cid w) -> forall w,
    exists qs, snd (each (fun f => c <-- get cid ;; send E stream f c) fs w) = set_w_hist (w_hist w ++ qs) w /\
      Forall2 (fun f e => sends_on stream f (cid w) (fst e)) (firstn (length qs) fs) qs /\
      (fst (each (fun f => c <-- get cid ;; send E stream f c) fs w) = Ret tt -> length qs = length fs).
  Proof.
    intros Hc. induction fs as [|f fs IH]; intros w; cbn [each].
    - exists []. cbn. rewrite app_nil_r. split; [destruct w; reflexivity|]. split; [constructor|reflexivity].
    - destruct (send_effect E stream f (cid w) w) as [q [r [S [Q _]]]].
      assert (S' : (c <-- get cid;; send E stream f c) w = send E stream f (cid w) w) by reflexivity. rewrite <- S' in S. clear S'.
      destruct r as [b|fl|c t|e].
      + rewrite (mbind_some _ _ _ _ _ S). destruct (IH (set_w_hist (w_hist w ++ [(q, WBody b)]) w)) as [qs [H1 [H2 H3]]].
        exists ((q, WBody b) :: qs). rewrite H1. cbn [w_hist set_w_hist]. rewrite <- app_assoc. split; [destruct w; reflexivity|]. split.
        * cbn [length firstn]. constructor; [exact Q|]. rewrite Hc in H2. exact H2.
        * intros H. cbn [length]. rewrite (H3 H). reflexivity.
      + rewrite (mbind_raise _ _ _ _ _ S). cbn [fst snd]. eexists [_]. split; [reflexivity|]. split; [cbn [length firstn]; constructor; [exact Q|constructor]|discriminate].
      + rewrite (mbind_raise _ _ _ _ _ S). cbn [fst snd]. eexists [_]. split; [reflexivity|]. split; [cbn [length firstn]; constructor; [exact Q|constructor]|discriminate].
      + rewrite (mbind_raise _ _ _ _ _ S). cbn [fst snd]. eexists [_]. split; [reflexivity|]. split; [cbn [length firstn]; constructor; [exact Q|constructor]|discriminate].
  Qed.
  Lemma sends_const stream c fs w :
    exists qs, snd (each (fun f => send E stream f c) fs w) = set_w_hist (w_hist w ++ qs) w /\
      Forall2 (fun f e => sends_on stream f c (fst e)) (firstn (length qs) fs) qs /\
      (fst (each (fun f => send E stream f c) fs w) = Ret tt -> length qs = length fs).
  Proof. exact (sends_run stream (fun _ => c) fs (fun _ _ => eq_refl) w). Qed.

  (* ---- C25: one call ---- *)
  Definition response (pl : option nat) (ci mi : Z) (mr : Obj) : omsg Obj Cmd :=
    match pl with Some _ => OPipelineResponse ci mi mr | None => OPoolResponse ci mi mr end.
  Lemma host_call_cases o pl run ci mi mp (w : world) :
    ev_host E = Some run -> ev_host_call E o = (ci, mi, mp) ->
    let pid := match pl with Some r => Some (ps_id (the_ps r w)) | None => None end in
    let '(res, w') := process_host_call E o pl w in
    w_host w' = snd (run (w_host w) mi mp pid) /\
    match fst (run (w_host w) mi mp pid) with
    | Raise x => res = Raise x /\ since w w' [EHost mi mp pl (Raise x)] /\ requests w w' []
    | Ret None => res = Ret tt /\ since w w' [EHost mi mp pl (Ret None)] /\ requests w w' []
    | Ret (Some mr) =>
        match packed E (rp_cipher (w_pool w)) (rp_id (w_pool w)) pid (response pl ci mi mr) with
        | Err e => res = Raise (XExn e) /\ since w w' [EHost mi mp pl (Ret (Some mr))] /\ requests w w' []
        | Ok b =>
            match fragment_msg (rp_sender (w_pool w)) b None with
            | Err e => res = Raise (XExn e) /\ since w w' [EHost mi mp pl (Ret (Some mr))] /\ requests w w' []
            | Ok (s, fs) => since w w' [EHost mi mp pl (Ret (Some mr)); EOut pid (response pl ci mi mr)] /\
                exists qs, requests w w' qs /\ Forall2 (fun f e => sends_on (lit "pr") f None (fst e)) (firstn (length qs) fs) qs /\
                  (res = Ret tt -> length qs = length fs)
            end
        end
    end.
  Proof.
    intros Hh Hc. cbv zeta. unfold process_host_call. rewrite Hh, Hc.
    set (pid := match pl with Some r => Some (ps_id (the_ps r w)) | None => None end).
    assert (P : (match pl with Some r => i <-- getps r ps_id;; ret (Some i) | None => ret None end) w = (Ret pid, w)).
    { unfold pid. destruct pl; reflexivity. }
    rewrite (mbind_some _ _ _ _ _ P). clear P. rewrite mbind_get. destruct (run (w_host w) mi mp pid) as [r st'] eqn:Hr.
    rewrite mbind_upd, mbind_observe. set (w1 := set_w_log _ _). cbn [fst snd].
    destruct r as [[mr|]|x].
    2: (split; [reflexivity|]; split; [reflexivity|]; split; [reflexivity|unfold requests; cbn; rewrite app_nil_r; reflexivity]).
    2: (split; [reflexivity|]; split; [reflexivity|]; split; [reflexivity|unfold requests; cbn; rewrite app_nil_r; reflexivity]).
    fold (response pl ci mi mr).
    assert (N : requests w w1 []) by (unfold requests; cbn; rewrite app_nil_r; reflexivity).
    assert (F : fragment_one E (response pl ci mi mr) pid w1 =
       match packed E (rp_cipher (w_pool w)) (rp_id (w_pool w)) pid (response pl ci mi mr) with
       | Err e => (Raise (XExn e), w1)
       | Ok b => match fragment_msg (rp_sender (w_pool w)) b None with
                 | Err e => (Raise (XExn e), w1)
                 | Ok (s, fs) => (Ret fs, set_w_log (w_log w1 ++ [EOut pid (response pl ci mi mr)]) (set_w_pool (set_rp_sender s (w_pool w1)) w1)) end end).
    { unfold fragment_one. rewrite !mbind_getp. change (w_pool w1) with (w_pool w).
      destruct (packed _ _ _ _ _) as [b|e]; [|reflexivity]. rewrite mbind_ok. destruct (fragment_msg _ _ _) as [[s fs]|e]; reflexivity. }
    destruct (packed E (rp_cipher (w_pool w)) (rp_id (w_pool w)) pid (response pl ci mi mr)) as [b|e].
    2: (rewrite (mbind_raise _ _ _ _ _ F); split; [reflexivity|]; split; [reflexivity|]; split; [reflexivity|exact N]).
    destruct (fragment_msg (rp_sender (w_pool w)) b None) as [[s fs]|e].
    2: (rewrite (mbind_raise _ _ _ _ _ F); split; [reflexivity|]; split; [reflexivity|]; split; [reflexivity|exact N]).
    rewrite (mbind_some _ _ _ _ _ F). match type of F with _ = (Ret fs, ?x) => set (w2 := x) in * end. destruct (sends_const (lit "pr") None fs w2) as [qs [Q1 [Q2 Q3]]].
    destruct (each _ fs w2) as [res w3]. cbn [fst snd] in *. rewrite Q1. split; [reflexivity|]. split; [|].
    - unfold since. cbn [w_log set_w_hist]. unfold w2. cbn [w_log set_w_log]. unfold w1 at 1. cbn [w_log set_w_log set_w_host]. rewrite <- app_assoc. reflexivity.
    - exists qs. split; [reflexivity|]. split; [exact Q2|exact Q3].
  Qed.

  (* ---- C41: creating a pipeline ---- *)
  Definition sends_after (cid : option (list N)) (fs : list bytes) (qs : list (sreq * wresult)) : Prop :=
    Forall2 (fun f e => sends_on (lit "stdin") f cid (fst e)) fs qs.
  Lemma command_effect a id w :
    exists q r, on_shell E (fun srv => shell_command srv [] (Some [a]) false (Some id)) w =
        (match r with WBody b => Ret b | WFault f => Raise (XFault f) | WHttp c t => Raise (XHttp c t) | WExn e => Raise (XExn e) end,
         set_w_hist (w_hist w ++ [(q, r)]) w) /\
      q_op q = OpCommand /\ q_body q = Some (command_line [] (Some [a]) (Some id)) /\ q_selectors q = sh_selectors (rp_shell (w_pool w)).
  Proof. unfold on_shell, shell_command, call. set (q := request _ _ _ _ _). exists q, (ev_srv E (w_disabled w) (w_hist w) q). repeat split. Qed.

  Record created_pipeline (r : nat) (o : omsg Obj Cmd) (w w' : world) : Prop := {
    cp_valid : (r < length (w_heap w))%nat -> ps_state (the_ps r w') = pl_running;
    cp_log : since w w' [EOut (Some (ps_id (the_ps r w))) o];
    cp_reg : rp_pipelines (w_pool w') = dict_set str_eqb (ps_id (the_ps r w)) r (rp_pipelines (w_pool w));
    cp_same : rp_cipher (w_pool w') = rp_cipher (w_pool w) /\ rp_id (w_pool w') = rp_id (w_pool w) /\ ps_id (the_ps r w') = ps_id (the_ps r w);
    cp_wire : exists b fs f q x qs,
      packed E (rp_cipher (w_pool w)) (rp_id (w_pool w)) (Some (ps_id (the_ps r w))) o = Ok b /\
      fragment_msg (rp_sender (w_pool w)) b None = Ok (rp_sender (w_pool w'), f :: fs) /\
      requests w w' ((q, WBody (Some x)) :: qs) /\ q_op q = OpCommand /\
      q_body q = Some (command_line [] (Some [b64encode f]) (Some (ps_id (the_ps r w)))) /\
      sends_after (ps_command_id (the_ps r w')) fs qs /\
      ((r < length (w_heap w))%nat -> forall y, find_first [rsp (lit "CommandResponse"); rsp (lit "CommandId")] x = Some y ->
        ps_command_id (the_ps r w') = Some (or_empty (x_text y))) }.
  Lemma ps_invoke_done r o w w' : ps_invoke E r o w = (Ret tt, w') -> created_pipeline r o w w'.
  Proof.
    unfold ps_invoke. rewrite mbind_getps. set (id := ps_id (the_ps r w)). intros H.
    destruct (fragment_one_effect E o (Some id) w) as [[e Fe]|[b [s [fs [Pb [Fm Fo]]]]]].
    { rewrite (mbind_raise _ _ _ _ _ Fe) in H. exfalso; congruence. }
    rewrite (mbind_some _ _ _ _ _ Fo) in H. rewrite mbind_updp in H. set (w1 := set_w_pool (set_rp_pipelines _ _) _) in H.
    destruct fs as [|f fs]; cbn [first_fragment] in H. { exfalso. unfold throw, fail, mbind in H. congruence. }
    rewrite mbind_retm in H. destruct (command_effect (b64encode f) id w1) as [q [x [C [Qo [Qb Qs]]]]].
    unfold mbind at 1 in H. rewrite C in H. destruct x as [[x|]|fl|c t|e]; try (exfalso; unfold throw, fail in H; congruence).
    set (w2 := set_w_hist _ w1) in H.
    assert (G : exists g, ((forall p, ps_id (g p) = ps_id p) /\
       forall y, find_first [rsp (lit "CommandResponse"); rsp (lit "CommandId")] x = Some y -> forall p, ps_command_id (g p) = Some (or_empty (x_text y))) /\
       (match find_first [rsp (lit "CommandResponse"); rsp (lit "CommandId")] x with Some y => updps r (set_ps_command_id (Some (or_empty (x_text y)))) | None => ret tt end) w2
         = (Ret tt, set_w_heap (list_upd r g (w_heap w2)) w2)).
    { destruct (find_first _ x) as [y|].
      - exists (set_ps_command_id (Some (or_empty (x_text y)))). split; [|reflexivity]. split; [reflexivity|]. intros y' Hy p. apply Some_inj in Hy. subst y'. reflexivity.
      - exists (fun p => p). split; [split; [reflexivity|discriminate]|]. unfold ret. f_equal.
        assert (U : forall l n, list_upd n (fun p : ps Obj Cmd => p) l = l) by (clear; induction l as [|z l IH]; intros [|n]; cbn [list_upd]; rewrite ?IH; reflexivity).
        rewrite U. destruct w2; reflexivity. }
    destruct G as [g [[Gi Gc] G]]. rewrite (mbind_some _ _ _ _ _ G) in H. rewrite mbind_updps in H. set (w3 := set_w_heap (list_upd r (set_ps_state pl_running) _) _) in H.
    cbn [tl] in H. destruct (sends_run (lit "stdin") (fun w => ps_command_id (the_ps r w)) fs (fun _ _ => eq_refl) w3) as [qs [Q1 [Q2 Q3]]].
    match type of H with each ?g0 fs w3 = _ => change (each g0 fs w3) with (each (fun f0 => c <-- get (fun w : world => ps_command_id (the_ps r w)) ;; send E (lit "stdin") f0 c) fs w3) in H end.
    rewrite H in Q1, Q3. cbn [fst snd] in Q1, Q3. specialize (Q3 eq_refl). rewrite Q3, firstn_all in Q2. subst w'.
    assert (Ids : ps_id (the_ps r w3) = id).
    { unfold w3, w2, w1, the_ps, id, the_ps. cbn [w_heap set_w_heap set_w_hist set_w_pool set_w_log].
      destruct (Nat.ltb_spec r (length (w_heap w))) as [L|L].
      - rewrite nth_list_upd_same by (rewrite list_upd_length; exact L). rewrite nth_list_upd_same by exact L. cbn [ps_id set_ps_state]. apply Gi.
      - rewrite !list_upd_beyond by (rewrite ?list_upd_length; exact L). reflexivity. }
    split.
    - intros V. unfold w3, w2, w1, the_ps. cbn [w_heap set_w_heap set_w_hist set_w_pool set_w_log]. rewrite nth_list_upd_same by (rewrite list_upd_length; exact V). reflexivity.
    - reflexivity.
    - reflexivity.
    - split; [reflexivity|]. split; [reflexivity|]. exact Ids.
    - exists b, fs, f, q, x, qs. split; [exact Pb|]. split; [exact Fm|]. split.
      + unfold requests, w3, w2. cbn [w_hist set_w_hist set_w_heap]. unfold w1. cbn [w_hist set_w_pool set_w_log]. rewrite <- app_assoc. reflexivity.
      + split; [exact Qo|]. split; [exact Qb|]. split; [exact Q2|]. intros V y Hy.
        unfold w3, w2, w1, the_ps. cbn [w_heap set_w_heap set_w_hist set_w_pool set_w_log].
        rewrite nth_list_upd_same by (rewrite list_upd_length; exact V). rewrite nth_list_upd_same by exact V. cbn [ps_command_id set_ps_state]. apply Gc. exact Hy.
  Qed.

  (* ---- C40: input ---- *)
  Lemma fragment_many_done os pid w fs w' : fragment_many E os pid w = (Ret fs, w') ->
    exists bs s, mapM (packed E (rp_cipher (w_pool w)) (rp_id (w_pool w)) pid) os = Ok bs /\
      fragment_multiple (rp_sender (w_pool w)) bs = Ok (s, fs) /\
      w' = set_w_log (w_log w ++ map (EOut pid) os) (set_w_pool (set_rp_sender s (w_pool w)) w).
  Proof.
    unfold fragment_many. rewrite !mbind_getp. intros H.
    destruct (mapM _ os) as [bs|e] eqn:P; [|exfalso; unfold lift, throw, fail, mbind in H; congruence]. rewrite mbind_ok in H.
    destruct (fragment_multiple _ bs) as [[s fs']|e] eqn:F; [|exfalso; unfold lift, throw, fail, mbind in H; congruence]. rewrite mbind_ok, mbind_updp in H. cbn [fst snd] in H.
    assert (Ob : forall l (w0 : world), each (fun o => observe (EOut pid o)) l w0 = (Ret tt, set_w_log (w_log w0 ++ map (EOut pid) l) w0)).
    { clear. induction l as [|o l IH]; intros w0; cbn [each map].
      - rewrite app_nil_r. destruct w0; reflexivity.
      - rewrite mbind_observe, IH. cbn [w_log set_w_log]. rewrite <- app_assoc. destruct w0; reflexivity. }
    rewrite (mbind_some _ _ _ _ _ (Ob os _)) in H. unfold ret in H. apply pair_inj in H as [H1 H2]. exists bs, s.
    assert (fs' = fs) as -> by congruence. split; [reflexivity|]. split; [exact F|]. symmetry. exact H2.
  Qed.
  Lemma send_part r cid_w os w w' (id := ps_id (the_ps r w)) : ps_command_id (the_ps r w) = cid_w ->
    (fs <-- fragment_many E os (Some id) ;; each (fun f => c <-- getps r ps_command_id ;; send E (lit "stdin") f c) fs) w = (Ret tt, w') ->
    exists bs blocks qs, mapM (packed E (rp_cipher (w_pool w)) (rp_id (w_pool w)) (Some id)) os = Ok bs /\
      send_step (rp_sender (w_pool w)) (SendMany bs) = Ok (rp_sender (w_pool w'), blocks) /\
      since w w' (map (EOut (Some id)) os) /\ requests w w' qs /\ sends_after cid_w blocks qs /\
      w_heap w' = w_heap w /\ rp_cipher (w_pool w') = rp_cipher (w_pool w) /\ rp_id (w_pool w') = rp_id (w_pool w).
  Proof.
    intros Hc H. apply mbind_ret in H as [fs [w1 [F H]]]. apply fragment_many_done in F as [bs [s [P [F ->]]]].
    set (w1 := set_w_log _ _) in H.
    destruct (sends_run (lit "stdin") (fun w => ps_command_id (the_ps r w)) fs (fun _ _ => eq_refl) w1) as [qs [Q1 [Q2 Q3]]].
    match type of H with each ?g0 fs w1 = _ => change (each g0 fs w1) with (each (fun f0 => c <-- get (fun w : world => ps_command_id (the_ps r w)) ;; send E (lit "stdin") f0 c) fs w1) in H end.
    rewrite H in Q1, Q3. cbn [fst snd] in Q1, Q3. specialize (Q3 eq_refl). rewrite Q3, firstn_all in Q2. subst w'.
    exists bs, fs, qs. split; [exact P|]. split; [exact F|]. split; [reflexivity|]. split; [reflexivity|]. split.
    - unfold sends_after. change (ps_command_id (the_ps r w1)) with (ps_command_id (the_ps r w)) in Q2. rewrite Hc in Q2. exact Q2.
    - repeat split.
  Qed.
  (* the messages of a generator that yields [is_] *)
  Definition input_msgs (is_ : list (item (Obj := Obj))) : list (omsg Obj Cmd) := map OInput (concat (map item_objs is_)) ++ [OEnd].
  Definition transmitted (id : list N) (cid : option (list N)) (os : list (omsg Obj Cmd)) (w w' : world) : Prop :=
    exists ops bss qs, mapM (packed E (rp_cipher (w_pool w)) (rp_id (w_pool w)) (Some id)) os = Ok (concat (map op_msgs ops)) /\
      run_sends (rp_sender (w_pool w)) ops = Ok (rp_sender (w_pool w'), bss) /\
      since w w' (map (EOut (Some id)) os) /\ requests w w' qs /\ sends_after cid (concat bss) qs.
  Lemma send_inputs_done r i is_ w w' (id := ps_id (the_ps r w)) :
    send_inputs E r (Some i) (map Some is_) w = (Ret tt, w') ->
    transmitted id (ps_command_id (the_ps r w)) (input_msgs (i :: is_)) w w'.
  Proof.
    unfold id. clear id. revert i w. induction is_ as [|j is_ IH]; intros i w H; cbn [map send_inputs] in H; rewrite mbind_getps in H.
    - apply (send_part r _ _ _ _ eq_refl) in H as [bs [blocks [qs [P [S [L [Q [A _]]]]]]]].
      exists [SendMany bs], [blocks], qs. cbn [map op_msgs concat]. rewrite !app_nil_r. unfold input_msgs. cbn [map concat]. rewrite app_nil_r.
      split; [exact P|]. split; [cbn [run_sends]; rewrite S; reflexivity|]. split; [exact L|]. split; [exact Q|exact A].
    - assert (H' : ((fs <-- fragment_many E (map OInput (item_objs i)) (Some (ps_id (the_ps r w))) ;;
                   each (fun f => c <-- getps r ps_command_id ;; send E (lit "stdin") f c) fs) ;;; send_inputs E r (Some j) (map Some is_)) w = (Ret tt, w')).
      { rewrite <- H. unfold mbind. destruct (fragment_many E _ _ w) as [[fs|x] w1]; reflexivity. }
      clear H. apply mbind_ret in H' as [[] [w1 [H1 H2]]].
      apply (send_part r _ _ _ _ eq_refl) in H1 as [bs [blocks [qs [P [S [L [Q [A [Hh [Hc Hi]]]]]]]]]].
      apply IH in H2 as [ops [bss [qs2 [P2 [S2 [L2 [Q2 A2]]]]]]].
      assert (Hp : the_ps r w1 = the_ps r w) by (unfold the_ps; rewrite Hh; reflexivity). rewrite Hp in *.
      exists (SendMany bs :: ops), (blocks :: bss), (qs ++ qs2). cbn [map op_msgs concat]. unfold input_msgs in *. cbn [map concat].
      rewrite map_app, <- app_assoc, mapM_app, P. cbn [bind]. cbn [map concat] in P2. rewrite Hc, Hi in P2. cbn [map concat]. rewrite P2. cbn [bind].
      split; [reflexivity|]. split; [cbn [run_sends]; rewrite S; cbn [bind]; rewrite S2; reflexivity|]. split.
      + rewrite map_app. eapply since_trans; eauto.
      + split; [unfold requests in *; rewrite Q2, Q, app_assoc; reflexivity|]. apply Forall2_app; assumption.
  Qed.
End Wire.
