(* Connecting, limits, the key blob and the creation message of a pool (C20,
   C24, C39, C41, C46). *)
From Verif Require Import Base BaseProofs Lit NumModel TextModel XmlModel WsmanModel ShellModel ShellSpec FragModel FragSpec FragProofs FragProofs4 MsgModel MsgSpec MsgProofs UtilModel TransModel PoolModel PoolSpec PoolProofs PoolProofs2 PoolProofs3 PoolProofs6 PoolProofs7 PoolProofs8.
Require Import Lia ZifyBool ZifyNat ZifyN.

(* ---- the key blob ---- *)
Lemma modulus_val n m : forall k, le_val (map (fun i => N.land (N.shiftr n (N.of_nat i * 8)) 255) (seq k m)) = (N.shiftr n (N.of_nat k * 8) mod 256 ^ N.of_nat m)%N.
Proof.
  induction m as [|m IH]; intros k; cbn [seq map le_val].
  - change (256 ^ N.of_nat 0)%N with 1%N. rewrite N.mod_1_r. reflexivity.
  - rewrite IH. change 255%N with (N.ones 8). rewrite N.land_ones. change (2 ^ 8)%N with 256%N.
    replace (N.of_nat (S k) * 8)%N with (N.of_nat k * 8 + 8)%N by lia. rewrite <- N.shiftr_shiftr.
    set (x := N.shiftr n (N.of_nat k * 8)). rewrite (N.shiftr_div_pow2 x 8). change (2 ^ 8)%N with 256%N.
    rewrite Nat2N.inj_succ, N.pow_succ_r'. rewrite (N.mod_mul_r x 256 (256 ^ N.of_nat m)); [reflexivity|lia|apply N.pow_nonzero; lia].
Qed.
Lemma public_blob_decodes n e b : (n < 2 ^ 2048)%N -> public_blob n e = Ok b ->
  length b = 276%nat /\ firstn 16 b = blob_header /\ little_endian (firstn 4 (skipn 16 b)) = e /\ little_endian (skipn 20 b) = n.
Proof.
  intros Hn H. unfold public_blob in H. apply bind_ok in H as [x [Hx H]]. apply Ok_inj in H. subst b.
  apply struct_pack_le_ok in Hx as [_ [Lx [_ Vx]]]. rewrite !little_endian_le_val.
  assert (Lm : length (modulus_bytes n) = 256%nat) by (unfold modulus_bytes; rewrite map_length, seq_length; reflexivity).
  destruct x as [|x0 [|x1 [|x2 [|x3 [|x4 x]]]]]; try (cbn [length] in Lx; lia). clear Lx.
  split; [rewrite !app_length, Lm; reflexivity|]. split; [reflexivity|]. split.
  - change (firstn 4 (skipn 16 (blob_header ++ [x0; x1; x2; x3] ++ modulus_bytes n))) with [x0; x1; x2; x3]. lia.
  - change (skipn 20 (blob_header ++ [x0; x1; x2; x3] ++ modulus_bytes n)) with (modulus_bytes n).
    etransitivity; [apply (modulus_val n 256 0)|]. change (N.of_nat 0 * 8)%N with 0%N. rewrite N.shiftr_0_r. apply N.mod_small.
    replace (256 ^ N.of_nat 256)%N with (2 ^ 2048)%N; [exact Hn|]. change 256%N with (2 ^ 8)%N at 1. rewrite <- N.pow_mul_r. reflexivity.
Qed.
Lemma public_blob_made n e : (e < 2 ^ 32)%N -> exists b, public_blob n e = Ok b.
Proof.
  intros He. unfold public_blob, struct_pack_le. change (256 ^ Z.of_nat 4)%Z with (2 ^ 32)%Z.
  assert (X : ((0 <=? Z.of_N e)%Z && (Z.of_N e <? 2 ^ 32)%Z)%bool = true) by lia. rewrite X. eexists. reflexivity.
Qed.

(* ---- two messages in one block ---- *)
Lemma whole_part s (m : bytes) r : (zlen m <= r)%Z -> (0 <= sd_counter s < 2 ^ 64)%Z -> (zlen m < 2 ^ 32)%Z -> (1 <= sd_max s)%Z ->
  exists b, fragment_msg s m (Some r) = Ok (mkSender (sd_max s) (sd_counter s + 1), [b]) /\ zlen b = (zlen m + 21)%Z.
Proof.
  intros L C Z32 Mx. unfold fragment_msg. pose proof (zlen_nonneg m) as P. rewrite slice_to_nonneg by lia.
  replace (Z.to_nat r) with (length m + (Z.to_nat r - length m))%nat by (unfold zlen in *; lia).
  rewrite firstn_all2 by lia. rewrite slice_from_nonneg by lia. unfold zlen at 1. rewrite Nat2Z.id, skipn_all.
  rewrite frag_pack_ok; [|unfold frag_range; cbn [fr_oid fr_id fr_data]; lia]. cbn [bind].
  assert (B : byte_iterator [] (sd_max s) = Ok []).
  { unfold byte_iterator, py_range0. destruct (Z.eqb_spec (sd_max s) 0) as [|_]; [lia|]. destruct (Z.ltb_spec (sd_max s) 0) as [|_]; [lia|].
    cbn [bind]. change (zlen (@nil N)) with 0%Z. replace ((0 + sd_max s - 1) / sd_max s)%Z with 0%Z; [reflexivity|]. symmetry. apply Z.div_small. lia. }
  replace (skipn (Z.to_nat (zlen m)) m) with (@nil N) by (unfold zlen; rewrite Nat2Z.id, skipn_all; reflexivity). rewrite B. cbn [bind pack_chunks app]. eexists. split; [reflexivity|]. rewrite frag_bytes_length. cbn [fr_data]. lia.
Qed.
Lemma two_in_one s a b : (zlen a + 21 + zlen b <= sd_max s)%Z -> (1 <= zlen b)%Z -> (sd_max s < 2 ^ 32)%Z -> (0 <= sd_counter s)%Z -> (sd_counter s + 2 <= 2 ^ 64)%Z ->
  exists f, fragment_multiple s [a; b] = Ok (mkSender (sd_max s) (sd_counter s + 2), [f]).
Proof.
  intros L Lb Mx C0 C1. pose proof (zlen_nonneg a) as Pa. unfold fragment_multiple. cbn [fragment_multiple_loop].
  destruct (whole_part s a (sd_max s)) as [fa [-> La]]; try lia. cbn [bind]. rewrite Z.eqb_refl. cbn [negb andb app rev length].
  assert (X : (sd_max s - zlen fa <=? 0)%Z = false) by lia. cbn [bind app rev]. rewrite X.
  destruct (whole_part (mkSender (sd_max s) (sd_counter s + 1)) b (sd_max s - zlen fa)) as [fb [-> Lb']]; cbn [sd_max sd_counter]; try lia.
  cbn [bind sd_max sd_counter]. assert (Y : (sd_max s - zlen fa =? sd_max s)%Z = false) by lia. rewrite Y. cbn [negb andb length Nat.eqb append_last app rev bind].
  replace (sd_counter s + 1 + 1)%Z with (sd_counter s + 2)%Z by lia. destruct (_ <=? 0)%Z; eexists; reflexivity.
Qed.

Section Pool11.
  Context {Obj Cmd HS RK : Type} (E : env Obj Cmd HS RK).
  Notation world := (world Obj Cmd HS RK).
  Notation M A := (world -> out A * world).
  Notation "a ;;; b" := (mbind a (fun _ => b)) (at level 61, right associativity).
  Notation "x <-- a ;; b" := (mbind a (fun x => b)) (at level 61, a at next level, right associativity).

  (* ---- the messages of open in one block ---- *)
  Lemma open_whole fuel a (w w' : world) :
    rp_state (w_pool w) = rs_before_open -> sh_opened (rp_shell (w_pool w)) = false -> pool_open E fuel a w = (Ret tt, w') ->
    exists x y, mapM (packed E (rp_cipher (w_pool w)) (rp_id (w_pool w)) None)
        [capability; OInit (rp_min (w_pool w)) (rp_max (w_pool w)) (rp_thread (w_pool w)) (rp_apartment (w_pool w)) a] = Ok [x; y] /\
      ((1 <= zlen x)%Z -> (1 <= zlen y)%Z -> (zlen x + 21 + zlen y <= sd_max (rp_sender (w_pool w)))%Z -> (sd_max (rp_sender (w_pool w)) < 2 ^ 32)%Z ->
       (0 <= sd_counter (rp_sender (w_pool w)))%Z -> (sd_counter (rp_sender (w_pool w)) + 2 <= 2 ^ 64)%Z ->
       exists f q b qs, requests w w' ((q, WBody b) :: qs) /\ q_op q = OpCreate /\
         q_body q = Some (shell_content (rp_shell (w_pool w)) (Some (content_xml (lit "creationXml") f))) /\
         forall rc, (forall k, (sd_counter (rp_sender (w_pool w)) <= k)%Z -> dict_get Z.eqb k rc = None) ->
           delivered (snd (receive_calls rc [f])) = Ok [x; y]).
  Proof.
    intros S O H. destruct (open_wire E fuel a w w' S O H) as (bs & s & f & rest & q & b & qs & P & F & Q & Qo & Qb).
    cbn [mapM] in P. apply bind_ok in P as [x [Px P]]. apply bind_ok in P as [t [Pt P]]. apply bind_ok in Pt as [y [Py Pt]]. apply Ok_inj in Pt. subst t. apply Ok_inj in P. subst bs.
    exists x, y. split; [cbn [mapM]; rewrite Px; cbn [bind]; rewrite Py; reflexivity|]. intros Lx Ly L Mx C0 C1.
    destruct (two_in_one (rp_sender (w_pool w)) x y) as [f' F']; try lia. rewrite F' in F. apply Ok_pair_inj in F as [Hs F]. apply cons_inj in F as [-> <-].
    exists f, q, b, qs. split; [exact Q|]. split; [exact Qo|]. split; [exact Qb|]. intros rc Hrc.
    destruct (run_sends_delivered [SendMany [x; y]] (rp_sender (w_pool w)) s [[f]]) with (r := rc) as [D _]; cbn [map op_msgs concat app] in *; try assumption; try lia.
    - constructor; [split; [intros ->; unfold zlen in Lx; cbn [length] in Lx; lia|lia]|]. constructor; [split; [intros ->; unfold zlen in Ly; cbn [length] in Ly; lia|lia]|constructor].
    - cbn [run_sends send_step]. rewrite F'. cbn [bind]. rewrite Hs. reflexivity.
  Qed.

  (* ---- reconnecting the pool ---- *)
  Lemma connect_acts (w : world) : rp_state (w_pool w) = rs_disconnected -> rp_new_client (w_pool w) = false ->
    exists q r w', pool_connect E w = (match r with WBody _ => Ret tt | WFault f => Raise (XFault f) | WHttp c t => Raise (XHttp c t) | WExn e => Raise (XExn e) end, w') /\
      requests w w' [(q, r)] /\ q_op q = OpReconnect /\ q_selectors q = Some (shell_selector (or_empty (sh_id (rp_shell (w_pool w))))) /\
      rp_state (w_pool w') = (match r with WBody _ => rs_opened | _ => rs_disconnected end).
  Proof.
    intros S Nw. unfold pool_connect. rewrite mbind_getp, mbind_getp, S, Nw. change (Z.eqb rs_disconnected rs_opened) with false. change (negb (Z.eqb rs_disconnected rs_disconnected)) with false. cbv iota.
    unfold connect_existing. rewrite mbind_getp.
    match goal with |- context [conn_request E ?op ?b ?o ?s] => destruct (conn_effect E op b o s w) as [q [x [Ex [_ [O [_ [_ [Sl _]]]]]]]] end.
    unfold mbind. rewrite Ex. exists q, x. destruct x as [b| | |]; (eexists; split; [reflexivity|]; split; [reflexivity|]; split; [exact O|]; split; [exact Sl|]; first [reflexivity | exact S]).
  Qed.

  (* ---- the limits ---- *)
  Lemma min_before fuel v (w : world) : rp_state (w_pool w) <> rs_opened -> set_min_runspaces E fuel v w = (Ret tt, set_w_pool (set_rp_min (VInt v) (w_pool w)) w).
  Proof. intros S. unfold set_min_runspaces. rewrite mbind_getp, mbind_getp. destruct (Z.eqb_spec (rp_state (w_pool w)) rs_opened) as [C|_]; [contradiction|]. reflexivity. Qed.
  Lemma max_before fuel v (w : world) : rp_state (w_pool w) <> rs_opened -> set_max_runspaces E fuel v w = (Ret tt, set_w_pool (set_rp_max (VInt v) (w_pool w)) w).
  Proof. intros S. unfold set_max_runspaces. rewrite mbind_getp, mbind_getp. destruct (Z.eqb_spec (rp_state (w_pool w)) rs_opened) as [C|_]; [contradiction|]. reflexivity. Qed.
  Lemma min_same fuel v (w : world) : rp_state (w_pool w) = rs_opened -> rp_min (w_pool w) = VInt v -> set_min_runspaces E fuel v w = (Ret tt, w).
  Proof. intros S X. unfold set_min_runspaces. rewrite mbind_getp, mbind_getp, S, X. cbn [rval_is]. rewrite (Z.eqb_refl v). reflexivity. Qed.
  Lemma max_same fuel v (w : world) : rp_state (w_pool w) = rs_opened -> rp_max (w_pool w) = VInt v -> set_max_runspaces E fuel v w = (Ret tt, w).
  Proof. intros S X. unfold set_max_runspaces. rewrite mbind_getp, mbind_getp, S, X. cbn [rval_is]. rewrite (Z.eqb_refl v). reflexivity. Qed.
  Lemma min_call fuel v (w : world) : rp_state (w_pool w) = rs_opened -> rval_is (rp_min (w_pool w)) v = false ->
    let '(x, w') := set_min_runspaces E fuel v w in
    settled_call E (rp_ci (w_pool w)) (OSetMin v (rp_ci (w_pool w))) x w w' /\ (x = Ret tt -> rp_min (w_pool w') = VInt v).
  Proof.
    intros S X. unfold set_min_runspaces. rewrite mbind_getp, mbind_getp, S, X. change (negb (Z.eqb rs_opened rs_opened)) with false. cbv iota.
    pose proof (limit_call E HSetMin (fun ci => OSetMin v ci) fuel (fun ci => updp (set_rp_min (VInt v)) ;;; forget ci) w) as L. cbv zeta beta in L.
    destruct ((ci <-- ask E HSetMin (fun ci => OSetMin v ci) ;; receive_until E fuel (fun w0 => is_bool (slot_of ci w0)) ;;; updp (set_rp_min (VInt v)) ;;; forget ci) w) as [x w'] eqn:Eq.
    cbn [fst snd] in L. destruct L as [A B]; [discriminate|intros ci w1; eexists; split; reflexivity|reflexivity|]. split; [exact A|].
    intros Hx. destruct (B Hx) as [w1 ->]. reflexivity.
  Qed.
  Lemma max_call fuel v (w : world) : rp_state (w_pool w) = rs_opened -> rval_is (rp_max (w_pool w)) v = false ->
    let '(x, w') := set_max_runspaces E fuel v w in
    settled_call E (rp_ci (w_pool w)) (OSetMax v (rp_ci (w_pool w))) x w w' /\ (x = Ret tt -> rp_max (w_pool w') = VInt v).
  Proof.
    intros S X. unfold set_max_runspaces. rewrite mbind_getp, mbind_getp, S, X. change (negb (Z.eqb rs_opened rs_opened)) with false. cbv iota.
    pose proof (limit_call E HSetMax (fun ci => OSetMax v ci) fuel (fun ci => updp (set_rp_max (VInt v)) ;;; forget ci) w) as L. cbv zeta beta in L.
    destruct ((ci <-- ask E HSetMax (fun ci => OSetMax v ci) ;; receive_until E fuel (fun w0 => is_bool (slot_of ci w0)) ;;; updp (set_rp_max (VInt v)) ;;; forget ci) w) as [x w'] eqn:Eq.
    cbn [fst snd] in L. destruct L as [A B]; [discriminate|intros ci w1; eexists; split; reflexivity|reflexivity|]. split; [exact A|].
    intros Hx. destruct (B Hx) as [w1 ->]. reflexivity.
  Qed.
End Pool11.
Section Pool11b.
  Context {Obj Cmd HS RK : Type} (E : env Obj Cmd HS RK).
  Notation world := (world Obj Cmd HS RK).
  Lemma state_follows_server fuel (o : op) :
    match o with PoolOpen _ | PoolClose | PoolConnect | PoolDisconnect | IsAlive _ => false | _ => true end = true ->
    forall w : world, let w' := snd (run_op E fuel o w) in
    exists l, since w w' l /\
      ((rp_state (w_pool w') = rp_state (w_pool w) /\ forall pl m st, In (EMsg pl m) l -> ~ reports E m st) \/
       last_reported E l (rp_state (w_pool w'))).
  Proof. intros H w. apply (told_op E fuel o). destruct o; cbn in *; congruence. Qed.
  Lemma pool_each_updps rs : forall (w w' : world) x, each (fun kv : list N * nat => updps (snd kv) (set_ps_state pl_disconnected)) rs w = (x, w') ->
    x = Ret tt /\ w_pool w' = w_pool w /\ w_hist w' = w_hist w.
  Proof.
    induction rs as [|[i j] rs IH]; intros w w' x H; cbn [each] in H.
    - unfold ret in H. apply pair_inj in H as [<- <-]. auto.
    - rewrite mbind_updps in H. apply IH in H as (-> & -> & ->). auto.
  Qed.
  Lemma disconnect_acts (w : world) : rp_state (w_pool w) = rs_opened ->
    exists q a w', pool_disconnect E w =
        (match a with WBody _ => Ret tt | WFault f => Raise (XFault f) | WHttp c t => Raise (XHttp c t) | WExn e => Raise (XExn e) end, w') /\
      requests w w' [(q, a)] /\ q_op q = OpDisconnect /\
      q_selectors q = Some (shell_selector (or_empty (sh_id (rp_shell (w_pool w))))) /\
      rp_state (w_pool w') = match a with WBody _ => rs_disconnected | _ => rs_opened end.
  Proof.
    intros S. unfold pool_disconnect. rewrite mbind_getp, S. change (Z.eqb rs_opened rs_disconnected) with false.
    change (negb (Z.eqb rs_opened rs_opened)) with false. cbv iota. rewrite mbind_getp.
    match goal with |- context [conn_request E ?op ?b ?o ?s] => destruct (conn_effect E op b o s w) as [q [x [Ex [_ [O [_ [_ [Sl _]]]]]]]] end.
    unfold mbind at 1. rewrite Ex. exists q, x.
    destruct x as [b| | |]; [|eexists; (split; [reflexivity|]; split; [reflexivity|]; split; [exact O|]; split; [exact Sl|exact S])..].
    rewrite mbind_updp, mbind_getp. match goal with |- context [each ?f ?l ?w2] => destruct (each f l w2) as [x w'] eqn:Ee end.
    destruct (pool_each_updps _ _ _ _ Ee) as (-> & P & Hh). exists w'. split; [reflexivity|]. split; [unfold requests; rewrite Hh; reflexivity|].
    split; [exact O|]. split; [exact Sl|]. rewrite P. reflexivity.
  Qed.
End Pool11b.
