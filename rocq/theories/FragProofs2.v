(* Proofs about the receiver: refinement to the sequence-checking receiver. *)
From Coq Require Import Lia ZifyBool ZifyNat ZifyN Permutation.
From Verif Require Import Base BaseProofs FragModel FragSpec FragProofs.

Lemma Zeqb_spec' : forall a b : Z, Z.eqb a b = true <-> a = b.
Proof. intros; apply Z.eqb_eq. Qed.

Lemma mapM_app {A B} (f : A -> res B) l1 l2 y1 y2 :
  mapM f l1 = Ok y1 -> mapM f l2 = Ok y2 -> mapM f (l1 ++ l2) = Ok (y1 ++ y2).
Proof.
  revert y1; induction l1 as [|x l1 IH]; simpl; intros y1 H1 H2.
  - inversion H1; subst. exact H2.
  - unfold bind in *. destruct (f x); [|discriminate].
    destruct (mapM f l1) as [ys|]; [|discriminate]. inversion H1; subst.
    rewrite (IH ys eq_refl H2). reflexivity.
Qed.

Lemma mapM_app_inv {A B} (f : A -> res B) l1 l2 y :
  mapM f (l1 ++ l2) = Ok y ->
  exists y1 y2, mapM f l1 = Ok y1 /\ mapM f l2 = Ok y2 /\ y = y1 ++ y2.
Proof.
  revert y; induction l1 as [|x l1 IH]; simpl; intros y H.
  - exists [], y. auto.
  - unfold bind in *. destruct (f x); [|discriminate].
    destruct (mapM f (l1 ++ l2)) as [ys|] eqn:E; [|discriminate]. inversion H; subst.
    destruct (IH ys eq_refl) as (y1 & y2 & -> & -> & ->).
    eexists; eexists. repeat split.
Qed.

Lemma word_wire_nil : word_wire [] [].
Proof. exists []; split; reflexivity. Qed.

Lemma word_wire_app w1 w2 d1 d2 :
  word_wire w1 d1 -> word_wire w2 d2 -> word_wire (w1 ++ w2) (d1 ++ d2).
Proof.
  intros (b1 & H1 & ->) (b2 & H2 & ->). exists (b1 ++ b2). split.
  - now apply mapM_app.
  - now rewrite concat_app.
Qed.

Lemma word_wire_cons_inv t i w d :
  word_wire ((t, i) :: w) d ->
  exists d', frag_range (frag_of t i) /\ d = frag_bytes (frag_of t i) ++ d' /\ word_wire w d'.
Proof.
  intros (bs & H & ->). cbn [mapM fst snd] in H. unfold bind in H.
  destruct (frag_pack (frag_of t i)) as [b|] eqn:E; [|discriminate].
  destruct (mapM _ w) as [bs'|] eqn:E2; [|discriminate].
  inversion H; subst; clear H.
  apply frag_pack_inv in E as [R ->].
  exists (concat bs'). repeat split; try assumption; try apply R. now exists bs'.
Qed.

Lemma frag_bytes_nonempty f d : frag_bytes f ++ d <> [].
Proof.
  intros H. apply (f_equal (@length N)) in H. rewrite app_length in H.
  pose proof (frag_bytes_length f) as L. unfold zlen in L. simpl in H. lia.
Qed.

(* The relation between the receiver's table and the specification. *)
Definition entry_ok (t : transit) (e : nat) (o : option inbuf) : Prop :=
  match o with
  | None => e = 0
  | Some ib => ib_id ib = Z.of_nat e /\ ib_data ib = concat (firstn e (t_pieces t))
  end.

Definition rel (ts : list transit) (r0 : receiver) (e : expect) (r : receiver) : Prop :=
  (forall t, In t ts -> entry_ok t (e (t_oid t)) (dict_get Z.eqb (t_oid t) r)) /\
  (forall k, ~ In k (map t_oid ts) -> dict_get Z.eqb k r = dict_get Z.eqb k r0).

Lemma NoDup_oid_inj ts t t' :
  NoDup (map t_oid ts) -> In t ts -> In t' ts -> t_oid t = t_oid t' -> t = t'.
Proof.
  induction ts as [|x ts IH]; simpl; [tauto|].
  intros Hn H1 H2 E. inversion Hn as [|? ? Hx Hn']; subst.
  destruct H1 as [->|H1], H2 as [->|H2]; [reflexivity| | |auto].
  - exfalso. apply Hx. rewrite E. now apply in_map.
  - exfalso. apply Hx. rewrite <- E. now apply in_map.
Qed.

Lemma concat_firstn_S {A} (l : list (list A)) i :
  i < length l -> concat (firstn (S i) l) = concat (firstn i l) ++ nth i l [].
Proof.
  revert i; induction l as [|x l IH]; intros i H; [simpl in H; lia|].
  destruct i as [|i]; [simpl; now rewrite app_nil_r|].
  simpl in H. cbn [firstn concat nth]. cbn [firstn] in IH.
  specialize (IH i). rewrite <- app_assoc, <- IH by lia. reflexivity.
Qed.

Lemma upd_same e k v : upd e k v k = v.
Proof. unfold upd. now rewrite Z.eqb_refl. Qed.
Lemma upd_other e k v x : x <> k -> upd e k v x = e x.
Proof. unfold upd. intros H. destruct (Z.eqb_spec x k); [contradiction|reflexivity]. Qed.

Lemma rel_set ts r0 e r t v e' :
  NoDup (map t_oid ts) -> In t ts -> rel ts r0 e r ->
  entry_ok t e' (Some v) ->
  rel ts r0 (upd e (t_oid t) e') (dict_set Z.eqb (t_oid t) v r).
Proof.
  intros Hn Ht [R1 R2] Hv. split.
  - intros t' Ht'. destruct (Z.eq_dec (t_oid t') (t_oid t)) as [E|E].
    + apply (NoDup_oid_inj ts t' t Hn Ht' Ht) in E; subst t'.
      rewrite upd_same, (dict_get_set_same _ Zeqb_spec'). exact Hv.
    + rewrite upd_other, (dict_get_set_other _ Zeqb_spec') by assumption. now apply R1.
  - intros k Hk. rewrite (dict_get_set_other _ Zeqb_spec').
    + now apply R2.
    + intros ->. apply Hk. now apply in_map.
Qed.

Lemma rel_del ts r0 e r t :
  NoDup (map t_oid ts) -> In t ts -> rel ts r0 e r ->
  rel ts r0 (upd e (t_oid t) 0) (dict_del Z.eqb (t_oid t) r).
Proof.
  intros Hn Ht [R1 R2]. split.
  - intros t' Ht'. destruct (Z.eq_dec (t_oid t') (t_oid t)) as [E|E].
    + apply (NoDup_oid_inj ts t' t Hn Ht' Ht) in E; subst t'.
      rewrite upd_same, (dict_get_del_same _). reflexivity.
    + rewrite upd_other, (dict_get_del_other _ Zeqb_spec') by assumption. now apply R1.
  - intros k Hk. rewrite (dict_get_del_other _ Zeqb_spec').
    + now apply R2.
    + intros ->. apply Hk. now apply in_map.
Qed.

Lemma rel_ext ts r0 e e' r :
  (forall k, e k = e' k) -> rel ts r0 e r -> rel ts r0 e' r.
Proof. intros H [R1 R2]. split; [|exact R2]. intros t Ht. rewrite <- H. now apply R1. Qed.

(* No empty entry is left behind while no error occurred. *)
Definition clean (ts : list transit) (e : expect) (r : receiver) : Prop :=
  forall t, In t ts -> e (t_oid t) = 0 -> dict_get Z.eqb (t_oid t) r = None.

Lemma defrag_step_rel ts r0 e r t i :
  NoDup (map t_oid ts) -> In t ts -> i < length (t_pieces t) ->
  rel ts r0 e r ->
  exists r', 
    (if Nat.eqb i (e (t_oid t)) then
       defrag_step r (frag_of t i) =
         (r', Ok (if is_last (t, i) then Some (t_msg t) else None)) /\
       rel ts r0 (upd e (t_oid t) (if is_last (t, i) then 0 else S i)) r' /\
       (clean ts e r -> clean ts (upd e (t_oid t) (if is_last (t, i) then 0 else S i)) r')
     else
       defrag_step r (frag_of t i) = (r', Err FragmentError) /\ rel ts r0 e r').
Proof.
  intros Hn Ht Hi R.
  set (E := e (t_oid t)).
  pose proof (proj1 R t Ht) as Hent. fold E in Hent.
  unfold defrag_step, frag_of; cbn [fr_oid fr_id fr_data fr_start fr_end].
  (* the entry looked up or created *)
  assert (G : exists r1 ib,
             (match dict_get Z.eqb (t_oid t) r with
              | Some ib => (r, ib)
              | None => (dict_set Z.eqb (t_oid t) (mkInbuf [] 0) r, mkInbuf [] 0)
              end) = (r1, ib) /\ entry_ok t E (Some ib) /\ rel ts r0 e r1 /\
             (forall k, k <> t_oid t -> dict_get Z.eqb k r1 = dict_get Z.eqb k r)).
  { destruct (dict_get Z.eqb (t_oid t) r) as [ib|] eqn:D.
    - exists r, ib. repeat split; try assumption; try apply Hent; try apply R; auto.
    - simpl in Hent. exists (dict_set Z.eqb (t_oid t) (mkInbuf [] 0) r), (mkInbuf [] 0).
      repeat split.
      + cbn. lia.
      + rewrite Hent. reflexivity.
      + eapply rel_ext; [|apply (rel_set ts r0 e r t (mkInbuf [] 0) 0 Hn Ht R)].
        * intros k. unfold upd. destruct (Z.eqb_spec k (t_oid t)); [subst k; symmetry; exact Hent|reflexivity].
        * split; reflexivity.
      + eapply rel_ext; [|apply (rel_set ts r0 e r t (mkInbuf [] 0) 0 Hn Ht R)].
        * intros k. unfold upd. destruct (Z.eqb_spec k (t_oid t)); [subst k; symmetry; exact Hent|reflexivity].
        * split; reflexivity.
      + intros k Hk. now apply (dict_get_set_other _ Zeqb_spec'). }
  destruct G as (r1 & ib & -> & [Hid Hdata] & R1 & Hother).
  rewrite Hid.
  destruct (Nat.eqb_spec i E) as [Ei|Ei].
  2:{ replace (Z.of_nat i =? Z.of_nat E)%Z with false by lia. cbn [negb].
      exists r1. split; [reflexivity|exact R1]. }
  replace (Z.of_nat i =? Z.of_nat E)%Z with true by lia. cbn [negb].
  assert (Hdel : clean ts e r -> clean ts (upd e (t_oid t) 0) (dict_del Z.eqb (t_oid t) r1)).
  { intros C t' Ht' He. destruct (Z.eq_dec (t_oid t') (t_oid t)) as [Eo|Eo].
    - rewrite Eo. apply dict_get_del_same.
    - rewrite upd_other in He by assumption.
      rewrite (dict_get_del_other _ Zeqb_spec') by assumption.
      rewrite Hother by assumption. now apply C. }
  assert (Hset : forall v, clean ts e r -> clean ts (upd e (t_oid t) (S i)) (dict_set Z.eqb (t_oid t) v r1)).
  { intros v C t' Ht' He. destruct (Z.eq_dec (t_oid t') (t_oid t)) as [Eo|Eo].
    - rewrite Eo, upd_same in He. discriminate.
    - rewrite upd_other in He by assumption.
      rewrite (dict_get_set_other _ Zeqb_spec') by assumption.
      rewrite Hother by assumption. now apply C. }
  assert (Hnth : concat (firstn (S i) (t_pieces t)) = ib_data ib ++ nth i (t_pieces t) []).
  { rewrite concat_firstn_S by assumption. now rewrite Hdata, Ei. }
  unfold is_last; cbn [fst snd].
  destruct (Nat.eqb_spec i 0) as [Z0|Z0]; destruct (Nat.eqb_spec (S i) (length (t_pieces t))) as [L|L];
    cbn [andb].
  - exists (dict_del Z.eqb (t_oid t) r1). split; [|split; [now apply rel_del|exact Hdel]].
    f_equal. f_equal. unfold t_msg. f_equal.
    subst i. destruct (t_pieces t) as [|p [|p' ps]]; simpl in L; try discriminate; try lia.
    rewrite Z0. simpl. now rewrite app_nil_r.
  - exists (dict_set Z.eqb (t_oid t) (mkInbuf (nth i (t_pieces t) []) (Z.of_nat E + 1)) r1).
    split; [reflexivity|split; [|apply Hset]].
    apply rel_set; try assumption. split; cbn [ib_id ib_data]; [lia|].
    rewrite Hnth, Hdata, <- Ei, Z0. reflexivity.
  - exists (dict_del Z.eqb (t_oid t) r1). split; [|split; [now apply rel_del|exact Hdel]].
    f_equal. f_equal. f_equal. unfold t_msg. rewrite <- Hnth, L. now rewrite firstn_all.
  - exists (dict_set Z.eqb (t_oid t) (mkInbuf (ib_data ib ++ nth i (t_pieces t) []) (Z.of_nat E + 1)) r1).
    split; [reflexivity|split; [|apply Hset]].
    apply rel_set; try assumption. split; cbn [ib_id ib_data]; [lia|].
    now rewrite Hnth.
Qed.

Lemma defrag_loop_spec ts r0 :
  NoDup (map t_oid ts) ->
  forall w fuel e r data acc,
    word_over ts w -> word_wire w data -> length data <= fuel -> rel ts r0 e r ->
    exists r',
      defrag_loop fuel r data acc =
        (r', match snd (spec_recv e w) with
             | Some ms => Ok (acc ++ ms) | None => Err FragmentError end) /\
      rel ts r0 (fst (spec_recv e w)) r' /\
      (snd (spec_recv e w) <> None -> clean ts e r -> clean ts (fst (spec_recv e w)) r').
Proof.
  intros Hn. induction w as [|[t i] w IH]; intros fuel e r data acc Hw Hd Hf R.
  - destruct Hd as (bs & H & ->). cbn [mapM] in H. inversion H; subst.
    exists r. cbn [spec_recv fst snd concat]. rewrite app_nil_r.
    destruct fuel; (split; [reflexivity|]); split; auto.
  - apply word_wire_cons_inv in Hd as (d' & Rg & -> & Hd).
    inversion Hw as [|? ? [Ht Hi] Hw']; subst. cbn [fst snd] in Ht, Hi.
    assert (Hlen : length d' < fuel).
    { rewrite app_length in Hf. pose proof (frag_bytes_length (frag_of t i)) as L.
      unfold zlen in L. lia. }
    destruct fuel as [|fuel]; [lia|].
    assert (EQ : defrag_loop (S fuel) r (frag_bytes (frag_of t i) ++ d') acc =
                 match defrag_step r (frag_of t i) with
                 | (r', Err e0) => (r', Err e0)
                 | (r', Ok None) => defrag_loop fuel r' d' acc
                 | (r', Ok (Some m)) => defrag_loop fuel r' d' (acc ++ [m])
                 end).
    { pose proof (frag_bytes_nonempty (frag_of t i) d') as NE.
      pose proof (frag_unpack_bytes (frag_of t i) d' Rg) as U.
      destruct (frag_bytes (frag_of t i) ++ d') as [|x l]; [contradiction|].
      cbn [defrag_loop]. rewrite U. reflexivity. }
    rewrite EQ; clear EQ.
    destruct (defrag_step_rel ts r0 e r t i Hn Ht Hi R) as (r1 & S1).
    cbn [spec_recv].
    destruct (Nat.eqb i (e (t_oid t))) eqn:Ee.
    + destruct S1 as (S1 & R1 & C1). rewrite S1.
      destruct (is_last (t, i)) eqn:Il.
      * destruct (IH fuel _ r1 d' (acc ++ [t_msg t]) Hw' Hd ltac:(lia) R1) as (r' & D & R' & C').
        exists r'. destruct (spec_recv (upd e (t_oid t) 0) w) as [e' o]. cbn [fst snd] in *.
        split; [rewrite D; destruct o; cbn [option_map]; [now rewrite <- app_assoc|reflexivity]|].
        split; [assumption|]. intros Ho Cl. apply C'; [|now apply C1].
        destruct o; [discriminate|exact Ho].
      * destruct (IH fuel _ r1 d' acc Hw' Hd ltac:(lia) R1) as (r' & D & R' & C').
        exists r'. destruct (spec_recv (upd e (t_oid t) (S i)) w) as [e' o]. cbn [fst snd] in *.
        split; [rewrite D; destruct o; reflexivity|].
        split; [assumption|]. intros Ho Cl. apply C'; [|now apply C1].
        destruct o; [discriminate|exact Ho].
    + destruct S1 as (S1 & R1). rewrite S1. exists r1. cbn [fst snd].
      split; [reflexivity|]. split; [exact R1|]. intros Hx; now destruct Hx.
Qed.

Lemma receive_calls_spec ts r0 :
  NoDup (map t_oid ts) ->
  forall ws datas e r,
    Forall (word_over ts) ws -> Forall2 word_wire ws datas -> rel ts r0 e r ->
    exists r',
      receive_calls r datas = (r', map observe (snd (spec_calls e ws))) /\
      rel ts r0 (fst (spec_calls e ws)) r' /\
      (Forall (fun o => o <> None) (snd (spec_calls e ws)) -> clean ts e r ->
       clean ts (fst (spec_calls e ws)) r').
Proof.
  intros Hn. induction ws as [|w ws IH]; intros datas e r Hw Hd R.
  - inversion Hd; subst. exists r. cbn [receive_calls spec_calls map fst snd].
    split; [reflexivity|]. split; [exact R|auto].
  - inversion Hd as [|? d ? ds Hd1 Hd2]; subst. inversion Hw as [|? ? Hw1 Hw2]; subst.
    destruct (defrag_loop_spec ts r0 Hn w (length d) e r d [] Hw1 Hd1 (le_n _) R) as (r1 & D & R1 & C1).
    cbn [receive_calls spec_calls]. unfold defragment. rewrite D.
    destruct (spec_recv e w) as [e1 o1]. cbn [fst snd] in *.
    destruct (IH ds e1 r1 Hw2 Hd2 R1) as (r' & D' & R' & C').
    rewrite D'. destruct (spec_calls e1 ws) as [e2 os]. cbn [fst snd map] in *.
    exists r'. split; [destruct o1; reflexivity|]. split; [exact R'|].
    intros Ho Cl. inversion Ho; subst. apply C'; auto.
Qed.

Lemma rel_init ts r0 :
  (forall t, In t ts -> dict_get Z.eqb (t_oid t) r0 = None) -> rel ts r0 expect0 r0.
Proof.
  intros H. split.
  - intros t Ht. rewrite (H t Ht). reflexivity.
  - reflexivity.
Qed.

Lemma clean_init ts r0 :
  (forall t, In t ts -> dict_get Z.eqb (t_oid t) r0 = None) -> clean ts expect0 r0.
Proof. intros H t Ht _. now apply H. Qed.

Theorem receive_refines ts r0 ws datas :
  NoDup (map t_oid ts) ->
  (forall t, In t ts -> dict_get Z.eqb (t_oid t) r0 = None) ->
  Forall (word_over ts) ws -> Forall2 word_wire ws datas ->
  snd (receive_calls r0 datas) = map observe (snd (spec_calls expect0 ws)).
Proof.
  intros Hn H0 Hw Hd.
  destruct (receive_calls_spec ts r0 Hn ws datas expect0 r0 Hw Hd (rel_init ts r0 H0))
    as (r' & D & _). now rewrite D.
Qed.

(* Everything delivered is an original message, whatever the order. *)
Lemma spec_recv_originals e w ms :
  snd (spec_recv e w) = Some ms -> ms = completes w.
Proof.
  revert e ms; induction w as [|[t i] w IH]; intros e ms H.
  - cbn in H. now inversion H.
  - cbn [spec_recv] in H. unfold completes. cbn [filter].
    destruct (Nat.eqb i (e (t_oid t))); [|discriminate].
    destruct (spec_recv (upd e (t_oid t) (if is_last (t, i) then 0 else S i)) w) as [e' o] eqn:E.
    cbn [snd] in H. destruct o as [ms'|]; [|discriminate]. cbn [option_map] in H.
    inversion H; subst; clear H.
    rewrite (IH (upd e (t_oid t) (if is_last (t, i) then 0 else S i)) ms').
    2:{ now rewrite E. }
    unfold completes. destruct (is_last (t, i)); reflexivity.
Qed.

Lemma spec_calls_originals ws : forall e,
  Forall2 (fun w o => o = None \/ o = Some (completes w)) ws (snd (spec_calls e ws)).
Proof.
  induction ws as [|w ws IH]; intros e; cbn [spec_calls]; [constructor|].
  destruct (spec_recv e w) as [e' o] eqn:E.
  pose proof (IH e') as I. destruct (spec_calls e' ws) as [e'' os]. cbn [snd] in *.
  constructor; [|exact I].
  destruct o as [ms|]; [right|now left].
  f_equal. apply (spec_recv_originals e). now rewrite E.
Qed.

(* ---- interleavings ---- *)
Definition suffix_of (e : expect) (t : transit) (s : word) : Prop :=
  (s = [] /\ e (t_oid t) = 0) \/
  (exists k, k < length (t_pieces t) /\ e (t_oid t) = k /\
             s = map (fun i => (t, i)) (seq k (length (t_pieces t) - k))).

Lemma Forall2_app_inv_r' {A B} (P : A -> B -> Prop) l l1 x l2 :
  Forall2 P l (l1 ++ x :: l2) ->
  exists k1 y k2, l = k1 ++ y :: k2 /\ Forall2 P k1 l1 /\ P y x /\ Forall2 P k2 l2.
Proof.
  intros H. apply Forall2_app_inv_r in H as (k1 & k' & H1 & H2 & ->).
  inversion H2 as [|y ? k2 ? Hy Hk]; subst. eauto 10.
Qed.

Lemma suffix_step e ts l1 t k s l2 :
  NoDup (map t_oid ts) ->
  Forall2 (suffix_of e) ts (l1 ++ ((t, k) :: s) :: l2) ->
  In t ts /\ k < length (t_pieces t) /\ e (t_oid t) = k /\
  Forall2 (suffix_of (upd e (t_oid t) (if is_last (t, k) then 0 else S k))) ts (l1 ++ s :: l2).
Proof.
  intros Hn H. apply Forall2_app_inv_r' in H as (k1 & t' & k2 & -> & F1 & Ft & F2).
  destruct Ft as [[Hs _]|(k' & Hk & He & Hs)]; [discriminate|].
  destruct (length (t_pieces t') - k') as [|m] eqn:Em; [lia|].
  cbn [seq map] in Hs. inversion Hs; subst t' k s; clear Hs.
  split; [apply in_or_app; right; now left|].
  split; [assumption|]. split; [assumption|].
  assert (Hne : forall x, In x (k1 ++ k2) -> t_oid x <> t_oid t).
  { intros x Hx Ex. rewrite map_app in Hn. cbn [map] in Hn.
    apply NoDup_remove_2 in Hn. apply Hn. rewrite <- map_app, <- Ex. now apply in_map. }
  assert (FF : forall e' xs ys, (forall x, In x xs -> e' (t_oid x) = e (t_oid x)) ->
               Forall2 (suffix_of e) xs ys -> Forall2 (suffix_of e') xs ys).
  { intros e' xs ys He' F. induction F as [|x y xs ys Hxy F IH]; constructor.
    - unfold suffix_of in *. rewrite (He' x) by now left. exact Hxy.
    - apply IH. intros z Hz. apply He'. now right. }
  apply Forall2_app; [|constructor].
  - apply FF; [|exact F1]. intros x Hx. apply upd_other. apply Hne. apply in_or_app; now left.
  - unfold suffix_of. rewrite upd_same. unfold is_last. cbn [fst snd].
    destruct (Nat.eqb_spec (S k') (length (t_pieces t))) as [L|L].
    + left. split; [|reflexivity]. assert (m = 0) by lia. subst m. reflexivity.
    + right. exists (S k'). repeat split; try lia.
      replace (length (t_pieces t) - S k') with m by lia. reflexivity.
  - apply FF; [|exact F2]. intros x Hx. apply upd_other. apply Hne. apply in_or_app; now right.
Qed.

Lemma interleave_over ts e ss w :
  NoDup (map t_oid ts) -> Forall2 (suffix_of e) ts ss -> interleave ss w -> word_over ts w.
Proof.
  intros Hn F I. revert e F. induction I as [ls Hls|l1 [t k] s l2 w I IH]; intros e F; [constructor|].
  destruct (suffix_step e ts l1 t k s l2 Hn F) as (Ht & Hk & He & F').
  constructor; [split; assumption|]. now apply (IH _ F').
Qed.

(* One call that takes a prefix of an interleaving. *)
Lemma interleave_app_spec ts w1 : forall w2 e ss,
  NoDup (map t_oid ts) -> Forall2 (suffix_of e) ts ss -> interleave ss (w1 ++ w2) ->
  exists e' ss', spec_recv e w1 = (e', Some (completes w1)) /\
                 Forall2 (suffix_of e') ts ss' /\ interleave ss' w2.
Proof.
  induction w1 as [|[t k] w1 IH]; intros w2 e ss Hn F I.
  - exists e, ss. auto.
  - cbn [app] in I. inversion I as [|l1 x s l2 w I']; subst.
    destruct (suffix_step e ts l1 t k s l2 Hn F) as (Ht & Hk & He & F').
    destruct (IH w2 _ _ Hn F' I') as (e' & ss' & S & F'' & I'').
    exists e', ss'. split; [|auto]. cbn [spec_recv]. rewrite He, Nat.eqb_refl, S.
    unfold completes. cbn [filter option_map]. destruct (is_last (t, k)); reflexivity.
Qed.

Lemma interleave_calls_spec ts ws : forall e ss,
  NoDup (map t_oid ts) -> Forall2 (suffix_of e) ts ss -> interleave ss (concat ws) ->
  exists e', spec_calls e ws = (e', map (fun w => Some (completes w)) ws) /\
             Forall (fun t => e' (t_oid t) = 0) ts.
Proof.
  induction ws as [|w ws IH]; intros e ss Hn F I.
  - cbn [concat] in I. inversion I as [ls Hls|]; subst. exists e. split; [reflexivity|].
    clear I Hn. induction F as [|t s ts ss Hts F IH]; constructor.
    + inversion Hls; subst. destruct Hts as [[_ H]|(k & Hk & _ & Hs)]; [exact H|].
      destruct (length (t_pieces t) - k) eqn:El; [lia|discriminate].
    + apply IH. now inversion Hls.
  - cbn [concat] in I.
    destruct (interleave_app_spec ts w (concat ws) e ss Hn F I) as (e1 & ss1 & S & F1 & I1).
    destruct (IH e1 ss1 Hn F1 I1) as (e2 & S2 & Z2).
    exists e2. split; [|exact Z2]. cbn [spec_calls map]. now rewrite S, S2.
Qed.

Lemma suffix_init ts :
  Forall (fun t => t_pieces t <> []) ts -> Forall2 (suffix_of expect0) ts (map stream ts).
Proof.
  induction 1 as [|t ts Ht H IH]; cbn [map]; constructor; [|exact IH].
  right. exists 0. destruct (t_pieces t) eqn:E; [contradiction|].
  repeat split; [cbn [length]; lia|]. unfold stream. rewrite E, Nat.sub_0_r. reflexivity.
Qed.

Lemma interleave_perm {A} (ls : list (list A)) w : interleave ls w -> Permutation (concat ls) w.
Proof.
  induction 1 as [ls H|l1 x s l2 w I IH].
  - induction H as [|l ls Hl H IH]; [reflexivity|]. subst l. exact IH.
  - rewrite concat_app in *. cbn [concat] in *. cbn [app].
    rewrite <- IH. symmetry. apply Permutation_middle.
Qed.

Lemma completes_app a b : completes (a ++ b) = completes a ++ completes b.
Proof. unfold completes. now rewrite filter_app, map_app. Qed.

Lemma completes_concat ws : concat (map completes ws) = completes (concat ws).
Proof. induction ws as [|w ws IH]; [reflexivity|]. cbn [map concat]. now rewrite completes_app, IH. Qed.

Lemma Permutation_completes a b : Permutation a b -> Permutation (completes a) (completes b).
Proof.
  intros H. unfold completes. apply Permutation_map.
  induction H as [| x l l' H IH | x y l | l l' l'' H1 IH1 H2 IH2]; cbn [filter].
  - reflexivity.
  - destruct (is_last x); [now constructor|exact IH].
  - destruct (is_last x), (is_last y); try reflexivity. apply perm_swap.
  - now transitivity (filter is_last l').
Qed.

Lemma completes_stream_from t : forall n k,
  n = length (t_pieces t) - k -> k < length (t_pieces t) ->
  completes (map (fun i => (t, i)) (seq k n)) = [t_msg t].
Proof.
  induction n as [|n IH]; intros k Hn Hk; [lia|].
  cbn [seq map]. unfold completes. cbn [filter]. unfold is_last at 1. cbn [fst snd].
  destruct (Nat.eqb_spec (S k) (length (t_pieces t))) as [L|L].
  - assert (n = 0) by lia. subst n. reflexivity.
  - apply IH; lia.
Qed.

Lemma completes_stream t : t_pieces t <> [] -> completes (stream t) = [t_msg t].
Proof.
  intros H. unfold stream. apply completes_stream_from; [lia|].
  destruct (t_pieces t); [contradiction|]. cbn [length]; lia.
Qed.

Lemma completes_streams ts :
  Forall (fun t => t_pieces t <> []) ts ->
  completes (concat (map stream ts)) = map t_msg ts.
Proof.
  induction 1 as [|t ts Ht H IH]; [reflexivity|]. cbn [map concat].
  now rewrite completes_app, completes_stream, IH.
Qed.

Theorem interleaved_delivery ts r0 ws datas :
  NoDup (map t_oid ts) -> Forall (fun t => t_pieces t <> []) ts ->
  (forall t, In t ts -> dict_get Z.eqb (t_oid t) r0 = None) ->
  interleave (map stream ts) (concat ws) -> Forall2 word_wire ws datas ->
  exists r', receive_calls r0 datas = (r', map (fun w => Ok (completes w)) ws) /\
             same_table r' r0 /\
             Permutation (concat (map completes ws)) (map t_msg ts).
Proof.
  intros Hn Hp H0 I Hd.
  pose proof (suffix_init ts Hp) as F0.
  pose proof (interleave_over ts _ _ _ Hn F0 I) as HO.
  assert (HW : Forall (word_over ts) ws).
  { clear - HO. induction ws as [|w ws IH]; [constructor|]. cbn [concat] in HO.
    unfold word_over in HO. apply Forall_app in HO as [H1 H2]. constructor; auto. }
  destruct (interleave_calls_spec ts ws expect0 _ Hn F0 I) as (e' & S & Z).
  destruct (receive_calls_spec ts r0 Hn ws datas expect0 r0 HW Hd (rel_init ts r0 H0)) as (r' & D & R & C).
  rewrite S in *. cbn [fst snd] in *.
  exists r'. split.
  - rewrite D. f_equal. rewrite map_map. reflexivity.
  - split.
    + intros k. destruct (in_dec Z.eq_dec k (map t_oid ts)) as [Hk|Hk].
      * apply in_map_iff in Hk as (t & <- & Ht).
        rewrite (H0 t Ht). apply C; auto.
        { apply Forall_forall. intros o Ho. apply in_map_iff in Ho as (w & <- & _). discriminate. }
        { now apply clean_init. }
        { now apply (proj1 (Forall_forall _ _) Z). }
      * now apply R.
    + rewrite completes_concat. rewrite <- (completes_streams ts Hp).
      apply Permutation_completes. symmetry. now apply interleave_perm.
Qed.

(* Sequential streams are an interleaving. *)
Lemma interleave_nil_cons {A} (ls : list (list A)) w : interleave ls w -> interleave ([] :: ls) w.
Proof.
  induction 1 as [ls H|l1 x s l2 w I IH].
  - constructor. now constructor.
  - apply (il_cons ([] :: l1) x s l2 w). exact IH.
Qed.

Lemma interleave_seq {A} (ls : list (list A)) : interleave ls (concat ls).
Proof.
  induction ls as [|l ls IH]; [constructor; constructor|].
  cbn [concat]. induction l as [|x l IHl].
  - cbn [app]. now apply interleave_nil_cons.
  - apply (il_cons [] x l ls). exact IHl.
Qed.
