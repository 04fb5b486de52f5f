(* The messages of a pool that has the serializer in it. *)
From Verif Require Import Base BaseProofs Lit NumModel TextSpec TextModel XmlModel XtModel XtSpec WsmanModel WsmanSpec ShellModel ShellSpec FragModel FragSpec FragProofs4 MsgModel MsgSpec MsgProofs
  UtilModel TransModel SerModel SerClasses SerSpec ClsSpec WfSpec WireModel SendClasses ObjModel StartModel StartSpec TellModel TellSpec LibModel BytesProofs TellProofs2.
From Verif Require Import PoolModel PoolSpec PoolProofs PoolProofs8 PoolProofs12 EnvModel EnvSpec HomeSpec JobSpec JobProofs JobProofs2.
Require Import Lia ZifyBool ZifyNat ZifyN.
Local Open Scope list_scope.

Lemma unhexlify_length : forall n s b, length s <= n -> unhexlify s = Ok b -> length s = 2 * length b.
Proof.
  induction n as [|n IH]; intros s b L H.
  - destruct s; [|cbn in L; lia]. apply Ok_inj in H. subst b. reflexivity.
  - destruct s as [|x [|y s]]; cbn [unhexlify] in H; [apply Ok_inj in H; subst b; reflexivity|discriminate H|].
    destruct (hex_value x); [|discriminate H]. destruct (hex_value y); [|discriminate H].
    apply bind_ok in H as (r & R & H). apply Ok_inj in H. subst b. cbn [length] in *. assert (length s <= n) by lia. specialize (IH s r H R). lia.
Qed.
Lemma guid_parse_is s g : guid_parse s = Ok g -> is_guid g.
Proof.
  intros H. split; [|exact (guid_parse_bytes s g H)]. unfold guid_parse in H. match type of H with (if Nat.eqb (length ?h) 32 then _ else _) = _ => destruct (Nat.eqb_spec (length h) 32) as [E|]; [|discriminate H]; pose proof (unhexlify_length _ h g (le_n _) H) end. lia.
Qed.
Lemma zero_guid : is_guid guid_zero.
Proof. split; [reflexivity|]. apply Forall_forall. intros c H. apply repeat_spec in H. subst c. reflexivity. Qed.
Definition id_bytes (id : option (list N)) : res guid := match id with Some s => guid_parse s | None => Ok guid_zero end.
Lemma id_bytes_is id g : id_bytes id = Ok g -> is_guid g.
Proof. destruct id as [s|]; cbn [id_bytes]; [apply guid_parse_is|]. intros H. apply Ok_inj in H. subst g. exact zero_guid. Qed.

Section Lib.
  Context {HS RK : Type} (x : outside HS RK) (U : usable_registry (x_registry x)) (heap : list hobj) (hs : option host).
  Notation E fuel := (library_env x fuel heap hs).
  Notation msg := (omsg graph (command value)).
  Lemma packs_alike fuel key rid pid r p (o : msg) : id_bytes (Some rid) = Ok r -> id_bytes pid = Ok p ->
    PoolModel.packed (E fuel) key rid pid o = message_pack (library_codec x fuel key []) (mkMsg dest_server (message_type o) r p (contents heap hs o)).
  Proof.
    intros Hr Hp. unfold PoolModel.packed, message_new. unfold id_bytes in Hr, Hp. rewrite Hr. cbn [bind]. rewrite Hp. cbn [bind]. destruct o; reflexivity.
  Qed.
  Lemma messages_come key rid pid r p (l : list msg) : id_bytes (Some rid) = Ok r -> id_bytes pid = Ok p ->
    Forall (fit_message (option_map (x_cipher x) key) (x_float x) heap hs) l ->
    exists f0, forall fuel, f0 <= fuel -> exists bs, mapM (PoolModel.packed (E fuel) key rid pid) l = Ok bs /\
      forall fuel', Forall2 (fun o b => understood (library_codec x fuel' key) r p b heap hs o) l bs.
  Proof.
    intros Hr Hp. pose proof (id_bytes_is _ _ Hr) as Gr. pose proof (id_bytes_is _ _ Hp) as Gp. induction l as [|o l IH]; intros F.
    - exists 0. intros fuel _. exists []. split; [reflexivity|]. intros fuel'. constructor.
    - destruct (IH (Forall_inv_tail F)) as (f1 & K1).
      destruct (message_comes (option_map (x_cipher x) key) (x_show x) (x_xml x) (x_float x) (x_registry x) U r p Gr Gp heap hs o (Forall_inv F)) as (f2 & K2).
      exists (f1 + f2). intros fuel L. destruct (K1 fuel) as (bs & M & V); [lia|]. destruct (K2 fuel) as (b & Pk & W); [lia|].
      exists (b :: bs). split.
      + cbn [mapM]. rewrite (packs_alike fuel key rid pid r p o Hr Hp). unfold library_codec. rewrite (Pk []). cbn [bind]. rewrite M. reflexivity.
      + intros fuel'. constructor; [exact (W fuel')|exact (V fuel')].
  Qed.
  Theorem started r a ms (w : world graph (command value) HS RK) rid pid : (forall b, speaks (x_srv x b)) -> fit_world w -> supplied (ia_input a) = Some ms ->
    guid_parse (rp_id (w_pool w)) = Ok rid -> guid_parse (ps_id (the_ps r w)) = Ok pid ->
    let s := rp_sender (w_pool w) in let sh := rp_shell (w_pool w) in let key := rp_cipher (w_pool w) in
    let o := creation (E 0) a (the_ps r w) (rp_apartment (w_pool w)) in
    Forall (fit_message (option_map (x_cipher x) key) (x_float x) heap hs) (o :: ms) ->
    (1 <= sd_max s < 2 ^ 32)%Z -> (0 <= sd_counter s)%Z -> (sd_counter s + 1 + zlen ms <= 2 ^ 64)%Z ->
    exists f0, forall fuel, f0 <= fuel -> forall w', begin_invoke (E fuel) r a w = (Ret tt, w') ->
    exists bs f rest q y qs cid ses, selected sh ses /\
      requests w w' ((q, WBody (Some y)) :: qs) /\
      request_read sh OpCommand (Some [(lit "WINRS_SKIP_CMD_SHELL", lit "False", [])]) ses None (launches (ps_id (the_ps r w)) f) q /\
      Forall2 (fun d e => request_read sh OpSend None ses None (feeds (lit "stdin") d cid None) (fst e)) rest qs /\
      ((r < length (w_heap w))%nat -> forall z, find_first [rsp (lit "CommandResponse"); rsp (lit "CommandId")] y = Some z -> cid = Some (or_empty (x_text z))) /\
      (Forall (fun b => zlen b < 2 ^ 63)%Z bs ->
       forall rc, (forall k, (sd_counter s <= k)%Z -> dict_get Z.eqb k rc = None) -> delivered (snd (receive_calls rc (f :: rest))) = Ok bs) /\
      forall fuel', Forall2 (fun m b => understood (library_codec x fuel' key) rid pid b heap hs m) (o :: ms) bs.
  Proof.
    intros V F Y Hr Hp s sh key o Fm H1 H2 H3.
    destruct (messages_come key (rp_id (w_pool w)) (Some (ps_id (the_ps r w))) rid pid (o :: ms) Hr Hp Fm) as (f0 & K). exists f0. intros fuel L w' H.
    destruct (K fuel L) as (bs0 & M & Un).
    destruct (begin_read (E fuel) V r a ms w w' F Y H H1 H2 H3) as (bs & f & rest & q & y & qs & cid & ses & Sel & P & Q & R1 & R2 & Hc & D).
    change (creation (E fuel) a (the_ps r w) (rp_apartment (w_pool w))) with o in P. fold key in P. rewrite M in P. apply Ok_inj in P. subst bs0.
    exists bs, f, rest, q, y, qs, cid, ses. split; [exact Sel|]. split; [exact Q|]. split; [exact R1|]. split; [exact R2|]. split; [exact Hc|]. split; [exact D|exact Un].
  Qed.
  Theorem opened a (w : world graph (command value) HS RK) rid : (forall b, speaks (x_srv x b)) -> fit_world w ->
    rp_state (w_pool w) = rs_before_open -> sh_opened (rp_shell (w_pool w)) = false -> guid_parse (rp_id (w_pool w)) = Ok rid ->
    let s := rp_sender (w_pool w) in let sh := rp_shell (w_pool w) in let key := rp_cipher (w_pool w) in
    let o := OInit (rp_min (w_pool w)) (rp_max (w_pool w)) (rp_thread (w_pool w)) (rp_apartment (w_pool w)) a in
    fit_message (option_map (x_cipher x) key) (x_float x) heap hs o ->
    (1 <= sd_max s < 2 ^ 32)%Z -> (0 <= sd_counter s)%Z -> (sd_counter s + 2 <= 2 ^ 64)%Z ->
    exists f0, forall fuel, f0 <= fuel -> forall n w', pool_open (E fuel) n a w = (Ret tt, w') ->
    exists b1 b2 f rest q y qs, requests w w' ((q, WBody y) :: qs) /\
      request_read sh OpCreate (Some (settings sh (Some [(lit "protocolversion", lit "2.3", [(lit "MustComply", lit "true")])]))) None None (opens sh f) q /\
      ((zlen b1 < 2 ^ 63)%Z -> (zlen b2 < 2 ^ 63)%Z ->
       forall rc, (forall k, (sd_counter s <= k)%Z -> dict_get Z.eqb k rc = None) -> delivered (snd (receive_calls rc (f :: rest))) = Ok [b1; b2]) /\
      forall fuel', understood (library_codec x fuel' key) rid guid_zero b1 heap hs capability /\ understood (library_codec x fuel' key) rid guid_zero b2 heap hs o.
  Proof.
    intros V F B O Hr s sh key o Fo H1 H2 H3.
    assert (Fc : fit_message (option_map (x_cipher x) key) (x_float x) heap hs capability).
    { assert (Raw : forall t, forallb (fun c => (N.leb 32 c && N.leb c 126)%bool) t = true -> raw t).
      { intros t Ht. rewrite forallb_forall in Ht. split; [|intros Hi; specialize (Ht _ Hi); discriminate Ht]. apply Forall_forall. intros c Hi. specialize (Ht c Hi). apply andb_prop in Ht as (A1 & A2).
        apply N.leb_le in A1, A2. unfold xml_char. lia. }
      repeat split; try discriminate; apply Raw; reflexivity. }
    destruct (messages_come key (rp_id (w_pool w)) None rid guid_zero [capability; o] Hr eq_refl) as (f0 & K); [constructor; [exact Fc|constructor; [exact Fo|constructor]]|].
    exists f0. intros fuel L n w' H. destruct (K fuel L) as (bs0 & M & Un).
    destruct (open_read (E fuel) n a w w' F B O H) as (bs & s' & f & rest & q & y & qs & P & Fr & Q & R). fold key in P. fold o in P. rewrite M in P. apply Ok_inj in P. subst bs0.
    pose proof (Un 0%nat) as U0. destruct bs as [|b1 [|b2 [|b3 bs]]]; try (inversion U0; subst; match goal with X : Forall2 _ _ _ |- _ => inversion X; subst end; match goal with X : Forall2 _ [] _ |- _ => inversion X | X : Forall2 _ _ [] |- _ => inversion X end; fail).
    exists b1, b2, f, rest, q, y, qs. split; [exact Q|]. split; [exact R|]. split.
    - intros L1 L2 rc Hrc. fold s in Fr.
      destruct (multiple_roundtrip s [b1; b2] H1 H2 H3) as (blocks & ts & ws & E1 & _ & _ & _ & _ & D); [constructor; [exact L1|constructor; [exact L2|constructor]]|].
      rewrite E1 in Fr. apply Ok_pair_inj in Fr. destruct Fr as (_ & <-). destruct (D rc) as (D1 & _); [|exact D1]. intros k Hk. apply Hrc. lia.
    - intros fuel'. pose proof (Un fuel') as Z. inversion Z as [|? ? ? ? Z1 Z2]; subst. inversion Z2 as [|? ? ? ? Z3 Z4]; subst. split; assumption.
  Qed.
End Lib.
