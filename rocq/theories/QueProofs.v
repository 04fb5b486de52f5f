(* Proofs about sending queues and stacks. *)
From Verif Require Import Base BaseProofs Lit NumModel TextModel TextSpec TextProofs Utf8Model MsgModel MsgSpec MsgProofs NumProofs XmlModel SerModel SerSpec SerSpec2 SerProofs SerProofs2 SerProofs3 SerProofs5 ClsSpec ClsProofs QueModel QueSpec.
Require Import Lia ZifyBool ZifyNat ZifyN.
Local Open Scope list_scope.

(* ---- what is taken is what is sent ---- *)
Lemma taken_sent rec : forall vs m st, fst (take_all rec m vs st) = ser_entries rec false m vs st.
Proof.
  induction vs as [|v vs IH]; intros m st; cbn [take_all ser_entries]; [reflexivity|]. destruct (rec v m st) as [[[x m1] st1]|e]; [|reflexivity]. cbn [bind].
  rewrite <- (IH m1 st1). destruct (take_all rec m1 vs st1) as [r rest]. cbn [fst]. reflexivity.
Qed.
Lemma taken_left rec : forall vs m st, match fst (take_all rec m vs st) with Ok _ => snd (take_all rec m vs st) = [] | Err _ => exists l v, vs = l ++ v :: snd (take_all rec m vs st) end.
Proof.
  induction vs as [|v vs IH]; intros m st; cbn [take_all]; [reflexivity|]. destruct (rec v m st) as [[[x m1] st1]|e]; cbn [fst snd].
  - specialize (IH m1 st1). destruct (take_all rec m1 vs st1) as [r rest]. cbn [fst snd] in *. destruct r as [[[xs m2] st2]|e]; cbn [bind]; [exact IH|].
    destruct IH as (l & w & ->). exists (v :: l), w. reflexivity.
  - exists [], v. reflexivity.
Qed.

Section Q.
  Context (ci : option cipher) (show : value -> list N) (xml_text : xml -> list N) (float_of : list N -> res (list N))
          (classes : list N -> option cdesc) (heap : list hobj) (said raw : list N -> Prop).
  Notation serf := (ser ci show classes heap).
  Notation desf := (des ci xml_text float_of classes).
  Notation bears := (bears ci float_of said raw).
  Notation leafy := (leafy ci float_of).

  Lemma nil_leaf : leafy (Elem (lit "Nil") [] None []) VNone.
  Proof. split; [reflexivity|]. split; [unfold scalar_tags; cbn [map In x_tag]; tauto|reflexivity]. Qed.
  Lemma entry_ser tag v m fuel st : v = VNone \/ bears tag v -> existsb (str_eqb tag) known_tags = true -> m_name m = None -> m_optional m = false -> tagged heap v m = (tag, v) ->
    exists x, serf (S fuel) v m st = Ok (Some x, set_tag tag m, st) /\ leafy x v.
  Proof.
    intros [-> | B] K N1 O T.
    - exists (Elem (lit "Nil") [] None []). split; [|exact nil_leaf]. rewrite ser_S. cbn [is_vxml]. rewrite T. cbv beta iota zeta. unfold ser_with. rewrite K. cbn [negb is_vnone]. rewrite O. unfold named. rewrite N1. reflexivity.
    - destruct (text_ser ci show float_of classes (fun _ => []) heap said raw tag v m fuel st B T) as (s & E & L). eexists. split; [exact E|exact L].
  Qed.
  Lemma rest_ser tag : tag <> star -> existsb (str_eqb tag) known_tags = true -> forall l, Forall (fun v => v = VNone \/ bears tag v) l -> forall m fuel st, m_name m = None -> m_optional m = false -> m_tag m = tag ->
    exists xs, ser_entries (serf (S fuel)) false m l st = Ok (xs, m, st) /\ Forall2 leafy xs l.
  Proof.
    intros Ns K. induction 1 as [|v l B _ IH]; intros m fuel st N1 O T; cbn [ser_entries]; [exists []; split; [reflexivity|constructor]|].
    destruct (entry_ser tag v m fuel st B K N1 O) as (x & E & L).
    { unfold tagged. rewrite T, (str_eqb_neq _ _ Ns). reflexivity. }
    rewrite E. cbn [bind]. assert (M : set_tag tag m = m) by (destruct m; cbn in T |- *; rewrite T; reflexivity). rewrite M.
    destruct (IH m fuel st N1 O T) as (xs & E2 & F). rewrite E2. cbn [bind]. exists (x :: xs). split; [reflexivity|constructor; assumption].
  Qed.
  Lemma alike_ser l fuel st : alike ci float_of said raw l -> exists xs m, ser_entries (serf (S fuel)) false any_meta l st = Ok (xs, m, st) /\ Forall2 leafy xs l.
  Proof.
    intros A. destruct l as [|v l]; [exists [], any_meta; split; [reflexivity|constructor]|]. unfold alike in A. assert (B := Forall_inv A). assert (C := Forall_inv_tail A).
    set (tag := first_tag (v :: l)) in *.
    assert (K : existsb (str_eqb tag) known_tags = true /\ tag <> star).
    { destruct B as [B|B]; [subst v; subst tag; cbn [first_tag]; split; [reflexivity|discriminate]|]. destruct (bears_text ci show float_of classes (fun _ => []) said raw _ _ B) as (_ & _ & K & I1 & _). split; [exact K|]. exact (proj2 (scalar_not_list _ I1)). }
    destruct K as (K & Ns).
    destruct (entry_ser tag v any_meta fuel st B K eq_refl eq_refl) as (x & E & L).
    { unfold tagged. change (str_eqb (m_tag any_meta) star) with true. cbv iota. subst tag. destruct B as [-> | B]; [reflexivity|]. inversion B; subst; reflexivity. }
    cbn [ser_entries]. rewrite E. cbn [bind]. destruct (rest_ser tag Ns K l C (set_tag tag any_meta) fuel st eq_refl eq_refl eq_refl) as (xs & E2 & F). rewrite E2. cbn [bind].
    exists (x :: xs), (set_tag tag any_meta). split; [reflexivity|constructor; assumption].
  Qed.
  Lemma leafy_each fuel xs l : Forall2 leafy xs l -> forall ds, des_entries (desf (S fuel)) None (map reparse xs) ds = Ok (l, None, ds).
  Proof.
    induction 1 as [|x v xs l Lf F IH]; intros ds; cbn [map des_entries]; [reflexivity|].
    rewrite (leaf_des ci xml_text float_of classes x v fuel any_meta ds Lf). cbn [bind]. rewrite (IH ds). reflexivity.
  Qed.

  Definition queue_names : list (list N) := [lit "System.Collections.Queue"; lit "System.Object"].
  Definition stack_names : list (list N) := [lit "System.Collections.Stack"; lit "System.Object"].
  Definition tn_elem (ts : list (list N)) : xml := Elem (lit "TN") [(refid, lit "0")] None (map (fun t => Elem (lit "T") [] (Some t) []) ts).
  Definition written (ts : list (list N)) (tag : list N) (xs : list xml) : xml := Elem (lit "Obj") [(refid, lit "0")] None [tn_elem ts; Elem tag [] None xs].
  Lemma queue_ser l fuel : alike ci float_of said raw l ->
    exists xs, serialize ci show classes heap (S (S fuel)) (VQueue l) any_meta = Ok (Some (written queue_names (lit "QUE") xs)) /\ Forall2 leafy xs l.
  Proof.
    intros A. destruct (alike_ser l fuel (mkSst 1 [] 1 [(lit "System.Collections.Queue", 0%N)]) A) as (xs & m & E & F). exists xs. split; [|exact F].
    unfold serialize. rewrite ser_S. cbn [is_vxml]. change (tagged heap (VQueue l) any_meta) with (lit "QUE", VQueue l). cbv beta iota zeta.
    change (ser_with ci show classes heap (serf (S fuel)) (lit "QUE") (VQueue l) any_meta clear_sst) with
      (do '(x, m2, st1) <- (do '(x, _, st1) <- ser_list (serf (S fuel)) (lit "QUE") false (any_meta, queue_names) l clear_sst; Ok (x, set_tag (lit "QUE") any_meta, st1)); Ok (Some (named any_meta x), m2, st1)).
    unfold ser_list. change (take_id clear_sst) with (0%N, mkSst 1 [] 0 []). cbv beta iota zeta. cbn [snd fst].
    change (create_tn queue_names (mkSst 1 [] 0 [])) with (Ok (tn_elem queue_names, mkSst 1 [] 1 [(lit "System.Collections.Queue", 0%N)])). cbn [bind].
    rewrite E. reflexivity.
  Qed.
  Lemma stack_ser l fuel : alike ci float_of said raw (rev l) ->
    exists xs, serialize ci show classes heap (S (S fuel)) (VList l) (stack_meta None false) = Ok (Some (written stack_names (lit "STK") xs)) /\ Forall2 leafy xs (rev l).
  Proof.
    intros A. destruct (alike_ser (rev l) fuel (mkSst 1 [] 1 [(lit "System.Collections.Stack", 0%N)]) A) as (xs & m & E & F). exists xs. split; [|exact F].
    unfold serialize. rewrite ser_S. cbn [is_vxml]. change (tagged heap (VList l) (stack_meta None false)) with (lit "STK", VList l). cbv beta iota zeta.
    change (ser_with ci show classes heap (serf (S fuel)) (lit "STK") (VList l) (stack_meta None false) clear_sst) with
      (do '(x, m2, st1) <- (do '(x, e, st1) <- ser_list (serf (S fuel)) (lit "STK") false (any_meta, stack_names) (rev l) clear_sst; Ok (x, with_entry e (stack_meta None false), st1)); Ok (Some (named (stack_meta None false) x), m2, st1)).
    unfold ser_list. change (take_id clear_sst) with (0%N, mkSst 1 [] 0 []). cbv beta iota zeta. cbn [snd fst].
    change (create_tn stack_names (mkSst 1 [] 0 [])) with (Ok (tn_elem stack_names, mkSst 1 [] 1 [(lit "System.Collections.Stack", 0%N)])). cbn [bind].
    rewrite E. reflexivity.
  Qed.
  Lemma depth_two ts tag xs : exists k, depth (reparse (written ts tag xs)) = S (S k).
  Proof. destruct (depth_S (reparse (written ts tag xs))) as (k & E). exists (pred k). pose proof (depth_child (reparse (written ts tag xs)) (reparse (tn_elem ts)) (or_introl eq_refl)) as Q. destruct (depth_S (reparse (tn_elem ts))) as (j & J). lia. Qed.
  Lemma queue_des xs l h : Forall2 leafy xs l -> deserialize ci xml_text float_of classes h (reparse (written queue_names (lit "QUE") xs)) any_meta = Ok (VQueue l, h).
  Proof.
    intros F. unfold deserialize. destruct (depth_two queue_names (lit "QUE") xs) as (k & ->).
    assert (D := des_known ci xml_text float_of classes (S k) any_meta 0 None (map reparse [tn_elem queue_names; Elem (lit "QUE") [] None xs]) any_meta (clear_dst h)
      queue_names (mkDst [] [(lit "0", queue_names)] h) (queue_meta None false) (VQueue l) (queue_meta None false) (mkDst [] [(lit "0", queue_names)] h)).
    change (reparse (written queue_names (lit "QUE") xs)) with (Elem (lit "Obj") (oattr any_meta 0) None (map reparse [tn_elem queue_names; Elem (lit "QUE") [] None xs])).
    rewrite D; [reflexivity|split; reflexivity|reflexivity|discriminate|vm_compute; reflexivity|].
    match goal with |- des_struct _ _ _ ?X _ ?d = _ => change (des_struct xml_text classes (desf (S k)) X (queue_meta None false) d) with (do '(v, st1) <- des_que (desf (S k)) X d; Ok (v, queue_meta None false, st1)) end.
    unfold des_que. match goal with |- context [entries_of ?t ?X] => change (entries_of t X) with (map reparse xs) end. rewrite (leafy_each k xs l F). reflexivity.
  Qed.
  Lemma stack_des xs l h : Forall2 leafy xs l -> deserialize ci xml_text float_of classes h (reparse (written stack_names (lit "STK") xs)) any_meta = Ok (VList l, h).
  Proof.
    intros F. unfold deserialize. destruct (depth_two stack_names (lit "STK") xs) as (k & ->).
    assert (D := des_known ci xml_text float_of classes (S k) any_meta 0 None (map reparse [tn_elem stack_names; Elem (lit "STK") [] None xs]) any_meta (clear_dst h)
      stack_names (mkDst [] [(lit "0", stack_names)] h) (stack_meta None false) (VList l) (stack_meta None false) (mkDst [] [(lit "0", stack_names)] h)).
    change (reparse (written stack_names (lit "STK") xs)) with (Elem (lit "Obj") (oattr any_meta 0) None (map reparse [tn_elem stack_names; Elem (lit "STK") [] None xs])).
    rewrite D; [reflexivity|split; reflexivity|reflexivity|discriminate|vm_compute; reflexivity|].
    match goal with |- des_struct _ _ _ ?X _ ?d = _ => change (des_struct xml_text classes (desf (S k)) X (stack_meta None false) d) with (do '(v, st1) <- des_stk (desf (S k)) X d; Ok (v, stack_meta None false, st1)) end.
    unfold des_stk. match goal with |- context [entries_of ?t ?X] => change (entries_of t X) with (map reparse xs) end. rewrite (leafy_each k xs l F). reflexivity.
  Qed.
End Q.
