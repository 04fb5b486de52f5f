(* Reading what a server wrote. *)
From Verif Require Import Base BaseProofs Lit NumModel TextModel TextSpec TextProofs Utf8Model MsgModel MsgSpec MsgProofs NumProofs XmlModel SerModel SerSpec SerSpec2 SerProofs SerProofs2 SerProofs3 SerProofs5 RdSpec.
From Verif Require TextProofs2.
Require Import Lia ZifyBool ZifyNat ZifyN.
Local Open Scope list_scope.

(* ---- lists and dictionaries ---- *)
Lemma upd_nth_same {A} (f : A -> A) : forall l k a, nth_error l k = Some a -> nth_error (upd_nth k f l) k = Some (f a).
Proof. induction l as [|b l IH]; intros [|k] a H; cbn [nth_error upd_nth] in *; try discriminate H; [apply Some_inj in H; subst; reflexivity|exact (IH k a H)]. Qed.
Lemma upd_nth_other {A} (f : A -> A) : forall l k n, n <> k -> nth_error (upd_nth k f l) n = nth_error l n.
Proof. induction l as [|b l IH]; intros [|k] [|n] H; cbn [nth_error upd_nth]; try reflexivity; [contradiction|]. apply IH. congruence. Qed.
Lemma upd_nth_length {A} (f : A -> A) : forall l k, length (upd_nth k f l) = length l.
Proof. induction l as [|b l IH]; intros [|k]; cbn [upd_nth length]; try reflexivity. rewrite IH. reflexivity. Qed.
Lemma agree_grows (h h' : list hobj) : (forall n o, nth_error h n = Some o -> nth_error h' n = Some o) -> grows h h'.
Proof.
  revert h'. induction h as [|a h IH]; intros h' H; [exists h'; reflexivity|]. destruct h' as [|b h']; [specialize (H 0%nat a eq_refl); discriminate H|].
  pose proof (H 0%nat a eq_refl) as E. cbn [nth_error] in E. apply Some_inj in E. subst b.
  destruct (IH h' (fun n o => H (S n) o)) as (e & ->). exists e. reflexivity.
Qed.
Lemma dict_set_fresh {V} k (v : V) d : ~ In k (map fst d) -> dict_set str_eqb k v d = d ++ [(k, v)].
Proof.
  induction d as [|[k' v'] d IH]; intros H; [reflexivity|]. cbn [dict_set map fst In] in *. rewrite str_eqb_neq by (intros ->; apply H; left; reflexivity).
  rewrite IH by (intros C; apply H; right; exact C). reflexivity.
Qed.
Lemma find_only {A} (f : A -> bool) l x : In x l -> f x = true -> (forall y, In y l -> f y = true -> y = x) -> find f l = Some x.
Proof.
  induction l as [|a l IH]; intros I F U; [destruct I|]. cbn [find]. destruct (f a) eqn:E; [rewrite (U a (or_introl eq_refl) E); reflexivity|].
  destruct I as [-> |I]; [rewrite F in E; discriminate E|]. apply IH; [exact I|exact F|]. intros y H. apply U. right. exact H.
Qed.
Lemma find_nothing {A} (f : A -> bool) l : (forall y, In y l -> f y = false) -> find f l = None.
Proof. induction l as [|a l IH]; intros H; [reflexivity|]. cbn [find]. rewrite (H a (or_introl eq_refl)). apply IH. intros y I. apply H. right. exact I. Qed.

Section Rd.
  Context (ci : option cipher) (xml_text : xml -> list N) (float_of : list N -> res (list N)) (classes : list N -> option cdesc).
  Notation desf := (des ci xml_text float_of classes).
  Notation spelled := (spelled ci float_of).
  Notation readable := (readable ci float_of classes).
  Notation holds := (holds ci float_of classes).

  (* ---- scalars ---- *)
  Lemma text_of_read s v : deserialize_string (Some s) = Ok v -> deserialize_string (text_of s) = Ok v.
  Proof. destruct s; intros H; exact H. Qed.
  Lemma spelled_leaf tag text v : spelled tag text v ->
    In tag scalar_tags /\ tag <> lit "ToString" /\ hashable v = true /\ forall a, scalar_of ci float_of (Elem tag a text []) = Ok v.
  Proof.
    intros H. destruct H as [tag s I Hs Hk|c Hc| | |tag z I|tag t f I Hf|b t Hb Hs|g Hg|tag s I| |c s t Ec Hi Hs Et].
    - assert (D : In tag scalar_tags /\ tag <> lit "ToString" /\ forall a t, scalar_of ci float_of (Elem tag a t []) = (do s0 <- deserialize_string t; Ok (VStr s0))).
      { cbn [map In] in I. repeat (destruct I as [<-|I]; [split; [unfold scalar_tags; cbn [map In]; tauto|]; split; [discriminate|reflexivity]|]). destruct I. }
      destruct D as (D1 & D2 & D3). split; [exact D1|]. split; [exact D2|]. split; [reflexivity|]. intros a. rewrite D3.
      rewrite (text_of_read _ s); [reflexivity|]. exact (proj2 (TextProofs2.string_roundtrip_iff s Hs) Hk).
    - split; [unfold scalar_tags; cbn [map In]; tauto|]. split; [discriminate|]. split; [reflexivity|]. intros a.
      change (char_of (Some (dec c)) = Ok (VStr [c])). unfold char_of, int_of. rewrite <- py_str_of_N, py_int_str. cbn [bind].
      replace (Z.leb 0 (Z.of_N c) && Z.ltb (Z.of_N c) 1114112)%bool with true by lia. rewrite N2Z.id. reflexivity.
    - split; [unfold scalar_tags; cbn [map In]; tauto|]. split; [discriminate|]. split; reflexivity.
    - split; [unfold scalar_tags; cbn [map In]; tauto|]. split; [discriminate|]. split; reflexivity.
    - assert (D : In tag scalar_tags /\ tag <> lit "ToString" /\ forall a t, scalar_of ci float_of (Elem tag a t []) = (do z0 <- int_of t; Ok (VInt z0))).
      { cbn [map In] in I. repeat (destruct I as [<-|I]; [split; [unfold scalar_tags; cbn [map In]; tauto|]; split; [discriminate|reflexivity]|]). destruct I. }
      destruct D as (D1 & D2 & D3). split; [exact D1|]. split; [exact D2|]. split; [reflexivity|]. intros a. rewrite D3. unfold int_of. rewrite py_int_str. reflexivity.
    - assert (D : In tag scalar_tags /\ tag <> lit "ToString" /\ forall a s, scalar_of ci float_of (Elem tag a (Some s) []) = (do f <- float_of s; Ok (VFloat f))).
      { cbn [map In] in I. repeat (destruct I as [<-|I]; [split; [unfold scalar_tags; cbn [map In]; tauto|]; split; [discriminate|reflexivity]|]). destruct I. }
      destruct D as (D1 & D2 & D3). split; [exact D1|]. split; [exact D2|]. split; [reflexivity|]. intros a. rewrite D3, Hf. reflexivity.
    - split; [unfold scalar_tags; cbn [map In]; tauto|]. split; [discriminate|]. split; [reflexivity|]. intros a.
      change ((do b0 <- b64decode t; Ok (VBytes b0)) = Ok (VBytes b)). rewrite (b64_sprinkled _ _ Hb Hs). reflexivity.
    - split; [unfold scalar_tags; cbn [map In]; tauto|]. split; [discriminate|]. split; [reflexivity|]. intros a.
      change ((do g0 <- guid_parse (guid_str g); Ok (VGuid g0)) = Ok (VGuid g)). rewrite (guid_parse_str g Hg). reflexivity.
    - assert (D : In tag scalar_tags /\ tag <> lit "ToString" /\ forall a t, scalar_of ci float_of (Elem tag a t []) = Ok (text_value t)).
      { cbn [map In] in I. repeat (destruct I as [<-|I]; [split; [unfold scalar_tags; cbn [map In]; tauto|]; split; [discriminate|reflexivity]|]). destruct I. }
      destruct D as (D1 & D2 & D3). split; [exact D1|]. split; [exact D2|]. split; [reflexivity|]. intros a. rewrite D3. reflexivity.
    - split; [unfold scalar_tags; cbn [map In]; tauto|]. split; [discriminate|]. split; reflexivity.
    - split; [unfold scalar_tags; cbn [map In]; tauto|]. split; [discriminate|]. split; [reflexivity|]. intros a.
      change ((do r <- deserialize_secure_string ci (Some t); Ok (match r with RawElement _ => VXml (Elem (lit "SS") a (Some t) []) | Plain s0 => VStr s0 end)) = Ok (VStr s)).
      destruct (TextProofs2.secure_string_roundtrip c s Hi Hs) as (t' & E1 & E2). subst ci. rewrite E1 in Et. apply Ok_inj in Et. subst t'. rewrite E2. reflexivity.
  Qed.

  (* ---- states ---- *)
  Definition agrees (s : seen) (st : dst) : Prop :=
    (forall tid ts, In (tid, ts) (fst s) -> dict_get str_eqb tid (d_tn st) = Some ts) /\
    (forall id, In id (snd s) <-> dict_get str_eqb id (d_obj st) <> None).
  Definition ext (e e' : list (list N * value)) : Prop := forall id v, dict_get str_eqb id e = Some v -> dict_get str_eqb id e' = Some v.
  Lemma ext_refl e : ext e e. Proof. intros id v H. exact H. Qed.
  Lemma ext_trans a b c : ext a b -> ext b c -> ext a c. Proof. intros H K id v G. exact (K _ _ (H _ _ G)). Qed.
  Lemma ext_put s st id v : agrees s st -> ~ In id (snd s) -> ext (d_obj st) (dict_set str_eqb id v (d_obj st)).
  Proof.
    intros (_ & A) N1 i w H. destruct (str_eqb i id) eqn:E.
    - apply str_eqb_spec in E. subst i. exfalso. apply N1, A. rewrite H. discriminate.
    - rewrite (dict_get_set_other str_eqb str_eqb_spec); [exact H|]. intros ->. rewrite str_eqb_refl in E. discriminate E.
  Qed.
  Lemma ext_same e id v : dict_get str_eqb id e = Some v -> ext e (dict_set str_eqb id v e).
  Proof.
    intros H i w G. destruct (str_eqb i id) eqn:E.
    - apply str_eqb_spec in E. subst i. rewrite (dict_get_set_same str_eqb str_eqb_spec). congruence.
    - rewrite (dict_get_set_other str_eqb str_eqb_spec); [exact G|]. intros ->. rewrite str_eqb_refl in E. discriminate E.
  Qed.
  Lemma agrees_put s st id v : agrees s st -> agrees (known id s) (obj_put id v st).
  Proof.
    intros (A & B). split; [exact A|]. intros i. unfold obj_put. cbn [known snd d_obj set_d_obj In]. destruct (str_eqb i id) eqn:E.
    - apply str_eqb_spec in E. subst i. rewrite (dict_get_set_same str_eqb str_eqb_spec). split; [discriminate|left; reflexivity].
    - assert (Q : i <> id) by (intros ->; rewrite str_eqb_refl in E; discriminate E). rewrite (dict_get_set_other str_eqb str_eqb_spec) by exact Q.
      rewrite <- B. split; [intros [H|H]; [congruence|exact H]|right; assumption].
  Qed.
  Lemma agrees_put_known s st id v : agrees s st -> In id (snd s) -> agrees s (obj_put id v st).
  Proof.
    intros A I. destruct (agrees_put s st id v A) as (H1 & H2). split; [exact H1|]. intros i. rewrite <- H2. cbn [known snd In]. split; [right; assumption|intros [<- |H]; assumption].
  Qed.
  Lemma agrees_heap s st h : agrees s st -> agrees s (set_d_heap h st). Proof. intros H. exact H. Qed.
  Lemma agrees_upd s st k f : agrees s st -> agrees s (upd_obj k f st). Proof. intros H. exact H. Qed.
  Definition after (base : nat) (h h' : list hobj) : Prop := forall n o, (base <= n)%nat -> nth_error h n = Some o -> nth_error h' n = Some o.
  Definition beside (k : nat) (h h' : list hobj) : Prop := (length h <= length h')%nat /\ forall n o, n <> k -> nth_error h n = Some o -> nth_error h' n = Some o.
  Lemma beside_refl k h : beside k h h. Proof. split; [apply le_n|auto]. Qed.
  Lemma beside_trans k a b c : beside k a b -> beside k b c -> beside k a c.
  Proof. intros (L & H) (L' & H'). split; [eapply Nat.le_trans; eassumption|]. intros n o N1 G. exact (H' n o N1 (H n o N1 G)). Qed.
  Lemma grows_beside k h h' : grows h h' -> beside k h h'.
  Proof. intros (e & ->). split; [rewrite app_length; apply Nat.le_add_r|]. intros n o _ H. rewrite nth_error_app1; [exact H|]. apply nth_error_Some. rewrite H. discriminate. Qed.
  Lemma upd_beside k f st : beside k (d_heap st) (d_heap (upd_obj k f st)).
  Proof. unfold upd_obj. cbn [set_d_heap d_heap]. split; [rewrite upd_nth_length; apply le_n|]. intros n o N1 H. rewrite upd_nth_other by exact N1. exact H. Qed.
  Lemma beside_after k base h h' : (k < base)%nat -> beside k h h' -> after base h h'.
  Proof. intros L (_ & H) n o B G. apply H; [intros ->; lia|exact G]. Qed.
  Lemma grows_after base h h' : grows h h' -> after base h h'.
  Proof. intros G n o _ H. destruct (grows_beside (S n) h h' G) as (_ & K). apply K; [lia|exact H]. Qed.
  Lemma grows_len h h' : grows h h' -> (length h <= length h')%nat. Proof. intros (e & ->). rewrite app_length. apply Nat.le_add_r. Qed.
  Lemma holds_mono base base' h h' e e' r t v : holds base h e r t v -> (base' <= base)%nat -> after base h h' -> ext e e' -> holds base' h' e' r t v.
  Proof.
    intros H L A X. induction H as [r tag text v Sp|r id v G|r id n text sets ad ex k g T B Hk G Ty Tx L1 _ I1 L2 _ I2 L3 _ I3|r id n text sets ad ex k c d attrs T Hc B Hk G Tx Ha _ IH
      |r id n l rest r' vs T G Ln _ IH|r id n l rest vs T G Ln _ IH|r id n l rest vs T G Ln _ IH|r id n l rest d T G Ln _ I1 _ I2].
    - apply ho_scalar. exact Sp.
    - apply ho_again. exact (X _ _ G).
    - apply (ho_generic _ _ _ _ _ _ r id n text sets ad ex k g); auto. eapply Nat.le_trans; eassumption.
    - apply (ho_instance _ _ _ _ _ _ r id n text sets ad ex k c d attrs); auto. eapply Nat.le_trans; eassumption.
    - apply (ho_list _ _ _ _ _ _ r id n l rest r' vs); auto.
    - apply (ho_queue _ _ _ _ _ _ r id n l rest vs); auto.
    - apply (ho_stack _ _ _ _ _ _ r id n l rest vs); auto.
    - apply (ho_dict _ _ _ _ _ _ r id n l rest d); auto.
  Qed.

  (* ---- metadata ---- *)
  Definition reads_as (m : meta) (r : reading) : Prop := as_reading m = Some r \/ (as_reading m = Some Open /\ r = Free).
  Lemma blank_reading m r : as_reading m = Some r -> r = Open \/ r = Free -> m_kind m = KPlain /\ m_object m = None.
  Proof.
    destruct m as [k tag nm o c]. destruct k; cbn [as_reading m_kind m_object].
    - destruct c as [c|]; [|auto]. destruct (str_eqb tag (lit "ObjDynamic")); [destruct (str_eqb c generic_name)|destruct (str_eqb tag (lit "Obj"))];
        intros H; try discriminate H; apply Some_inj in H; subst r; intros [C|C]; discriminate C.
    - destruct (str_eqb tag (lit "LST")); [|discriminate]. destruct (as_reading entry); [|discriminate]. intros H. apply Some_inj in H. subst r. intros [C|C]; discriminate C.
    - destruct (str_eqb tag (lit "STK")); [|discriminate]. intros H. apply Some_inj in H. subst r. intros [C|C]; discriminate C.
    - destruct (str_eqb tag (lit "QUE")); [|discriminate]. intros H. apply Some_inj in H. subst r. intros [C|C]; discriminate C.
    - destruct (str_eqb tag (lit "DCT")); [|discriminate]. intros H. apply Some_inj in H. subst r. intros [C|C]; discriminate C.
  Qed.
  Definition firm (r : reading) : Prop := r <> Open /\ r <> Free.
  (* what metadata of a structure look like *)
  Inductive shape : reading -> meta -> Prop :=
  | sh_generic : forall m, m_tag m = lit "ObjDynamic" -> m_object m = Some generic_name -> shape Generic m
  | sh_instance : forall m c, m_tag m = lit "Obj" -> m_object m = Some c -> shape (Instance c) m
  | sh_list : forall e ts nm o c r, as_reading e = Some r -> shape (ListOf (strict r)) (Meta (KList e ts) (lit "LST") nm o c)
  | sh_dict : forall a b ts nm o c, shape Dict (Meta (KDict a b ts) (lit "DCT") nm o c)
  | sh_que : forall e ts nm o c, shape Que (Meta (KQueue e ts) (lit "QUE") nm o c)
  | sh_stk : forall e ts nm o c, shape Stk (Meta (KStack e ts) (lit "STK") nm o c).
  Lemma firm_shape m r : as_reading m = Some r -> firm r -> shape r m.
  Proof.
    destruct m as [k tag nm o c]. intros H (F1 & F2). destruct k; cbn [as_reading] in H.
    - destruct c as [c|]; [|apply Some_inj in H; subst r; destruct (str_eqb tag star || str_eqb tag (lit "Obj"))%bool; contradiction].
      destruct (str_eqb tag (lit "ObjDynamic")) eqn:E.
      + destruct (str_eqb c generic_name) eqn:Ec; [|discriminate H]. apply Some_inj in H. subst r. apply str_eqb_spec in E, Ec. subst. apply sh_generic; reflexivity.
      + destruct (str_eqb tag (lit "Obj")) eqn:E2; [|discriminate H]. apply Some_inj in H. subst r. apply str_eqb_spec in E2. subst. apply sh_instance; reflexivity.
    - destruct (str_eqb tag (lit "LST")) eqn:E; [|discriminate H]. destruct (as_reading entry) as [r0|] eqn:Ee; [|discriminate H]. apply Some_inj in H. subst r. apply str_eqb_spec in E. subst tag. apply sh_list. exact Ee.
    - destruct (str_eqb tag (lit "STK")) eqn:E; [|discriminate H]. apply Some_inj in H. subst r. apply str_eqb_spec in E. subst tag. apply sh_stk.
    - destruct (str_eqb tag (lit "QUE")) eqn:E; [|discriminate H]. apply Some_inj in H. subst r. apply str_eqb_spec in E. subst tag. apply sh_que.
    - destruct (str_eqb tag (lit "DCT")) eqn:E; [|discriminate H]. apply Some_inj in H. subst r. apply str_eqb_spec in E. subst tag. apply sh_dict.
  Qed.
  Lemma firm_closed m r : as_reading m = Some r -> firm r -> str_eqb (m_tag m) star = false /\ (is_plain m && is_none (m_object m))%bool = false.
  Proof.
    intros H F. destruct (firm_shape m r H F) as [m T O|m c T O|e ts nm o c r0 He|a b ts nm o c|e ts nm o c|e ts nm o c]; try (split; reflexivity).
    - rewrite T, O. split; [reflexivity|apply Bool.andb_false_r].
    - rewrite T, O. split; [reflexivity|apply Bool.andb_false_r].
  Qed.
  Lemma blank_reads k tag nm o c : k = KPlain -> c = None -> exists q, as_reading (Meta k tag nm o c) = Some q /\ (q = Open \/ q = Free).
  Proof. intros -> ->. cbn [as_reading]. eexists. split; [reflexivity|]. destruct (str_eqb tag star || str_eqb tag (lit "Obj"))%bool; auto. Qed.
  Lemma strict_or r : strict r = r -> r <> Open. Proof. intros H ->. discriminate H. Qed.
  Lemma next_reads x m r : reads_as m r -> r <> Open -> reads_as (next_meta x m) r.
  Proof using.
    intros H R. unfold next_meta. destruct (str_eqb (m_tag m) star) eqn:E; [|exact H].
    assert (B : m_kind m = KPlain /\ m_object m = None /\ r = Free).
    { destruct r; try contradiction; try (destruct H as [H|(_ & C)]; [|discriminate C]; exfalso; apply firm_closed in H; [destruct H; congruence|split; discriminate]).
      destruct H as [H|(H & _)]; (destruct (blank_reading _ _ H) as (B1 & B2); [auto|split; [exact B1|split; [exact B2|reflexivity]]]). }
    destruct B as (B1 & B2 & ->). destruct m as [k tag nm o c]. cbn [m_kind m_object set_tag] in *. subst.
    destruct (blank_reads KPlain (x_tag x) nm o None eq_refl eq_refl) as (q & Q & [-> | ->]); [right; auto|left; exact Q].
  Qed.

  (* ---- what is written ---- *)
  Lemma write_tag nm t : x_tag (write nm t) = tag_of t. Proof. destruct t; reflexivity. Qed.
  Lemma write_name nm t : attr_get (lit "N") (write nm t) = nm.
  Proof. destruct t; destruct nm; reflexivity. Qed.
  Definition calm (cs : list xml) : Prop := Forall (fun x => x_tag x <> lit "TN" /\ x_tag x <> lit "TNRef") cs.
  Lemma filter_none {A} (f : A -> bool) l : Forall (fun a => f a = false) l -> filter f l = [].
  Proof. induction 1 as [|a l H _ IH]; [reflexivity|]. cbn [filter]. rewrite H. exact IH. Qed.
  Lemma filter_calm cs : calm cs -> filter (fun c => str_eqb (x_tag c) (lit "TN")) cs = [] /\ filter (fun c => str_eqb (x_tag c) (lit "TNRef")) cs = [].
  Proof. intros H. split; apply filter_none; revert H; apply Forall_impl; intros x (A & B); apply str_eqb_neq; assumption. Qed.
  Definition Ts (ts : list (list N)) : list xml := map (fun t => Elem (lit "T") [] (text_of t) []) ts.
  Lemma Ts_texts ts : map (fun e => text_or_empty (x_text e)) (Ts ts) = ts.
  Proof. induction ts as [|[|c t] ts IH]; [reflexivity| |]; cbn [Ts map x_text text_of text_or_empty]; f_equal; exact IH. Qed.
  Lemma Ts_found ts : flat_map (fun x => [x]) (filter (fun c => str_eqb (x_tag c) (lit "T")) (Ts ts)) = Ts ts.
  Proof. induction ts as [|t ts IH]; [reflexivity|]. cbn [Ts map filter x_tag]. change (str_eqb (lit "T") (lit "T")) with true. cbn [flat_map app]. f_equal. exact IH. Qed.
  Definition renamed (n : naming) (st : dst) : dst := match n with Named tid ts => tn_put tid ts st | _ => st end.
  Lemma types_read tag a cs n s s1 st : calm cs -> names s n s1 -> agrees s st ->
    get_types (Elem tag a None (naming_xml n ++ cs)) st = Ok (types_of n, renamed n st) /\ agrees s1 (renamed n st).
  Proof.
    intros C Na A. destruct (filter_calm cs C) as (F1 & F2). destruct Na as [s|s tid ts Ne U|s tid ts Ne I].
    - cbn [naming_xml app types_of renamed]. split; [|exact A]. unfold get_types, child, find_first. cbn [find_all x_children]. rewrite F1, F2. reflexivity.
    - cbn [naming_xml app types_of renamed]. split.
      + unfold get_types, child, find_first. cbn [find_all x_children filter x_tag]. change (str_eqb (lit "TN") (lit "TN")) with true. change (str_eqb (lit "TN") (lit "TNRef")) with false. cbv iota.
        rewrite F1, F2. cbn [flat_map find_all x_children]. rewrite !app_nil_r. fold (Ts ts). rewrite Ts_found, Ts_texts.
        destruct ts as [|t ts]; [contradiction|]. reflexivity.
      + destruct A as (A1 & A2). split; [|exact A2]. intros i ts' [H|H].
        * apply pair_inj in H. destruct H as (<- & <-). unfold tn_put. cbn [set_d_tn d_tn]. apply (dict_get_set_same str_eqb str_eqb_spec).
        * unfold tn_put. cbn [set_d_tn d_tn]. destruct (str_eqb i tid) eqn:E.
          -- apply str_eqb_spec in E. subst i. rewrite (dict_get_set_same str_eqb str_eqb_spec). f_equal. symmetry. apply U. exact H.
          -- rewrite (dict_get_set_other str_eqb str_eqb_spec); [exact (A1 _ _ H)|]. intros ->. rewrite str_eqb_refl in E. discriminate E.
    - cbn [naming_xml app types_of renamed]. split; [|exact A]. unfold get_types, child, find_first. cbn [find_all x_children filter x_tag].
      change (str_eqb (lit "TNRef") (lit "TN")) with false. change (str_eqb (lit "TNRef") (lit "TNRef")) with true. cbv iota. rewrite F1, F2. cbn [flat_map map bind app].
      change (attrib refid (Elem (lit "TNRef") (id_attr tid) None [])) with (@Ok (list N) tid). cbn [bind]. unfold tn_get. rewrite (proj1 A tid ts I). reflexivity.
  Qed.
  Lemma renamed_heap n st : d_heap (renamed n st) = d_heap st. Proof. destruct n; reflexivity. Qed.
  Lemma renamed_obj n st : d_obj (renamed n st) = d_obj st. Proof. destruct n; reflexivity. Qed.
  Lemma names_ids s n s1 : names s n s1 -> snd s1 = snd s. Proof. intros []; reflexivity. Qed.
  Lemma renamed_again n s s1 st : names s n s1 -> agrees s1 st -> agrees s1 (renamed n st).
  Proof.
    intros Na A. destruct Na as [s|s tid ts Ne U|s tid ts Ne I]; try exact A. destruct A as (A1 & A2). split; [|exact A2]. intros i ts' H. cbn [renamed]. unfold tn_put. cbn [set_d_tn d_tn].
    destruct (str_eqb i tid) eqn:E.
    - apply str_eqb_spec in E. subst i. rewrite (dict_get_set_same str_eqb str_eqb_spec). f_equal. destruct H as [H|H]; [apply pair_inj in H; apply H|symmetry; apply U; exact H].
    - rewrite (dict_get_set_other str_eqb str_eqb_spec); [exact (A1 _ _ H)|]. intros ->. rewrite str_eqb_refl in E. discriminate E.
  Qed.

  (* ---- an object, by what it is taken for ---- *)
  Lemma by_types_firm ts q : by_types ts = Some q -> exists cm, choose ts = Ok (Some cm) /\ as_reading cm = Some q /\ firm q.
  Proof.
    unfold by_types. destruct (choose ts) as [[cm|]|e]; try discriminate. intros H. exists cm. split; [reflexivity|].
    destruct (as_reading cm) as [[]|]; try discriminate H; apply Some_inj in H; subst q; (split; [reflexivity|split; discriminate]).
  Qed.
  Lemma taken_firm r n q : taken r n = Some q -> firm q.
  Proof.
    destruct r; cbn [taken]; intros H; try (apply Some_inj in H; subst q; split; discriminate).
    - apply by_types_firm in H. destruct H as (cm & _ & _ & F). exact F.
    - destruct (types_of n); [discriminate H|]. apply by_types_firm in H. destruct H as (cm & _ & _ & F). exact F.
  Qed.
  Lemma des_thing fuel a id cs m st st1 n r q : attrib refid (Elem (lit "Obj") a None cs) = Ok id -> reads_as m r -> taken r n = Some q ->
    get_types (Elem (lit "Obj") a None cs) st = Ok (types_of n, st1) ->
    exists cm, shape q cm /\ as_reading cm = Some q /\ forall v m2 st2, des_struct xml_text classes (desf fuel) (Elem (lit "Obj") a None cs) cm st1 = Ok (v, m2, st2) -> as_reading m2 = Some q ->
      exists m', desf (S fuel) (Elem (lit "Obj") a None cs) m st = Ok (v, m', obj_put id v st2) /\ (strict r = r -> reads_as m' r).
  Proof.
    intros Hid Hm Ht Hg. set (x := Elem (lit "Obj") a None cs) in *.
    assert (Hp : forall st, primitive ci float_of x st = None) by (intros st0; apply (obj_not_primitive ci float_of); reflexivity).
    assert (T : x_tag x = lit "Obj") by reflexivity.
    destruct (taken_firm r n q Ht) as (Q1 & Q2).
    assert (D : (r = Open \/ r = Free) \/ (firm r /\ r = q)).
    { destruct r; auto; right; cbn [taken] in Ht; apply Some_inj in Ht; subst q; (split; [split; assumption|reflexivity]). }
    destruct D as [D|(F & <-)].
    - assert (Hb : m_kind m = KPlain /\ m_object m = None).
      { destruct Hm as [Hm|(Hm & _)]; eapply blank_reading; try exact Hm; tauto. }
      assert (E : exists cm, choose (match types_of n with [] => if str_eqb (m_tag (next_meta x m)) (lit "Obj") then [lit "System.Object"] else [] | _ => types_of n end) = Ok (Some cm) /\ as_reading cm = Some q).
      { destruct D as [-> | ->].
        - cbn [taken] in Ht. destruct (by_types_firm _ _ Ht) as (cm & C & R & _). exists cm. split; [|exact R].
          destruct (types_of n); [|exact C]. destruct Hm as [Hm|(_ & Hm)]; [|discriminate Hm].
          destruct m as [k tag nm o c]. cbn [m_kind m_object] in Hb. destruct Hb as (-> & ->). cbn [as_reading] in Hm. unfold next_meta. cbn [m_tag].
          destruct (str_eqb tag star) eqn:E; [exact C|]. cbn [m_tag]. destruct (str_eqb tag (lit "Obj")); [exact C|]. discriminate Hm.
        - cbn [taken] in Ht. destruct (types_of n) as [|t ts]; [discriminate Ht|]. destruct (by_types_firm _ _ Ht) as (cm & C & R & _). exists cm. split; [exact C|exact R]. }
      destruct E as (cm & C & R). exists cm. split; [apply firm_shape; [exact R|split; assumption]|]. split; [exact R|].
      intros v m2 st2 Hs _. exists (next_meta x m). split; [|intros S0; apply next_reads; [exact Hm|apply strict_or; exact S0]].
      cbn [des]. rewrite Hg. cbn [bind]. rewrite Hp. fold (next_meta x m).
      assert (P : (is_plain (next_meta x m) && is_none (m_object (next_meta x m)))%bool = true).
      { unfold next_meta. destruct m as [k tag nm o c]. cbn [m_kind m_object] in Hb. destruct Hb as (-> & ->). destruct (str_eqb _ star); reflexivity. }
      rewrite P, C. cbn [bind]. rewrite Hs. cbn [bind]. rewrite T. change (str_eqb (lit "Obj") (lit "Obj")) with true. cbv iota. rewrite Hid. reflexivity.
    - assert (R : as_reading m = Some r) by (destruct Hm as [Hm|(_ & Hm)]; [exact Hm|destruct F; contradiction]).
      exists m. split; [apply firm_shape; assumption|]. split; [exact R|]. intros v m2 st2 Hs R2. exists m2. split; [|intros _; left; exact R2].
      cbn [des]. rewrite Hg. cbn [bind]. rewrite Hp. destruct (firm_closed m r R F) as (S1 & S2). rewrite S1. cbv zeta. rewrite S2, Hs. cbn [bind].
      rewrite T. change (str_eqb (lit "Obj") (lit "Obj")) with true. cbv iota. rewrite Hid. reflexivity.
  Qed.
End Rd.
