(* C70: what a client holds of the messages of a server, by the names of the protocol. *)
From Verif Require Import Base BaseProofs Lit NumModel TextModel MsgModel XmlModel SerModel SerSpec SerClasses SendClasses ClsProofs3 XtModel WfModel RdSpec RdProofs3 RdProofs4 FormSpec3.
Local Open Scope list_scope.

Definition shapeb (s : shape) (m : meta) : bool :=
  match s, m with
  | HText tag, Meta KPlain t _ _ None => str_eqb t (lit tag) && existsb (str_eqb t) (map lit ["S"; "I32"; "I64"; "U32"; "B"; "C"; "Version"; "BA"; "SS"; "DT"; "G"]%string)
  | HClass c, Meta KPlain t _ _ (Some k) => str_eqb t (lit "Obj") && str_eqb k (lit c)
  | HObject, Meta KPlain t _ _ None => str_eqb t (lit "Obj")
  | HGeneric, Meta KPlain t _ _ (Some k) => str_eqb t (lit "ObjDynamic") && str_eqb k generic_name
  | HAny, Meta KPlain t _ _ None => str_eqb t star
  | HList, Meta (KList e _) t _ _ _ => str_eqb t (lit "LST") && match as_reading e with Some Open | Some Free => true | _ => false end
  | HTable, Meta (KDict _ _ _) t _ _ _ => str_eqb t (lit "DCT")
  | _, _ => false
  end.
Definition inb (r : prow) (l : list (list N * meta)) : bool :=
  match r with Prop_ _ a s name => existsb (fun e => (str_eqb (fst e) (lit a) && match m_name (snd e) with Some n => str_eqb n (lit name) | None => false end && shapeb s (snd e))%bool) l end.
Definition heardb (e : String.string * (list prow * list prow)) : bool :=
  match sending (lit (fst e)) with
  | Some d => forallb (fun r => inb r (cd_adapted d)) (fst (snd e)) && forallb (fun r => inb r (cd_extended d)) (snd (snd e))
  | None => false end.
(* every attribute of the class is a row of the table, in the same order, but the
   error record of a pool's state *)
Fixpoint alignedb (skip : bool) (l : list (list N * meta)) (rows : list prow) : bool :=
  match l with
  | [] => match rows with [] => true | _ => false end
  | e :: l' =>
      match rows with
      | Prop_ must a s name :: rows' =>
          if (str_eqb (fst e) (lit a) && match m_name (snd e) with Some n => str_eqb n (lit name) | None => false end && shapeb s (snd e) && (must || m_optional (snd e)))%bool then alignedb skip l' rows'
          else false
      | [] => (skip && match e with (_, Meta KPlain t None true (Some _)) => str_eqb t (lit "Obj") | _ => false end && alignedb skip l' [])%bool
      end
  end.
Definition formb (e : String.string * (list prow * list prow)) : bool :=
  match sending (lit (fst e)) with
  | Some d => match cd_sets d with [] => true | _ => false end && class_okb d && alignedb false (cd_adapted d) (fst (snd e)) && alignedb (String.eqb (fst e) "RunspacePoolStateMessage") (cd_extended d) (snd (snd e))
  | None => false end.
Lemma forms_ok : forallb formb heard = true.
Proof. vm_compute. reflexivity. Qed.
Lemma heard_ok : forallb heardb heard = true.
Proof. vm_compute. reflexivity. Qed.

Lemma shape_reading s m : shapeb s m = true -> as_reading m = Some (reading_of s).
Proof.
  destruct m as [k t n o c]. destruct s; cbn [shapeb]; intros H; destruct k; try discriminate H; try (destruct c as [c'|]; try discriminate H); cbn [as_reading reading_of];
    repeat rewrite andb_true_iff in H.
  - destruct H as (_ & H). apply existsb_exists in H. destruct H as (x & H & E). apply str_eqb_spec in E. subst t.
    replace (str_eqb x star || str_eqb x (lit "Obj"))%bool with false; [reflexivity|]. cbn [map In] in H. repeat (destruct H as [<-|H]; [vm_compute; reflexivity|]). destruct H.
  - destruct H as (H1 & H2). apply str_eqb_spec in H1. apply str_eqb_spec in H2. subst. reflexivity.
  - apply str_eqb_spec in H. subst. reflexivity.
  - destruct H as (H1 & H2). apply str_eqb_spec in H1. apply str_eqb_spec in H2. subst. reflexivity.
  - apply str_eqb_spec in H. subst. reflexivity.
  - destruct H as (H1 & H2). apply str_eqb_spec in H1. subst. rewrite str_eqb_refl. destruct (as_reading entry) as [[]|]; try discriminate H2; reflexivity.
  - destruct H as (H1 & H2). apply str_eqb_spec in H1. subst. rewrite str_eqb_refl. destruct (as_reading entry) as [[]|]; try discriminate H2; reflexivity.
  - apply str_eqb_spec in H. subst. reflexivity.
  - apply str_eqb_spec in H. subst. reflexivity.
Qed.
Lemma shape_tags s m t : shapeb s m = true -> shaped s t -> m_tag m = star \/ In (tag_of t) (property_tags m).
Proof.
  destruct m as [k tg n o c]. unfold property_tags. cbn [m_tag]. destruct s; cbn [shapeb shaped]; intros H S; destruct k; try discriminate H; try (destruct c as [c'|]; try discriminate H); repeat rewrite andb_true_iff in H.
  - destruct H as (H0 & H). apply str_eqb_spec in H0. right. rewrite S, <- H0. apply existsb_exists in H. destruct H as (x & H & E). apply str_eqb_spec in E. subst x. clear H0.
    replace (existsb (str_eqb tg) (map lit ["DCT"; "LST"; "IE"; "QUE"; "STK"; "ObjDynamic"]%string)) with false; [left; reflexivity|].
    cbn [map In] in H. repeat (destruct H as [<-|H]; [vm_compute; reflexivity|]). destruct H.
  - destruct H as (H & _). apply str_eqb_spec in H. subst. right. rewrite S. left. reflexivity.
  - apply str_eqb_spec in H. subst. right. rewrite S. left. reflexivity.
  - destruct H as (H & _). apply str_eqb_spec in H. subst. right. destruct S as [S|S]; rewrite S; vm_compute; tauto.
  - apply str_eqb_spec in H. subst. left. reflexivity.
  - destruct H as (H & _). apply str_eqb_spec in H. subst. right. destruct S as [S|S]; rewrite S; vm_compute; tauto.
  - destruct H as (H & _). apply str_eqb_spec in H. subst. right. destruct S as [S|S]; rewrite S; vm_compute; tauto.
  - apply str_eqb_spec in H. subst. right. destruct S as [S|S]; rewrite S; vm_compute; tauto.
  - apply str_eqb_spec in H. subst. right. destruct S as [S|S]; rewrite S; vm_compute; tauto.
Qed.

Section Held.
  Context (ci : option cipher) (float_of : list N -> res (list N)) (base : nat) (heap : list hobj) (env : list (list N * value)).
  Notation holds := (holds ci float_of sending base heap env).
  Lemma nodup_key {A} (l : list (list N * A)) k a b : NoDup (map fst l) -> In (k, a) l -> In (k, b) l -> a = b.
  Proof.
    induction l as [|(k0, c) l IH]; intros D H1 H2; [destruct H1|]. cbn [map fst] in D. apply NoDup_cons_iff in D. destruct D as (D1 & D2).
    destruct H1 as [E1|H1], H2 as [E2|H2]; [congruence| | |exact (IH D2 H1 H2)]; exfalso; apply D1; apply in_map_iff.
    - apply pair_inj in E1. destruct E1 as (-> & _). exists (k, b). auto.
    - apply pair_inj in E2. destruct E2 as (-> & _). exists (k, a). auto.
  Qed.
  Lemma shape_any s : s = HAny \/ s <> HAny.
  Proof. destruct s; [right|right|right|right|left|right|right]; first [reflexivity|discriminate]. Qed.
  Lemma classic_in {A} k (l : list (list N * A)) : (exists t, In (k, t) l) \/ (forall t, ~ In (k, t) l).
  Proof.
    induction l as [|(k0, t0) l [(t & H)|IH]]; [right; intros t []|left; exists t; right; exact H|]. destruct (str_eqb k0 k) eqn:E.
    - apply str_eqb_spec in E. subst. left. exists t0. left. reflexivity.
    - right. intros t [H|H]; [|exact (IH t H)]. apply pair_inj in H. destruct H as (-> & _). rewrite str_eqb_refl in E. discriminate E.
  Qed.
  Lemma nil_spelled v : spelled ci float_of (lit "Nil") None v -> v = VNone.
  Proof.
    intros H. remember (lit "Nil") as tag eqn:E. remember (@None (list N)) as x eqn:Ex.
    destruct H as [tag s Hin _ _| | | |tag z Hin|tag t f Hin _| | |tag s Hin| |]; subst; try discriminate Ex; try reflexivity.
    exfalso. vm_compute in Hin. repeat (destruct Hin as [Hin|Hin]; [discriminate Hin|]). destruct Hin.
  Qed.
  Lemma shape_nil s m : shapeb s m = true -> s <> HAny -> ~ (m_tag m = star \/ In (tag_of (Scalar (lit "Nil") None)) (property_tags m)).
  Proof.
    destruct m as [k tg n o c]. unfold property_tags. cbn [m_tag tag_of]. destruct s; cbn [shapeb]; intros H S; [| | | |contradiction| |]; destruct k; try discriminate H; try (destruct c as [c'|]; try discriminate H); repeat rewrite andb_true_iff in H.
    - destruct H as (H0 & H). clear H0. apply existsb_exists in H. destruct H as (x & H & E). apply str_eqb_spec in E. subst x.
      cbn [map In] in H. repeat (destruct H as [<-|H]; [vm_compute; intros [Q|[Q|[]]]; discriminate Q|]). destruct H.
    - destruct H as (H & _). apply str_eqb_spec in H. subst. vm_compute. intros [Q|[Q|[]]]; discriminate Q.
    - apply str_eqb_spec in H. subst. vm_compute. intros [Q|[Q|[]]]; discriminate Q.
    - destruct H as (H & _). apply str_eqb_spec in H. subst. vm_compute. intros [Q|[Q|[Q|[]]]]; discriminate Q.
    - destruct H as (H & _). apply str_eqb_spec in H. subst. vm_compute. intros [Q|[Q|[Q|[]]]]; discriminate Q.
    - destruct H as (H & _). apply str_eqb_spec in H. subst. vm_compute. intros [Q|[Q|[Q|[]]]]; discriminate Q.
    - apply str_eqb_spec in H. subst. vm_compute. intros [Q|[Q|[Q|[]]]]; discriminate Q.
    - apply str_eqb_spec in H. subst. vm_compute. intros [Q|[Q|[Q|[]]]]; discriminate Q.
  Qed.
  Lemma row_kept props attrs rows l : forallb (fun r => inb r l) rows = true -> NoDup (map fst props) ->
    (forall a m, In (a, m) l -> dict_get str_eqb a attrs <> None /\ (none_suits m (with_name props) -> dict_get str_eqb a attrs = Some VNone)) ->
    (forall a m t r' v, In (a, m) l -> only m (with_name props) t -> as_reading m = Some r' -> dict_get str_eqb a attrs = Some v -> holds r' t v) ->
    Forall (row_held ci float_of base heap env props attrs) rows.
  Proof.
    intros B D K1 K2. apply Forall_forall. intros [must a s name] Hr. rewrite forallb_forall in B. specialize (B _ Hr). cbn [inb] in B. apply existsb_exists in B. destruct B as ((a', m) & Il & B). cbn [fst snd] in B.
    repeat rewrite andb_true_iff in B. destruct B as ((B1 & B2) & B3). apply str_eqb_spec in B1. subst a'. destruct (m_name m) as [nm|] eqn:En; [|discriminate B2]. apply str_eqb_spec in B2. subst nm.
    destruct (K1 _ _ Il) as (Kn & Kv). unfold row_held. split.
    - intros t It S. destruct (dict_get str_eqb (lit a) attrs) as [v|] eqn:Ev; [|contradiction]. exists v. split; [reflexivity|].
      assert (O : only m (with_name props) t).
      { exists (Some (lit name)). split; [unfold with_name; apply in_map_iff; exists (lit name, t); auto|]. split; [split; [exact (shape_tags s m t B3 S)|right; exact En]|].
        intros (nm, t') He (_ & [Q|Q]); [congruence|]. cbn [fst] in Q. rewrite En in Q. subst nm. unfold with_name in He. apply in_map_iff in He. destruct He as ((k & u) & E & Hu). cbn [fst snd] in E.
        apply pair_inj in E. destruct E as (E1 & ->). apply Some_inj in E1. subst k. rewrite (nodup_key _ _ _ _ D Hu It). reflexivity. }
      pose proof (K2 _ _ _ _ _ Il O (shape_reading s m B3) Ev) as H. destruct s; cbn [kept reading_of] in *; try exact H. intros text ->. inversion H; subst. assumption.
    - intros Nn. destruct (shape_any s) as [->|Sa].
      { destruct (dict_get str_eqb (lit a) attrs) as [v|] eqn:Ev; [|contradiction]. f_equal.
        destruct (classic_in (lit name) props) as [(t & It)|Ab].
        - pose proof (Nn _ It) as ->. assert (O : only m (with_name props) (Scalar (lit "Nil") None)).
          { exists (Some (lit name)). split; [unfold with_name; apply in_map_iff; eexists; split; [|exact It]; reflexivity|]. split; [split; [exact (shape_tags HAny m _ B3 Logic.I)|right; exact En]|].
            intros (nm, t') He (_ & [Q|Q]); [congruence|]. cbn [fst] in Q. rewrite En in Q. subst nm. unfold with_name in He. apply in_map_iff in He. destruct He as ((k & u) & E & Hu). cbn [fst snd] in E.
            apply pair_inj in E. destruct E as (E1 & ->). apply Some_inj in E1. subst k. rewrite (Nn _ Hu). reflexivity. }
          pose proof (K2 _ _ _ _ _ Il O (shape_reading HAny m B3) Ev) as H. inversion H; subst. match goal with Hs : spelled _ _ _ _ _ |- _ => exact (nil_spelled _ Hs) end.
        - assert (Q : Some v = Some VNone); [|congruence]. apply Kv. intros (nm, t') He (_ & [Q|Q]); [congruence|]. cbn [fst] in Q. rewrite En in Q. subst nm. unfold with_name in He. apply in_map_iff in He.
          destruct He as ((k & u) & E & Hu). cbn [fst snd] in E. apply pair_inj in E. destruct E as (E1 & ->). apply Some_inj in E1. subst k. exact (Ab _ Hu). }
      apply Kv. intros (nm, t') He (Tg & [Q|Q]); [congruence|]. cbn [fst] in Q. rewrite En in Q. subst nm. unfold with_name in He. apply in_map_iff in He. destruct He as ((k & u) & E & Hu). cbn [fst snd] in E.
      apply pair_inj in E. destruct E as (E1 & ->). apply Some_inj in E1. subst k. rewrite (Nn _ Hu) in Tg. exact (shape_nil s m B3 Sa Tg).
  Qed.
  Theorem heard_held c ad_rows ex_rows id n text sets ad ex v : In (c, (ad_rows, ex_rows)) heard -> holds (Instance (lit c)) (Object id n text sets ad ex) v -> NoDup (map fst ad) -> NoDup (map fst ex) ->
    exists k attrs, v = VObj k /\ (base <= k)%nat /\ nth_error heap k = Some (HCls (lit c) attrs) /\
      Forall (row_held ci float_of base heap env ad attrs) ad_rows /\ Forall (row_held ci float_of base heap env ex attrs) ex_rows.
  Proof.
    intros I H Da De. pose proof heard_ok as B. rewrite forallb_forall in B. specialize (B _ I). unfold heardb in B. cbn [fst snd] in B.
    inversion H as [| |? ? ? ? ? ? ? ? ? T|? ? ? ? ? ? ? k c' d attrs T Hd Hk Hn He Htx K1 K2| | | |]; subst; cbn [taken] in T; [congruence|].
    assert (c' = lit c) by congruence. subst c'. rewrite Hd in B. apply andb_true_iff in B. destruct B as (B1 & B2). exists k, attrs. split; [reflexivity|]. split; [exact Hk|]. split; [exact Hn|].
    split.
    - apply (row_kept ad attrs ad_rows (cd_adapted d) B1 Da).
      + intros a m Hl. apply (K1 (with_name ad) a m). apply in_or_app. right. apply in_or_app. left. apply in_map_iff. exists (a, m). auto.
      + intros a m t r' w Hl. apply (K2 (with_name ad) a m t r' w). apply in_or_app. right. apply in_or_app. left. apply in_map_iff. exists (a, m). auto.
    - apply (row_kept ex attrs ex_rows (cd_extended d) B2 De).
      + intros a m Hl. apply (K1 (with_name ex) a m). apply in_or_app. right. apply in_or_app. right. apply in_map_iff. exists (a, m). auto.
      + intros a m t r' w Hl. apply (K2 (with_name ex) a m t r' w). apply in_or_app. right. apply in_or_app. right. apply in_map_iff. exists (a, m). auto.
  Qed.
End Held.

Section Given.
  Context (ci : option cipher) (float_of : list N -> res (list N)).
  Notation readable := (readable ci float_of sending).
  Lemma given_filled props s m must a nm st st' : NoDup (map fst props) -> m_name m = Some (lit nm) -> shapeb s m = true -> (must || m_optional m = true)%bool ->
    given readable props st (Prop_ must a s nm) st' -> filled readable (with_name props) st (lit a, m) st'.
  Proof.
    intros D En B3 Op G.
    assert (Un : forall t u n', m_name m = None \/ m_name m = Some n' -> In (lit nm, t) props -> In (n', u) props -> Some n' = Some (lit nm) /\ u = t).
    { intros t u n' [Q|Q] It Iu; [congruence|]. assert (n' = lit nm) by congruence. subst n'. split; [reflexivity|]. exact (nodup_key _ _ _ _ D Iu It). }
    inversion G; subst.
    - eapply fi_some; [|exact (shape_reading s m B3)|eassumption]. exists (Some (lit nm)). split; [unfold with_name; apply in_map_iff; eexists; split; [|eassumption]; reflexivity|].
      split; [split; [apply (shape_tags s m t B3); assumption|right; exact En]|]. intros (n', u) He (_ & Q). cbn [fst] in Q. unfold with_name in He. apply in_map_iff in He. destruct He as ((k & w) & E & Hu). cbn [fst snd] in E.
      apply pair_inj in E. destruct E as (<- & <-). match goal with It : In (lit nm, t) props |- _ => destruct (Un _ _ _ Q It Hu) as (-> & ->) end. reflexivity.
    - apply fi_none.
      + intros (n', u) He (Tg & Q). cbn [fst snd] in *. unfold with_name in He. apply in_map_iff in He. destruct He as ((k & w) & E & Hu). cbn [fst snd] in E. apply pair_inj in E. destruct E as (<- & <-).
        match goal with It : In (lit nm, _) props |- _ => destruct (Un _ _ _ Q It Hu) as (_ & ->) end. apply (shape_nil s m B3) in Tg; assumption.
      + right. exists (Some (lit nm)). split; [unfold with_name; apply in_map_iff; eexists; split; [|eassumption]; reflexivity|]. right. exact En.
    - apply fi_none.
      + intros (n', u) He (Tg & [Q|Q]); [congruence|]. cbn [fst snd] in *. unfold with_name in He. apply in_map_iff in He. destruct He as ((k & w) & E & Hu). cbn [fst snd] in E. apply pair_inj in E. destruct E as (<- & <-).
        assert (k = lit nm) by congruence. subst k. match goal with An : forall t, ~ In _ props |- _ => exact (An _ Hu) end.
      + left. exact Op.
  Qed.
  Lemma given_all props skip (Sk : skip = true -> forall e, In e props -> tag_of (snd e) <> lit "Obj") : NoDup (map fst props) -> forall l rows, alignedb skip l rows = true -> forall st st', thread (given readable props) st rows st' -> thread (filled readable (with_name props)) st l st'.
  Proof.
    intros D. induction l as [|(a', m) l IH]; intros rows B st st' T; cbn [alignedb] in B.
    - destruct rows; [|discriminate B]. inversion T; subst. apply th_nil.
    - destruct rows as [|[must a s nm] rows].
      + inversion T; subst. repeat rewrite andb_true_iff in B. destruct B as ((B1 & B2) & B3). eapply th_cons; [|exact (IH [] B3 _ _ T)].
        destruct m as [[] tg [] [] []]; try discriminate B2. apply str_eqb_spec in B2. subst tg. apply fi_none; [|left; reflexivity].
        intros (n', u) He (Tg & _). cbn [fst snd m_tag] in *. unfold with_name in He. apply in_map_iff in He. destruct He as ((k & w) & E & Hu). cbn [fst snd] in E. apply pair_inj in E. destruct E as (_ & <-).
        destruct Tg as [Tg|Tg]; [discriminate Tg|]. apply (Sk B1 _ Hu). destruct Tg as [Tg|[]]. exact (eq_sym Tg).
      + destruct (_ && _ && _ && _)%bool eqn:C in B; [|discriminate B]. cbn [fst snd] in C. repeat rewrite andb_true_iff in C. destruct C as (((C1 & C2) & C3) & C4). apply str_eqb_spec in C1. subst a'.
        destruct (m_name m) as [n'|] eqn:En; [|discriminate C2]. apply str_eqb_spec in C2. subst n'. inversion T as [|? ? ? st1 ? G T']; subst.
        eapply th_cons; [exact (given_filled _ _ _ _ _ _ _ _ D En C3 C4 G)|exact (IH _ B _ _ T')].
  Qed.
  Theorem heard_readable c ad_rows ex_rows r s id n text ad ex s1 s2 s3 : In (c, (ad_rows, ex_rows)) heard -> taken r n = Some (Instance (lit c)) -> ~ In id (snd s) -> names s n s1 -> text_spelled ci float_of text ->
    NoDup (map fst ad) -> NoDup (map fst ex) -> no_failure c ex ->
    thread (given readable ad) (known id s1) ad_rows s2 -> thread (given readable ex) s2 ex_rows s3 -> readable r s (Object id n text [] ad ex) s3.
  Proof.
    intros I T Hi Hn Ht Da De Nf Ta Te. pose proof forms_ok as B. rewrite forallb_forall in B. specialize (B _ I). unfold formb in B. cbn [fst snd] in B.
    destruct (sending (lit c)) as [d|] eqn:Ed; [|discriminate B]. repeat rewrite andb_true_iff in B. destruct B as (((B1 & B2) & B3) & B4). destruct (cd_sets d) eqn:Es; [|discriminate B1].
    eapply rd_instance; [exact T|exact Ed|apply class_okb_ok; exact B2|exact Hi|exact Hn|exact Ht|apply Forall_nil|rewrite Es; apply th_nil| |].
    - refine (given_all ad false _ Da _ _ B3 _ _ Ta). intros Q. discriminate Q.
    - refine (given_all ex _ _ De _ _ B4 _ _ Te). intros Q. apply String.eqb_eq in Q. exact (Nf Q).
  Qed.
  Lemma flat_given props st rows : Forall (flat_row ci float_of props) rows -> thread (given readable props) st rows st.
  Proof.
    induction 1 as [|[must a s nm] rows H _ IH]; [apply th_nil|]. apply th_cons with (s1 := st); [|exact IH]. cbn [flat_row] in H.
    destruct H as [(tag & text & v & H1 & H2 & H3)|(-> & H)]; [|apply gv_none; exact H].
    assert (Q : (s <> HAny /\ tag = "Nil"%string) \/ shaped s (Scalar (lit tag) text)).
    { destruct s; cbn [shaped tag_of]; try (left; split; [discriminate|assumption]); [|right; exact Logic.I]. destruct H3 as [-> | ->]; [right; reflexivity|left; split; [discriminate|reflexivity]]. }
    destruct Q as [(Q1 & ->)|Q]; [|apply gv_some with (t := Scalar (lit tag) text); [exact H1|exact Q|apply rd_scalar with (v := v); exact H2]].
    apply gv_nil; [exact Q1|]. replace text with (@None (list N)) in H1; [exact H1|]. clear -H2. remember (lit "Nil") as tg eqn:E.
    destruct H2 as [tag s Hin _ _| | | |tag z Hin|tag t f Hin _| | |tag s Hin| |]; subst; try discriminate E; try reflexivity;
      exfalso; vm_compute in Hin; repeat (destruct Hin as [Hin|Hin]; [discriminate Hin|]); destruct Hin.
  Qed.
End Given.
Theorem heard_text ci xml_text float_of heap c ad_rows ex_rows id n text ad ex s1 txt :
  In (c, (ad_rows, ex_rows)) heard -> names ([], []) n s1 -> text_spelled ci float_of text -> NoDup (map fst ad) -> NoDup (map fst ex) -> no_failure c ex ->
  Forall (flat_row ci float_of ad) ad_rows -> Forall (flat_row ci float_of ex) ex_rows ->
  XtModel.xml_parse txt = Some (write None (Object id n text [] ad ex)) ->
  exists k h env attrs, deserialize_text ci xml_text float_of sending heap txt (class_meta (lit c)) = Ok (VObj k, heap ++ h) /\
    length heap <= k /\ nth_error (heap ++ h) k = Some (HCls (lit c) attrs) /\
    Forall (row_held ci float_of (length heap) (heap ++ h) env ad attrs) ad_rows /\ Forall (row_held ci float_of (length heap) (heap ++ h) env ex attrs) ex_rows.
Proof.
  intros Ih Hn Ht Da De Nf Fa Fe P.
  pose proof (heard_readable ci float_of c ad_rows ex_rows (Instance (lit c)) ([], []) id n text ad ex s1 _ _ Ih eq_refl (fun K => K) Hn Ht Da De Nf (flat_given ci float_of ad _ _ Fa) (flat_given ci float_of ex _ _ Fe)) as R.
  destruct (read_text_document ci xml_text float_of sending _ _ _ (class_meta (lit c)) heap txt P R eq_refl) as (v & h & env & H1 & _ & H2).
  destruct (heard_held ci float_of _ _ _ _ _ _ _ _ _ _ _ _ _ Ih H2 Da De) as (k & attrs & -> & Hk & Hn' & Ha & He). exists k, h, env, attrs. auto.
Qed.
