(* Proofs about shells. *)
From Coq Require Import Lia ZifyBool ZifyNat ZifyN.
From Verif Require Import Base BaseProofs Lit NumModel NumProofs TextModel TextProofs XmlModel WsmanModel WsmanSpec WsmanProofs ShellModel ShellSpec.

Section Server.
  Context (srv : history -> sreq -> wresult).

  Lemma call_history q h : snd (call srv q h) = h ++ [(q, srv h q)].
  Proof. reflexivity. Qed.

  (* each use makes at most one call *)
  Definition kind (o : shop) : wop :=
    match o with SOpen _ _ => OpCreate | SClose => OpDelete | SCommand _ _ _ _ => OpCommand | SReceive _ _ _ => OpReceive
               | SSend _ _ _ _ => OpSend | SSignal _ _ => OpSignal | SGet _ => OpGet end.

  Lemma parse_create_opened b s r s' : parse_shell_create b s = (r, s') -> sh_opened s' = sh_opened s.
  Proof.
    unfold parse_shell_create. destruct b as [b|]; [|intros H; now apply pair_inj in H; destruct H as [_ <-]].
    destruct (find_first p_selectors b) as [e|].
    - destruct (add_selectors _ _) as [r0 w]. intros H. apply pair_inj in H. destruct H as [_ <-]. reflexivity.
    - intros H. apply pair_inj in H. destruct H as [_ <-]. reflexivity.
  Qed.

  Lemma use_step o s h s' h' : use srv o s h = (s', h') ->
    (s' = s /\ h' = h /\ (o = SClose -> sh_opened s = false) /\ (kind o = OpCreate -> sh_opened s = true)) \/
    (exists q, h' = h ++ [(q, srv h q)] /\ q_op q = kind o /\
      (kind o <> OpCreate -> q_selectors q = sh_selectors s) /\
      match kind o with
      | OpCreate => sh_opened s = false /\
          ((s' = s /\ forall b, srv h q <> WBody b) \/
           exists b r s1, srv h q = WBody b /\ parse_shell_create b s = (r, s1) /\
             s' = match r with Ret _ => set_opened true s1 | Raise _ => s1 end)
      | OpDelete => sh_opened s = true /\
          ((exists b, srv h q = WBody b) /\ s' = set_opened false (set_id None s) \/ (forall b, srv h q <> WBody b) /\ s' = s)
      | _ => s' = s
      end).
  Proof.
    destruct o as [base content| |x a n i|x i t|x d i e|c i|t]; cbn [use kind]; intros H.
    - unfold shell_open in H. destruct (sh_opened s) eqn:O.
      + left. apply pair_inj in H. destruct H as [<- <-]. split; [reflexivity|]. split; [reflexivity|]. split; [discriminate|auto].
      + right. unfold call in H. set (q := create_request s base content) in *. exists q.
        destruct (srv h q) as [b|f|cd t|e] eqn:E.
        * destruct (parse_shell_create b s) as [r s1] eqn:P. destruct r as [[]|x]; apply pair_inj in H; destruct H as [<- <-];
            (split; [reflexivity|]; split; [reflexivity|]; split; [congruence|]; split; [reflexivity|]; right);
            [exists b, (Ret tt), s1|exists b, (Raise x), s1]; auto.
        * apply pair_inj in H. destruct H as [<- <-]. split; [reflexivity|]. split; [reflexivity|]. split; [congruence|]. split; [reflexivity|].
          left. split; [reflexivity|discriminate].
        * apply pair_inj in H. destruct H as [<- <-]. split; [reflexivity|]. split; [reflexivity|]. split; [congruence|]. split; [reflexivity|].
          left. split; [reflexivity|discriminate].
        * apply pair_inj in H. destruct H as [<- <-]. split; [reflexivity|]. split; [reflexivity|]. split; [congruence|]. split; [reflexivity|].
          left. split; [reflexivity|discriminate].
    - unfold shell_close in H. destruct (sh_opened s) eqn:O; cbn [negb] in H.
      + right. unfold call in H. set (q := request OpDelete s None None None) in *. exists q.
        destruct (srv h q) as [b|f|cd t|e] eqn:E; apply pair_inj in H; destruct H as [<- <-];
          (split; [reflexivity|]; split; [reflexivity|]; split; [reflexivity|]; split; [reflexivity|]).
        * left. split; [eauto|reflexivity].
        * right. split; [discriminate|reflexivity].
        * right. split; [discriminate|reflexivity].
        * right. split; [discriminate|reflexivity].
      + left. apply pair_inj in H. destruct H as [<- <-]. split; [reflexivity|]. split; [reflexivity|]. split; [auto|discriminate].
    - right. apply pair_inj in H. destruct H as [<- <-]. eexists. split; [reflexivity|]. split; [reflexivity|]. split; reflexivity.
    - right. apply pair_inj in H. destruct H as [<- <-]. unfold shell_receive, call. eexists. split; [reflexivity|]. split; [reflexivity|]. split; reflexivity.
    - right. apply pair_inj in H. destruct H as [<- <-]. eexists. split; [reflexivity|]. split; [reflexivity|]. split; reflexivity.
    - right. apply pair_inj in H. destruct H as [<- <-]. eexists. split; [reflexivity|]. split; [reflexivity|]. split; reflexivity.
    - right. apply pair_inj in H. destruct H as [<- <-]. unfold get_shell, call. eexists. split; [reflexivity|]. split; [reflexivity|]. split; reflexivity.
  Qed.

  Lemma snoc_split {A} (h : list A) x a y b : h ++ [x] = a ++ y :: b ->
    (b = [] /\ h = a /\ x = y) \/ (exists b', b = b' ++ [x] /\ h = a ++ y :: b').
  Proof.
    destruct (@exists_last _ (y :: b)) as (l & z & E); [discriminate|]. intros H. rewrite E, app_assoc in H.
    apply app_inj_tail in H. destruct H as [H ->]. destruct l as [|y' l].
    - left. cbn [app] in E. apply cons_inj in E. destruct E as [-> ->]. rewrite app_nil_r in H. auto.
    - right. cbn [app] in E. apply cons_inj in E. destruct E as [<- ->]. exists l. auto.
  Qed.

  Lemma alive_snoc h e : alive h -> ~ deleted e -> alive (h ++ [e]).
  Proof.
    intros (a & c & b & -> & C & F) D. exists a, c, (b ++ [e]). rewrite <- app_assoc. split; [reflexivity|]. split; [exact C|].
    apply Forall_app. split; [exact F|]. constructor; [exact D|constructor].
  Qed.

  (* the invariant of use: opened only while a shell is alive; every delete was sent for one *)
  Definition inv (s : shell) (h0 new : history) : Prop :=
    (sh_opened s = true -> alive new) /\
    (forall a q r b, new = a ++ (q, r) :: b -> q_op q = OpDelete -> alive a).

  Lemma inv_step o s h0 new s' h' : inv s h0 new -> use srv o s (h0 ++ new) = (s', h') ->
    exists new', h' = h0 ++ new' /\ inv s' h0 new'.
  Proof.
    intros [Ia Id] H. apply use_step in H. destruct H as [(-> & -> & _)|(q & -> & Eq & _ & C)].
    - exists new. split; [reflexivity|]. split; assumption.
    - set (e := (q, srv (h0 ++ new) q)) in *. exists (new ++ [e]). split; [now rewrite app_assoc|].
      assert (K : kind o = OpDelete -> sh_opened s = true).
      { intros K. rewrite K in C. apply C. }
      split.
      + intros O. destruct (kind o) eqn:K0;
          try (subst s'; apply alive_snoc; [now apply Ia|]; intros [D _]; cbn [fst e] in D; unfold e in D; cbn in D; congruence).
        * destruct C as [O' C]. destruct C as [[-> _]|(b & r & s1 & E & P & ->)]; [congruence|].
          exists new, e, []. split; [reflexivity|]. split; [|constructor]. split; [exact Eq|]. exists b. exact E.
        * destruct C as [_ [[_ ->]|[N ->]]]; [discriminate|]. apply alive_snoc; [now apply Ia|].
          intros [_ [b D]]. apply (N b). exact D.
      + intros a q' r' b E D. apply snoc_split in E. destruct E as [(-> & <- & E)|(b' & -> & ->)].
        * unfold e in E. apply pair_inj in E. destruct E as [<- <-]. apply Ia, K. congruence.
        * exact (Id _ _ _ _ eq_refl D).
  Qed.

  Lemma uses_inv os : forall s h0 new, inv s h0 new -> exists new', snd (uses srv os s (h0 ++ new)) = h0 ++ new' /\
    inv (fst (uses srv os s (h0 ++ new))) h0 new'.
  Proof.
    induction os as [|o os IH]; intros s h0 new I; unfold uses; cbn [fold_left fst snd]; [eauto|].
    destruct (use srv o s (h0 ++ new)) as [s' h'] eqn:E.
    destruct (inv_step _ _ _ _ _ _ I E) as (n1 & -> & I1). apply (IH s' h0 n1 I1).
  Qed.

  Lemma deletes_only_alive os s h0 : sh_opened s = false ->
    exists new, snd (uses srv os s h0) = h0 ++ new /\
    (forall a q r b, new = a ++ (q, r) :: b -> q_op q = OpDelete -> alive a) /\
    (sh_opened (fst (uses srv os s h0)) = true -> alive new).
  Proof.
    intros O. destruct (uses_inv os s h0 []) as (new & E & I1 & I2).
    - split; [congruence|]. intros a q r b X. destruct a; discriminate.
    - rewrite app_nil_r in *. exists new. auto.
  Qed.

  (* a shell is deleted again only after another create *)
  Lemma two_splits (l1 l2 : history) x1 x2 r1 r2 : l1 ++ x1 :: r1 = l2 ++ x2 :: r2 ->
    (l1 = l2 /\ x1 = x2 /\ r1 = r2) \/ (exists k, l2 = l1 ++ x1 :: k /\ r1 = k ++ x2 :: r2) \/
    (exists k, l1 = l2 ++ x2 :: k /\ r2 = k ++ x1 :: r1).
  Proof.
    revert l2 x1 x2 r1 r2. induction l1 as [|z l1 IH]; intros [|z' l2] x1 x2 r1 r2 H; cbn [app] in H; apply cons_inj in H; destruct H as [-> H].
    - left. auto.
    - right; left. exists l2. auto.
    - right; right. exists l1. auto.
    - destruct (IH _ _ _ _ _ H) as [(-> & -> & ->)|[(k & -> & ->)|(k & -> & ->)]]; [left; auto|right; left; exists k; auto|right; right; exists k; auto].
  Qed.

  Lemma created_between a d m : alive (a ++ d :: m) -> deleted d -> exists e, In e m /\ created e.
  Proof.
    intros (x & e & y & E & C & F) D.
    destruct (two_splits _ _ _ _ _ _ E) as [(-> & <- & ->)|[(k & -> & ->)|(k & -> & ->)]].
    - destruct C as [C _], D as [D _]. congruence.
    - exists e. split; [apply in_or_app; right; now left|exact C].
    - exfalso. rewrite Forall_forall in F. apply (F d); [apply in_or_app; right; now left|exact D].
  Qed.

  Lemma second_close s h r s' h' : shell_close srv s h = (Ret r, s', h') -> shell_close srv s' h' = (Ret tt, s', h').
  Proof.
    unfold shell_close. destruct (sh_opened s) eqn:O; cbn [negb].
    - destruct (call srv _ h) as [c h1]. destruct c; [|discriminate]. intros H.
      assert (E : s' = set_opened false (set_id None s)) by congruence. rewrite E. reflexivity.
    - intros H. assert (E : s' = s) by congruence. rewrite E, O. reflexivity.
  Qed.

  Lemma failed_create base content s h x s' h' : sh_opened s = false ->
    shell_open srv base content s h = (Raise x, s', h') -> shell_close srv s' h' = (Ret tt, s', h').
  Proof.
    intros O. unfold shell_open. rewrite O. destruct (call srv _ h) as [r h1]. destruct r as [b|y].
    - destruct (parse_shell_create b s) as [r' s1] eqn:P. destruct r'; [discriminate|].
      intros H. assert (E : s' = s1) by congruence. subst s1. unfold shell_close.
      rewrite (parse_create_opened _ _ _ _ P), O. reflexivity.
    - intros H. assert (E : s' = s) by congruence. subst s'. unfold shell_close. rewrite O. reflexivity.
  Qed.

  (* ---- selectors ---- *)
  Lemma add_selectors_built cs en : Forall2 (fun c en => attr (lit "Name") (Some c) = Some (fst (fst en)) /\
       snd (fst en) = match text_of (Some c) with Some t => t | None => [] end /\ snd en = []) cs en ->
    forall w, add_selectors cs w = (Ret tt, built w en).
  Proof.
    intros F. induction F as [|c e cs en (H1 & H2 & H3) F IH]; intros w; cbn [add_selectors]; [reflexivity|].
    rewrite (attr_attr (lit "Name") c), H1, (text_text c). rewrite IH. unfold built. cbn [fold_left].
    rewrite <- H2, H3. reflexivity.
  Qed.

  Lemma parse_selects b en s : selects b en -> exists s', parse_shell_create (Some b) s = (Ret tt, s') /\
    sh_selectors s' = Some (built selector_set en).
  Proof.
    intros (e & L & F). unfold parse_shell_create.
    assert (X : find_first p_selectors b = Some e) by (apply find_first_iff; exact L).
    rewrite X, (add_selectors_built _ _ F). eexists. split; reflexivity.
  Qed.

  Definition sel_inv (s : shell) (new : history) : Prop :=
    (forall a q b en m, new = a ++ (q, WBody (Some b)) :: m -> q_op q = OpCreate -> Forall (fun e => ~ creates e) m ->
      selects b en -> sh_selectors s = Some (built selector_set en)) /\
    (forall a q b en m q' r' z, new = a ++ (q, WBody (Some b)) :: m ++ (q', r') :: z -> q_op q = OpCreate ->
      Forall (fun e => ~ creates e) m -> q_op q' <> OpCreate -> selects b en -> q_selectors q' = Some (built selector_set en)).

  Lemma sel_step o s h0 new s' h' : sel_inv s new -> use srv o s (h0 ++ new) = (s', h') ->
    exists new', h' = h0 ++ new' /\ sel_inv s' new'.
  Proof.
    intros [I1 I2] H. apply use_step in H. destruct H as [(-> & -> & _)|(q & -> & Eq & Qs & C)].
    - exists new. split; [reflexivity|]. split; assumption.
    - set (r := srv (h0 ++ new) q) in *. exists (new ++ [(q, r)]). split; [now rewrite app_assoc|]. split.
      + intros a q0 b en m E Q F S. apply snoc_split in E. destruct E as [(-> & <- & E)|(m' & -> & E)].
        * apply pair_inj in E. destruct E as [<- E]. rewrite Eq in Q. rewrite Q in C. destruct C as [_ [[_ N]|(b' & r' & s1 & E' & P & ->)]].
          -- now contradiction (N (Some b)).
          -- rewrite E in E'. assert (b' = Some b) by congruence. subst b'.
             destruct (parse_selects b en s S) as (s2 & P2 & S2). rewrite P2 in P.
             assert (r' = Ret tt /\ s1 = s2) as [-> ->] by (split; congruence). exact S2.
        * apply Forall_app in F. destruct F as [F F']. assert (Sx := I1 _ _ _ _ _ E Q F S).
          assert (NC : kind o <> OpCreate).
          { intros K. apply (Forall_inv F'). unfold creates. cbn [fst]. congruence. }
          destruct (kind o) eqn:K; try (subst s'; exact Sx); [contradiction|].
          destruct C as [_ [[_ ->]|[_ ->]]]; exact Sx.
      + intros a q0 b en m q' r' z E Q F Nq S. 
        assert (E2 : new ++ [(q, r)] = (a ++ (q0, WBody (Some b)) :: m) ++ (q', r') :: z) by (rewrite <- app_assoc; exact E).
        apply snoc_split in E2. destruct E2 as [(-> & E2 & E3)|(z' & -> & E2)].
        * apply pair_inj in E3. destruct E3 as [<- _]. rewrite Qs by congruence. exact (I1 _ _ _ _ _ E2 Q F S).
        * rewrite <- app_assoc in E2. exact (I2 _ _ _ _ _ _ _ _ E2 Q F Nq S).
  Qed.

  Lemma uses_sel os : forall s h0 new, sel_inv s new -> exists new', snd (uses srv os s (h0 ++ new)) = h0 ++ new' /\
    sel_inv (fst (uses srv os s (h0 ++ new))) new'.
  Proof.
    induction os as [|o os IH]; intros s h0 new I; unfold uses; cbn [fold_left fst snd]; [eauto|].
    destruct (use srv o s (h0 ++ new)) as [s' h'] eqn:E.
    destruct (sel_step _ _ _ _ _ _ I E) as (n1 & -> & I1). apply (IH s' h0 n1 I1).
  Qed.

  Lemma selectors_reused os s h0 : exists new, snd (uses srv os s h0) = h0 ++ new /\
    forall a q b en m q' r' z, new = a ++ (q, WBody (Some b)) :: m ++ (q', r') :: z -> q_op q = OpCreate ->
      Forall (fun e => ~ creates e) m -> q_op q' <> OpCreate -> selects b en -> q_selectors q' = Some (built selector_set en).
  Proof.
    destruct (uses_sel os s h0 []) as (new & E & _ & I).
    - split; intros; destruct a; discriminate.
    - rewrite app_nil_r in *. exists new. auto.
  Qed.
End Server.
