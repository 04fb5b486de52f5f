(* Proofs about single methods of the default host. *)
From Verif Require Import Base BaseProofs Lit NumModel TextModel XmlModel WsmanModel ShellModel FragModel MsgModel UtilModel TransModel PoolModel PoolSpec HostModel HostSpec HostProofs HostSpec2.
Require Import Lia ZifyBool ZifyNat ZifyN.

Section Calls.
  Context (version : pyval -> res pyval) (shown : pyval -> res (list N)).
  Notation host := (default_host version shown).
  Local Ltac pick H := unfold asked_for, for_the_user, without_effect in H; cbn [In] in H;
    repeat (destruct H as [H|H]; [apply pair_inj in H; destruct H as (<- & <-)|]); [..|destruct H].

  Lemma tells mi f pl st : In (mi, f) asked_for -> run_method host (Some mi) (Ok []) pl st = (Ret (match f st with PNone => None | _ => Some (f st) end), st).
  Proof. intros H. pick H; reflexivity. Qed.
  Lemma version_told v pl st : version (hs_version st) = Ok v -> run_method host (Some 2%Z) (Ok []) pl st = (Ret (match v with PNone => None | _ => Some v end), st).
  Proof.
    intros H. transitivity ((arity0 (fun st => (do v <- version (hs_version st); Ok (answer v), st))) pl [] st); [reflexivity|].
    unfold arity0. rewrite H. reflexivity.
  Qed.
  Lemma exit_kept v pl st : exists st', run_method host (Some 6%Z) (Ok [v]) pl st = (Ret None, st') /\ hs_rc st' = v.
  Proof. exists (set_hs_rc v st). split; reflexivity. Qed.
  Lemma unanswered mi n args pl st : In (mi, n) for_the_user -> length args = n -> run_method host (Some mi) (Ok args) pl st = (Raise (XExn NotImplementedError), st).
  Proof.
    intros H L. pick H; do 7 (destruct args as [|? args]; try discriminate L; try reflexivity).
  Qed.
  Lemma ignored mi n args pl st : In (mi, n) without_effect -> length args = n -> run_method host (Some mi) (Ok args) pl st = (Ret None, st).
  Proof.
    intros H L. pick H; do 7 (destruct args as [|? args]; try discriminate L; try reflexivity).
  Qed.

  (* ---- the rest stays ---- *)
  Definition leaves (mi : Z) (st st' : hstate) : Prop :=
    (forall g f, In (g, f) asked_for -> ~ In (mi, g) changed_by -> f st' = f st) /\
    (mi <> 6%Z -> hs_rc st' = hs_rc st) /\ (~ In mi to_stdout -> hs_stdout st' = hs_stdout st) /\ (~ In mi to_stderr -> hs_stderr st' = hs_stderr st) /\
    hs_version st' = hs_version st.
  Lemma leaves_refl mi st : leaves mi st st.
  Proof. unfold leaves. repeat split; auto. Qed.
  Definition method_leaves (mi : Z) (f : method pyval hstate) : Prop := forall pl args st r st', f pl args st = (r, st') -> leaves mi st st'.
  Lemma ignore_leaves mi k : method_leaves mi (ignore k).
  Proof. intros pl args st r st' H. unfold ignore in H. destruct (Nat.eqb _ _); apply pair_inj in H; destruct H as (_ & <-); apply leaves_refl. Qed.
  Lemma missing_leaves mi a b : method_leaves mi (missing a b).
  Proof. intros pl args st r st' H. unfold missing in H. destruct (_ && _)%bool; apply pair_inj in H; destruct H as (_ & <-); apply leaves_refl. Qed.
  Lemma arity0_leaves mi f : (forall st r st', f st = (r, st') -> leaves mi st st') -> method_leaves mi (arity0 f).
  Proof.
    intros F pl args st r st' H. unfold arity0 in H. destruct args as [|a args]; [|apply pair_inj in H; destruct H as (_ & <-); apply leaves_refl].
    destruct (f st) as [[v|e] st1] eqn:E; apply pair_inj in H; destruct H as (_ & <-); exact (F _ _ _ E).
  Qed.
  Lemma arity1_leaves mi f : (forall v st r st', f v st = (r, st') -> leaves mi st st') -> method_leaves mi (arity1 f).
  Proof.
    intros F pl args st r st' H. unfold arity1 in H. destruct args as [|a [|b args]]; try (apply pair_inj in H; destruct H as (_ & <-); apply leaves_refl).
    destruct (f a st) as [[v|e] st1] eqn:E; apply pair_inj in H; destruct H as (_ & <-); exact (F _ _ _ _ E).
  Qed.
  Lemma third_leaves mi f : (forall v st r st', f v st = (r, st') -> leaves mi st st') -> method_leaves mi (third f).
  Proof.
    intros F pl args st r st' H. unfold third in H. destruct args as [|a [|b [|c [|d args]]]]; try (apply pair_inj in H; destruct H as (_ & <-); apply leaves_refl).
    exact (arity1_leaves mi f F _ _ _ _ _ H).
  Qed.
  Lemma reads_leaves mi f : method_leaves mi (reads f).
  Proof. apply arity0_leaves. intros st r st' H. apply pair_inj in H. destruct H as (_ & <-). apply leaves_refl. Qed.
  Lemma stores_leaves mi f : (forall v st, leaves mi st (f v st)) -> method_leaves mi (stores f).
  Proof. intros F. apply arity1_leaves. intros v st r st' H. apply pair_inj in H. destruct H as (_ & <-). apply F. Qed.
  Lemma stores_as_leaves mi conv f : (forall v st, leaves mi st (f v st)) -> method_leaves mi (stores_as conv f).
  Proof. intros F. apply arity1_leaves. intros v st r st' H. destruct (conv v); apply pair_inj in H; destruct H as (_ & <-); [apply F|apply leaves_refl]. Qed.
  Lemma out_leaves mi x st r st' : In mi to_stdout -> out_line x st = (r, st') -> leaves mi st st'.
  Proof.
    intros I H. unfold out_line in H. destruct x; apply pair_inj in H; destruct H as (_ & <-); [|apply leaves_refl].
    unfold leaves. split; [|repeat split; try reflexivity; intros Q; contradiction].
    intros g f G _. unfold asked_for in G. cbn [In] in G. repeat (destruct G as [G|G]; [apply pair_inj in G; destruct G as (_ & <-); reflexivity|]). destruct G.
  Qed.
  Lemma err_leaves mi x st r st' : In mi to_stderr -> err_line x st = (r, st') -> leaves mi st st'.
  Proof.
    intros I H. unfold err_line in H. destruct x; apply pair_inj in H; destruct H as (_ & <-); [|apply leaves_refl].
    unfold leaves. split; [|repeat split; try reflexivity; intros Q; contradiction].
    intros g f G _. unfold asked_for in G. cbn [In] in G. repeat (destruct G as [G|G]; [apply pair_inj in G; destruct G as (_ & <-); reflexivity|]). destruct G.
  Qed.
  Local Ltac setter := unfold leaves; split; [|repeat split; try reflexivity; intros Q; contradiction];
    let g := fresh in let f := fresh in let G := fresh in let Q := fresh in intros g f G Q; unfold asked_for in G; cbn [In] in G;
    repeat (destruct G as [G|G]; [apply pair_inj in G; destruct G as (<- & <-); first [reflexivity | exfalso; apply Q; unfold changed_by; cbn [In]; tauto]|]); destruct G.
  Local Ltac meth := first
    [ apply ignore_leaves | apply missing_leaves | apply reads_leaves
    | apply stores_leaves; intros; setter | apply stores_as_leaves; intros; setter
    | apply arity1_leaves; let v := fresh in let st := fresh in let r := fresh in let st' := fresh in intros v st r st'; first [apply out_leaves | apply err_leaves]; unfold to_stdout, to_stderr; cbn [In]; tauto
    | apply third_leaves; let v := fresh in let st := fresh in let r := fresh in let st' := fresh in intros v st r st'; apply out_leaves; unfold to_stdout; cbn [In]; tauto
    | apply arity0_leaves; let st := fresh in let r := fresh in let st' := fresh in intros st r st'; apply out_leaves; unfold to_stdout; cbn [In]; tauto
    | apply arity0_leaves; let st := fresh in let r := fresh in let st' := fresh in let H := fresh in intros st r st' H; apply pair_inj in H; destruct H as (_ & <-); apply leaves_refl ].
  Local Ltac found K H := match goal with s : string |- _ => assert (Hs := f_equal (fun o => match o with Some x => x | None => s end) K); cbn in Hs; subst s end;
    cbv [lookup default_own default_ui default_raw dict_get str_eqb list_eqb lit map list_ascii_of_string N_of_ascii N_of_digits N.add N.mul Pos.add Pos.mul N.eqb Pos.eqb andb] in H;
    apply Some_inj in H; subst.
  Lemma table_leaves mi name p o f st : assigned mi p name -> object_at host st p = Some o -> o name = Some f -> method_leaves mi f.
  Proof.
    intros A O H. destruct A as [k s K|k s K|k s K]; cbn [object_at default_host h_own h_ui h_raw] in O; apply Some_inj in O; subst o.
    - do 10 (destruct k as [|k]; [found K H; meth|]). destruct k; discriminate K.
    - do 16 (destruct k as [|k]; [found K H; meth|]). destruct k; discriminate K.
    - do 25 (destruct k as [|k]; [found K H; meth|]). destruct k; discriminate K.
  Qed.
  Lemma run_leaves mi args pl st r st' : (1 <= mi <= 51)%Z -> run_method host (Some mi) (Ok args) pl st = (r, st') -> leaves mi st st'.
  Proof.
    intros R H. destruct (assigned_total mi R) as (p & name & A). rewrite (run_assigned host mi p name args pl st A) in H.
    destruct (default_has version shown mi p name st A) as (o & f & O & F). rewrite O, F in H.
    exact (table_leaves mi name p o f st A O F pl args st r st' H).
  Qed.
End Calls.
