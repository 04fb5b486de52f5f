(* C70: the messages that a pool and its pipelines send are in their forms. *)
From Verif Require Import Base BaseProofs Lit NumModel TextModel Utf8Model Utf8Proofs MsgModel MsgSpec MsgProofs XmlModel XtModel SerModel SerClasses WfModel WireModel SendClasses ObjModel StartModel TellModel LibModel
  FormSpec FormSpec2 FormProofs FormProofs2 FormProofs3 FormProofs4.
From Verif Require PoolModel BytesProofs TellProofs3.
Import PoolModel (omsg, OCapability, OInit, OConnect, OSetMin, OSetMax, OAvailable, OReset, OPublicKey, OPoolResponse, OPipelineResponse, OCreate, OMetadata, OInput, OEnd).
Local Open Scope list_scope.

Lemma empty_in_form ci : in_form ci [].
Proof. intros n c attrs H. destruct n; discriminate H. Qed.
Section Sent.
  Context (ci : option cipher) (heap : list hobj) (hs : option host).
  Ltac known := vm_compute; repeat (first [left; reflexivity | right]).
  Ltac oblige := unfold fits; lazy beta iota zeta delta [layout_of forms String.eqb Ascii.eqb Bool.eqb host_answer merge];
    repeat match goal with |- _ /\ _ => split end; cbn [obliged]; repeat match goal with |- _ /\ _ => split | |- True => exact Logic.I end;
    lazy beta iota zeta delta [dict_get str_eqb list_eqb lit map list_ascii_of_string N_of_ascii N_of_digits N.add N.mul N.eqb Pos.eqb Pos.add Pos.mul fst snd andb app instance String.append]; try exact Logic.I.
  Ltac one := apply put_step; [apply empty_in_form|known|]; oblige; first [apply su_none | apply integer_suits; cbn [In]; tauto | eapply su_text; constructor].
  Lemma pairs_any h l : suit_pairs ci h FAny FAny l.
  Proof. induction l as [|(a, v) l IH]; constructor; first [apply su_any|exact IH]. Qed.
  Lemma response_step c a mi mr : c = "RunspacePoolHostResponse"%string \/ c = "PipelineHostResponse"%string -> in_form ci (fst mr) -> step ci (FClass c) (fst mr) (put_response c a mi mr).
  Proof.
    intros Hc G. unfold put_response. destruct (enum_step ci (fst mr) "HostMethodIdentifier" mi G ltac:(known) ltac:(eexists; eexists; reflexivity)) as (T & G1 & S1).
    destruct (put_enum "HostMethodIdentifier" (fst mr) mi) as (h1, m). cbn [fst snd] in *. apply (step_trans ci _ _ h1 _ T).
    destruct Hc as [-> | ->]; (apply put_step; [exact G1|known|]; oblige; [apply integer_suits; cbn [In]; tauto|exact S1|apply su_any|apply su_none]).
  Qed.
  Lemma sent_right o : given_right ci heap o -> (exists g, o = OInput g) \/ (in_form ci (fst (sent heap hs o)) /\ suits ci (fst (sent heap hs o)) (form_of o) (snd (sent heap hs o))).
  Proof.
    intros F. assert (S2 : forall f h r, step ci f h r -> in_form ci (fst r) /\ suits ci (fst r) f (snd r)) by (intros f h r (_ & G & K); auto).
    destruct o; cbn [given_right form_of sent] in *; try (left; eexists; reflexivity); right.
    1: apply (S2 _ []); one.
    2: apply (S2 _ []); one.
    2: apply (S2 _ []); one.
    2: apply (S2 _ []); one.
    2: apply (S2 _ []); one.
    2: apply (S2 _ []); one.
    2: apply (S2 _ []); one.
    2: { apply (S2 _ (fst mr)). apply response_step; [left; reflexivity|exact F]. }
    2: { apply (S2 _ (fst mr)). apply response_step; [right; reflexivity|exact F]. }
    3: { exact F. }
    3: { apply (S2 _ []). apply put_step; [apply empty_in_form|known|]. oblige. }
    - destruct F as ((x & ->) & (y & ->) & A).
      assert (G : in_form ci (fst (given arguments))) by (destruct arguments as [g|]; [exact (proj1 A)|apply empty_in_form]).
      assert (Sv : forall h, suits ci h (FDict ["System.Management.Automation.PSPrimitiveDictionary"; "System.Collections.Hashtable"; "System.Object"]%string FAny FAny) (snd (given arguments))).
      { intros h. destruct arguments as [g|]; [|apply su_none]. destruct A as (_ & [A|(d & A)]); cbn [given snd]; [rewrite A; apply su_none|]. eapply su_dict; [exact A|]. apply pairs_any. }
      destruct (enum_step ci (fst (given arguments)) "PSThreadOptions" thread G ltac:(known) ltac:(eexists; eexists; reflexivity)) as (T1 & G1 & S1). destruct (put_enum "PSThreadOptions" (fst (given arguments)) thread) as (h1, tv). cbn [fst snd] in *.
      destruct (enum_step ci h1 "ApartmentState" apartment G1 ltac:(known) ltac:(eexists; eexists; reflexivity)) as (T2 & G2 & S3). destruct (put_enum "ApartmentState" h1 apartment) as (h2, av). cbn [fst snd] in *.
      destruct (host_step ci h2 hs G2) as (T3 & G3 & S4). destruct (put_host h2 hs) as (h3, hv). cbn [fst snd] in *.
      apply (S2 _ h3). destruct T1 as (t1 & ->), T2 as (t2 & ->), T3 as (t3 & ->). apply put_step; [exact G3|known|]. cbn [count_value]. set (av0 := snd (given arguments)) in *.
      oblige; first [apply integer_suits; cbn [In]; tauto|exact S4|apply Sv|repeat (first [exact S1|exact S3|apply suits_more])].
    - destruct (put_start _ _ _) as [r|e] eqn:E; [|cbn [fst snd]; split; [exact F|apply su_none]]. exact (S2 _ _ _ (start_step ci _ _ _ _ F E)).
  Qed.
End Sent.

Section Packed.
  Context {HS RK : Type} (x : outside HS RK) (fuel : nat) (heap : list hobj) (hs : option host) (key : option bytes).
  Let ci : option cipher := option_map (x_cipher x) key.
  Lemma graph_written g b : ser_text (library_codec x fuel key []) g = Ok b -> exists ox m' st', ser ci (x_show x) sending (fst g) fuel (snd g) any_meta clear_sst = Ok (ox, m', st') /\
    match ox with Some t => tostring (x_registry x) t = Ok b | None => b = [] end.
  Proof.
    intros H. unfold ser_text in H. apply bind_ok in H. destruct H as (s & H1 & H). unfold library_codec, wire in H1. cbn [cd_ser] in H1. unfold serialize_text, serialize in H1.
    apply bind_ok in H1. destruct H1 as (ox & H1 & H2). apply bind_ok in H1. destruct H1 as (((oy & m') & st') & H1 & E). apply Ok_inj in E. subst oy. exists ox, m', st'. split; [exact H1|].
    destruct ox as [t|].
    - apply bind_ok in H2. destruct H2 as (b1 & H2 & H3). apply bind_ok in H3. destruct H3 as (s1 & H3 & E). apply Ok_inj in E. subst s. unfold tostring in *.
      pose proof (proj2 (utf8_decode_encode _ _ H2)) as D. rewrite D in H3. apply Ok_inj in H3. subst s1. exact H.
    - apply Ok_inj in H2. subst s. apply Ok_inj in H. symmetry. exact H.
  Qed.
  Lemma in_form_told o b : ser_text (library_codec x fuel key []) (sent heap hs o) = Ok b -> given_right ci heap o ->
    exists t, tostring (x_registry x) t = Ok b /\ tells ci (fst (sent heap hs o)) (form_of o) (snd (sent heap hs o)) None t.
  Proof.
    intros H F. destruct (graph_written _ _ H) as (ox & m' & st' & S & R).
    assert (O : forall f, outcome ci (fst (sent heap hs o)) f (snd (sent heap hs o)) any_meta ox -> exists t, tostring (x_registry x) t = Ok b /\ tells ci (fst (sent heap hs o)) f (snd (sent heap hs o)) None t).
    { intros f [(_ & _ & K)|(t & -> & T)]; [discriminate K|]. exists t. split; [exact R|exact T]. }
    destruct (sent_right ci heap hs o F) as [(g & ->)|(G & K)].
    - apply O. exact (any_told ci (x_show x) sending _ fuel _ any_meta _ _ _ _ S eq_refl).
    - apply O. refine (ser_told ci (x_show x) sending _ sending_table G fuel (form_of o) _ any_meta clear_sst _ _ _ S (generics_clear _) _ K). destruct o; cbn [form_of matches any_meta object_meta m_kind m_tag m_optional]; auto.
  Qed.
  Theorem packed_told rid pid o b : PoolModel.packed (library_env x fuel heap hs) key rid pid o = Ok b -> given_right ci heap o ->
    exists r p body, guid_parse rid = Ok r /\ match pid with Some s => guid_parse s | None => Ok guid_zero end = Ok p /\ b = opening o ++ stored_guid r ++ stored_guid p ++ body /\
    match o with
    | OEnd => body = []
    | OConnect => body = lit "<S />"
    | _ => exists t, tostring (x_registry x) t = Ok body /\ tells ci (fst (sent heap hs o)) (form_of o) (snd (sent heap hs o)) None t
    end.
  Proof.
    intros H F. unfold PoolModel.packed in H. apply bind_ok in H. destruct H as (m & H1 & H). unfold message_new in H1. apply bind_ok in H1. destruct H1 as (r & Hr & H1). apply bind_ok in H1. destruct H1 as (p & Hp & H1).
    apply Ok_inj in H1. subst m. unfold message_pack in H. cbn [m_type m_data m_dest m_rpid m_pid] in H. apply bind_ok in H. destruct H as (text & Ht & H). apply bind_ok in H. destruct H as (d & Hd & H). apply bind_ok in H. destruct H as (t & Hty & H).
    apply Ok_inj in H. exists r, p, text. split; [exact Hr|]. split; [exact Hp|].
    pose proof (TellProofs3.guid_parse_is _ _ Hr) as Gr. assert (Gp : is_guid p) by (destruct pid as [s|]; [exact (TellProofs3.guid_parse_is _ _ Hp)|apply Ok_inj in Hp; subst p; vm_compute; split; [reflexivity|repeat constructor]]).
    rewrite (swap_le_stored r (proj1 Gr)), (swap_le_stored p (proj1 Gp)) in H. vm_compute in Hd. apply Ok_inj in Hd. subst d.
    split.
    - rewrite <- H. clear - Hty. destruct o; vm_compute in Hty; apply Ok_inj in Hty; subst t; reflexivity.
    - destruct o; try (refine (in_form_told _ text _ F); exact Ht).
      + vm_compute in Ht. apply Ok_inj in Ht. rewrite <- Ht. vm_compute. reflexivity.
      + vm_compute in Ht. apply Ok_inj in Ht. symmetry. exact Ht.
  Qed.
End Packed.
