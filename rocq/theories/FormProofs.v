(* C70: only generic objects are ever referred to. *)
From Verif Require Import Base BaseProofs Lit NumModel TextModel MsgModel XmlModel SerModel SerProofs FormSpec.
Local Open Scope list_scope.

Section Refs.
  Context (ci : option cipher) (show : value -> list N) (classes : list N -> option cdesc) (heap : list hobj).
  Definition generics (st : sst) : Prop := Forall (fun e => exists g, nth_error heap (snd e) = Some (HGen g)) (s_objs st).
  Lemma generics_clear : generics clear_sst.
  Proof. constructor. Qed.
  Lemma take_generics st id st0 : take_id st = (id, st0) -> generics st -> generics st0.
  Proof. intros H G. unfold take_id in H. apply pair_inj in H. destruct H as (_ & <-). exact G. Qed.
  Lemma register_generics id n g st : nth_error heap n = Some (HGen g) -> generics st -> generics (register id n st).
  Proof. intros H G. unfold generics, register. cbn [s_objs]. apply Forall_dict_set; [exact G|exists g; exact H]. Qed.
  Lemma tn_generics ts st x st1 : create_tn ts st = Ok (x, st1) -> generics st -> generics st1.
  Proof.
    unfold create_tn. destruct ts as [|t ts]; [discriminate|]. destruct (dict_get str_eqb t (s_tn st)); intros H G; apply Ok_pair_inj in H; destruct H as (_ & <-); exact G.
  Qed.
  Lemma tn_if_generics ts st xs st1 : create_tn_if ts st = Ok (xs, st1) -> generics st -> generics st1.
  Proof.
    unfold create_tn_if. destruct ts as [|t ts]; intros H G; [apply Ok_pair_inj in H; destruct H as (_ & <-); exact G|].
    apply bind_ok in H. destruct H as ((x & st2) & H1 & H). apply Ok_pair_inj in H. destruct H as (_ & <-). exact (tn_generics _ _ _ _ H1 G).
  Qed.

  Section Step.
    Context (rec : value -> meta -> sst -> res (option xml * meta * sst)).
    Context (Hrec : forall v m st ox m' st', rec v m st = Ok (ox, m', st') -> generics st -> generics st').
    Lemma create_generics v key m st xs st1 : create_obj rec v key m st = Ok (xs, st1) -> generics st -> generics st1.
    Proof.
      intros H G. unfold create_obj in H. destruct (match v with VObj n => find_ref n (s_objs st) | _ => None end).
      - apply Ok_pair_inj in H. destruct H as (_ & <-). exact G.
      - apply bind_ok in H. destruct H as (((x & m1) & st2) & H1 & H). apply Ok_pair_inj in H. destruct H as (_ & <-). exact (Hrec _ _ _ _ _ _ H1 G).
    Qed.
    Lemma attrs_generics attrs props : forall st xs st1, ser_attrs rec attrs props st = Ok (xs, st1) -> generics st -> generics st1.
    Proof.
      induction props as [|(a, m) props IH]; intros st xs st1 H G; cbn [ser_attrs] in H; [apply Ok_pair_inj in H; destruct H as (_ & <-); exact G|].
      destruct (dict_get str_eqb a attrs) as [v|]; [|discriminate H]. apply bind_ok in H. destruct H as ((ys & st2) & H1 & H). apply bind_ok in H. destruct H as ((zs & st3) & H2 & H).
      apply Ok_pair_inj in H. destruct H as (_ & <-). exact (IH _ _ _ H2 (create_generics _ _ _ _ _ _ H1 G)).
    Qed.
    Lemma group_generics parent attrs props st xs st1 : ser_group rec parent attrs props st = Ok (xs, st1) -> generics st -> generics st1.
    Proof.
      unfold ser_group. destruct props as [|p props]; intros H G; [apply Ok_pair_inj in H; destruct H as (_ & <-); exact G|].
      apply bind_ok in H. destruct H as ((ys & st2) & H1 & H). apply Ok_pair_inj in H. destruct H as (_ & <-). exact (attrs_generics _ _ _ _ _ H1 G).
    Qed.
    Lemma obj_generics v st x st1 : ser_obj classes heap rec v st = Ok (x, st1) -> generics st -> generics st1.
    Proof.
      intros H G. unfold ser_obj in H. destruct (take_id st) as (id & st0) eqn:T. pose proof (take_generics _ _ _ T G) as G0.
      destruct v; try discriminate H. destruct (nth_error heap n) as [[g|c attrs]|]; [| |discriminate H].
      - apply Ok_pair_inj in H. destruct H as (_ & <-). exact G0.
      - destruct (classes c) as [d|]; [|discriminate H].
        apply bind_ok in H. destruct H as ((tn & st2) & H1 & H). apply bind_ok in H. destruct H as (t & _ & H). apply bind_ok in H. destruct H as (ts & _ & H).
        apply bind_ok in H. destruct H as ((sets & st3) & H2 & H). apply bind_ok in H. destruct H as ((ms & st4) & H3 & H). apply bind_ok in H. destruct H as ((ps & st5) & H4 & H).
        apply Ok_pair_inj in H. destruct H as (_ & <-). eapply group_generics; [exact H4|]. eapply group_generics; [exact H3|]. eapply attrs_generics; [exact H2|]. exact (tn_if_generics _ _ _ _ H1 G0).
    Qed.
    Lemma values_generics vs : forall st xs st1, ser_values rec vs st = Ok (xs, st1) -> generics st -> generics st1.
    Proof.
      induction vs as [|v vs IH]; intros st xs st1 H G; cbn [ser_values] in H; [apply Ok_pair_inj in H; destruct H as (_ & <-); exact G|].
      apply bind_ok in H. destruct H as ((ys & st2) & H1 & H). apply bind_ok in H. destruct H as ((zs & st3) & H2 & H).
      apply Ok_pair_inj in H. destruct H as (_ & <-). exact (IH _ _ _ H2 (create_generics _ _ _ _ _ _ H1 G)).
    Qed.
    Lemma named_generics ps : forall st xs st1, ser_named rec ps st = Ok (xs, st1) -> generics st -> generics st1.
    Proof.
      induction ps as [|(k, v) ps IH]; intros st xs st1 H G; cbn [ser_named] in H; [apply Ok_pair_inj in H; destruct H as (_ & <-); exact G|].
      apply bind_ok in H. destruct H as ((ys & st2) & H1 & H). apply bind_ok in H. destruct H as ((zs & st3) & H2 & H).
      apply Ok_pair_inj in H. destruct H as (_ & <-). exact (IH _ _ _ H2 (create_generics _ _ _ _ _ _ H1 G)).
    Qed.
    Lemma props_generics parent ps st xs st1 : ser_props rec parent ps st = Ok (xs, st1) -> generics st -> generics st1.
    Proof.
      unfold ser_props. destruct ps as [|p ps]; intros H G; [apply Ok_pair_inj in H; destruct H as (_ & <-); exact G|].
      apply bind_ok in H. destruct H as ((ys & st2) & H1 & H). apply Ok_pair_inj in H. destruct H as (_ & <-). exact (named_generics _ _ _ _ H1 G).
    Qed.
    Lemma dynamic_generics v st x st1 : ser_dynamic heap rec v st = Ok (x, st1) -> generics st -> generics st1.
    Proof.
      intros H G. unfold ser_dynamic in H. destruct (take_id st) as (id & st0) eqn:T. pose proof (take_generics _ _ _ T G) as G0.
      destruct v; try discriminate H. destruct (nth_error heap n) as [[g|c attrs]|] eqn:Hn; [|discriminate H|discriminate H].
      apply bind_ok in H. destruct H as ((tn & st2) & H1 & H). apply bind_ok in H. destruct H as (ts & _ & H).
      apply bind_ok in H. destruct H as ((sets & st3) & H2 & H). apply bind_ok in H. destruct H as ((ms & st4) & H3 & H). apply bind_ok in H. destruct H as ((ps & st5) & H4 & H).
      apply Ok_pair_inj in H. destruct H as (_ & <-). eapply props_generics; [exact H4|]. eapply props_generics; [exact H3|]. eapply values_generics; [exact H2|].
      eapply tn_if_generics; [exact H1|]. exact (register_generics _ _ _ _ Hn G0).
    Qed.
    Lemma entries_generics copied vs : forall m st xs m' st1, ser_entries rec copied m vs st = Ok (xs, m', st1) -> generics st -> generics st1.
    Proof.
      induction vs as [|v vs IH]; intros m st xs m' st1 H G; cbn [ser_entries] in H; [apply Ok_pair_inj in H; destruct H as (_ & <-); exact G|].
      apply bind_ok in H. destruct H as (((ys & m1) & st2) & H1 & H). apply bind_ok in H. destruct H as (((zs & m2) & st3) & H2 & H).
      apply Ok_pair_inj in H. destruct H as (_ & <-). exact (IH _ _ _ _ _ H2 (Hrec _ _ _ _ _ _ H1 G)).
    Qed.
    Lemma list_generics tag copied i vs st x e st1 : ser_list rec tag copied i vs st = Ok (x, e, st1) -> generics st -> generics st1.
    Proof.
      intros H G. unfold ser_list in H. destruct (take_id st) as (id & st0) eqn:T. pose proof (take_generics _ _ _ T G) as G0.
      apply bind_ok in H. destruct H as ((tn & st2) & H1 & H). apply bind_ok in H. destruct H as (((xs & e') & st3) & H2 & H). apply Ok_pair_inj in H. destruct H as (_ & <-).
      eapply entries_generics; [exact H2|]. exact (tn_generics _ _ _ _ H1 G0).
    Qed.
    Lemma pairs_generics d : forall km vm st xs km' vm' st1, ser_pairs rec km vm d st = Ok (xs, km', vm', st1) -> generics st -> generics st1.
    Proof.
      induction d as [|(k, v) d IH]; intros km vm st xs km' vm' st1 H G; cbn [ser_pairs] in H; [apply Ok_pair_inj in H; destruct H as (_ & <-); exact G|].
      apply bind_ok in H. destruct H as (((ys & m1) & st2) & H1 & H). apply bind_ok in H. destruct H as (((zs & m2) & st3) & H2 & H). apply bind_ok in H. destruct H as ((((us & m3) & m4) & st4) & H3 & H).
      apply Ok_pair_inj in H. destruct H as (_ & <-). eapply IH; [exact H3|]. eapply Hrec; [exact H2|]. eapply Hrec; [exact H1|exact G].
    Qed.
    Lemma lst_generics tag m v st x m' st1 : ser_lst rec tag m v st = Ok (x, m', st1) -> generics st -> generics st1.
    Proof.
      intros H G. unfold ser_lst in H. apply bind_ok in H. destruct H as (vs & _ & H).
      destruct (list_info m) as [i|]; apply bind_ok in H; destruct H as (((y & e) & st2) & H1 & H); apply Ok_pair_inj in H; destruct H as (_ & <-); exact (list_generics _ _ _ _ _ _ _ _ H1 G).
    Qed.
    Lemma struct_generics tag m v st x m' st1 : pack_struct classes heap rec tag m v st = Ok (x, m', st1) -> generics st -> generics st1.
    Proof.
      intros H G. unfold pack_struct in H.
      repeat match type of H with
      | (if ?b then _ else _) = _ => destruct b
      end; try discriminate H; try exact (lst_generics _ _ _ _ _ _ _ H G).
      - apply bind_ok in H. destruct H as ((y & st2) & H1 & H). apply Ok_pair_inj in H. destruct H as (_ & <-). exact (obj_generics _ _ _ _ H1 G).
      - apply bind_ok in H. destruct H as ((y & st2) & H1 & H). apply Ok_pair_inj in H. destruct H as (_ & <-). exact (dynamic_generics _ _ _ _ H1 G).
      - unfold ser_que in H. destruct v; try discriminate H.
        destruct (m_kind m); apply bind_ok in H; destruct H as (((y & e) & st2) & H1 & H); apply Ok_pair_inj in H; destruct H as (_ & <-); exact (list_generics _ _ _ _ _ _ _ _ H1 G).
      - unfold ser_stk in H. destruct (list_info m) as [i|]; [|discriminate H]. destruct v; try discriminate H.
        apply bind_ok in H; destruct H as (((y & e) & st2) & H1 & H); apply Ok_pair_inj in H; destruct H as (_ & <-); exact (list_generics _ _ _ _ _ _ _ _ H1 G).
      - unfold ser_dct in H. destruct (match m_kind m with KDict km vm ts => (km, vm, ts) | _ => _ end) as ((km & vm) & ts). destruct (take_id st) as (id & st0) eqn:T. pose proof (take_generics _ _ _ T G) as G0.
        apply bind_ok in H. destruct H as (d & _ & H). apply bind_ok in H. destruct H as ((tn & st2) & H1 & H). apply bind_ok in H. destruct H as ((((xs & km') & vm') & st3) & H2 & H).
        apply Ok_pair_inj in H. destruct H as (_ & <-). eapply pairs_generics; [exact H2|]. exact (tn_generics _ _ _ _ H1 G0).
    Qed.
  End Step.

  Lemma ser_generics fuel : forall v m st ox m' st', ser ci show classes heap fuel v m st = Ok (ox, m', st') -> generics st -> generics st'.
  Proof.
    induction fuel as [|fuel IH]; intros v m st ox m' st' H G; [discriminate H|]. cbn [ser] in H.
    assert (K : forall t v1, (if negb (existsb (str_eqb t) known_tags) then Err KeyError
      else match v1 with
        | VNone => if m_optional m then Ok (None, set_tag t m, st) else Ok (Some (named m (Elem (lit "Nil") [] None [])), set_tag t m, st)
        | _ => match pack_text ci show (set_tag t m) t v1 with
               | Some r => do s <- r; Ok (Some (named m (Elem t [] (Some s) [])), set_tag t m, st)
               | None => do '(x, m2, st1) <- pack_struct classes heap (ser ci show classes heap fuel) t (set_tag t m) v1 st; Ok (Some (named m x), m2, st1)
               end
        end) = Ok (ox, m', st') -> generics st').
    { intros t v1 K. destruct (negb (existsb (str_eqb t) known_tags)); [discriminate K|].
      assert (K' : match pack_text ci show (set_tag t m) t v1 with
               | Some r => do s <- r; Ok (Some (named m (Elem t [] (Some s) [])), set_tag t m, st)
               | None => do '(x, m2, st1) <- pack_struct classes heap (ser ci show classes heap fuel) t (set_tag t m) v1 st; Ok (Some (named m x), m2, st1)
               end = Ok (ox, m', st') -> generics st').
      { clear K. intros K. destruct (pack_text ci show (set_tag t m) t v1) as [r|].
        - apply bind_ok in K. destruct K as (s & _ & K). apply Ok_pair_inj in K. destruct K as (_ & <-). exact G.
        - apply bind_ok in K. destruct K as (((x & m2) & st1) & H1 & K). apply Ok_pair_inj in K. destruct K as (_ & <-). exact (struct_generics _ IH _ _ _ _ _ _ _ H1 G). }
      destruct v1; try exact (K' K). destruct (m_optional m); apply Ok_pair_inj in K; destruct K as (_ & <-); exact G. }
    destruct v; try (match type of H with (let '(_, _) := ?p in _) = _ => destruct p as (t, v1) end; exact (K t v1 H)).
    apply Ok_pair_inj in H. destruct H as (_ & <-). exact G.
  Qed.
End Refs.
