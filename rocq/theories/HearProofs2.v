(* C69: a pipeline has what the server says of it. *)
From Verif Require Import Base BaseProofs Lit NumModel TextModel TextSpec Utf8Model MsgModel MsgSpec XmlModel SerModel SerSpec SerSpec2 SerClasses SendClasses WireModel WireSpec WireProofs ShellModel LibModel RdSpec RdProofs4 HearSpec HearProofs.
From Verif Require PoolModel PoolSpec SerProofs5.
Require Import Lia ZifyBool ZifyNat ZifyN.
Local Open Scope list_scope.

Lemma thread_in {A} (R : seen -> A -> seen -> Prop) s l s' : thread R s l s' -> forall a, In a l -> exists s1 s2, R s1 a s2.
Proof. induction 1 as [s|s b l s1 s2 H _ IH]; intros a I1; [destruct I1|]. destruct I1 as [<-|I1]; [exists s, s1; exact H|exact (IH a I1)]. Qed.
Definition state_meta : meta := pm "I32" "PipelineState" false.
Definition record_meta : meta := pm "Obj" "ExceptionAsErrorRecord" true.
Lemma state_class : option_map cd_extended (sending (lit "PipelineState")) = Some [(lit "state", state_meta); (lit "error_record", record_meta)].
Proof. vm_compute. reflexivity. Qed.

Section Pipeline.
  Context {HS RK : Type} (x : outside HS RK) (key : option bytes).
  Let ci := option_map (x_cipher x) key.
  Lemma int_spelled tag z v : tag = lit "I32" -> spelled ci (x_float x) tag (Some (py_str z)) v -> v = VInt z.
  Proof.
    intros T H. inversion H; subst; try discriminate;
      try solve [exfalso; match goal with K : In (lit "I32") _ |- _ => vm_compute in K; repeat (destruct K as [K|K]; [discriminate K|]); destruct K end].
    match goal with K : py_str _ = py_str _ |- _ => apply (f_equal py_int) in K; rewrite !NumProofs.py_int_str in K; apply Ok_inj in K; subst; reflexivity end.
  Qed.
  (* what the attributes of a state message are *)
  Lemma state_attributes e g : fst e = PIPELINE_STATE -> fit ci (x_float x) e -> had_message ci (x_float x) e g ->
    (exists n a c, In (fst e, c) protocol /\ snd g = VObj n /\ nth_error (fst g) n = Some (HCls c a)) ->
    (forall z, says_state (snd e) z -> number (attribute "state" g) = z) /\
    match failure (snd e) with
    | [] => attribute "error_record" g = VNone
    | p :: _ => failure (snd e) = [p] /\ attribute "error_record" g <> VNone /\ had ci (x_float x) (fst p) (snd p) (fst g, attribute "error_record" g)
    end.
  Proof.
    intros E (_ & F) (r & K & env & H) (n & a & c & C & V & At). rewrite E in *. apply protocol_in in C. change (class_of_type PIPELINE_STATE) with (Some (lit "PipelineState")) in C. apply Some_inj in C. subst c.
    change (kind_of PIPELINE_STATE) with (Some (Instance (lit "PipelineState"))) in K, F. apply Some_inj in K. subst r.
    destruct F as [F|(r & s' & K & R & T)]; [discriminate F|]. apply Some_inj in K. subst r. destruct T as [T|T]; [discriminate T|].
    destruct (snd e) as [tag text|id|id nm text sets ad ex|id nm k l rest|id nm l rest].
    - exfalso. cbn [tag_of] in T. subst tag. rewrite V in H. inversion H; subst. match goal with K : spelled _ _ _ _ _ |- _ => inversion K end.
    - discriminate T.
    - assert (G : forall b, attribute b g = match dict_get str_eqb (lit b) a with Some v => v | None => VNone end).
      { intros b. unfold attribute, instance_of. rewrite V, At. reflexivity. }
      assert (Q : exists d s3 s4, sending (lit "PipelineState") = Some d /\ thread (filled (readable ci (x_float x) sending) (with_name ex)) s3 (cd_extended d) s4).
      { inversion R; subst; cbn [taken] in *; try congruence.
        match goal with K : Some (Instance _) = Some (Instance ?c) |- _ => assert (c = lit "PipelineState") as -> by congruence end. eauto. }
      destruct Q as (d & s3 & s4 & D & Th).
      assert (Ed : cd_extended d = [(lit "state", state_meta); (lit "error_record", record_meta)]) by (pose proof state_class as S1; rewrite D in S1; cbn [option_map] in S1; apply Some_inj in S1; exact S1).
      rewrite Ed in Th.
      rewrite V in H. inversion H as [| | |r0 id0 n0 text0 sets0 ad0 ex0 k0 c0 d0 attrs Tk Cl B0 Nk Gi Tx An Ho| | | |]; subst; cbn [taken] in *; try congruence.
      assert (c0 = lit "PipelineState") as -> by congruence. rewrite Cl in D. apply Some_inj in D. subst d0. rewrite Nk in At. apply Some_inj in At.
      assert (attrs = a) as -> by congruence. clear At.
      assert (I1 : forall f m, In (f, m) (cd_extended d) -> In (with_name ex, (f, m)) (map (fun e => (without sets, e)) (cd_sets d) ++ map (fun e => (with_name ad, e)) (cd_adapted d) ++ map (fun e => (with_name ex, e)) (cd_extended d))).
      { intros f m I0. apply in_or_app. right. apply in_or_app. right. apply in_map_iff. exists (f, m). split; [reflexivity|exact I0]. }
      assert (J1 : In (lit "state", state_meta) (cd_extended d)) by (rewrite Ed; left; reflexivity).
      assert (J2 : In (lit "error_record", record_meta) (cd_extended d)) by (rewrite Ed; right; left; reflexivity).
      split.
      + intros z (id1 & n1 & t1 & sets1 & ad1 & ex1 & Eo & Iz). assert (ex1 = ex) as -> by congruence.
        assert (Sz : suits state_meta (Some (lit "PipelineState"), Scalar (lit "I32") (Some (py_str z)))) by (split; [right; left; reflexivity|right; reflexivity]).
        assert (Iw : In (Some (lit "PipelineState"), Scalar (lit "I32") (Some (py_str z))) (with_name ex)) by (apply in_map_iff; exists (lit "PipelineState", Scalar (lit "I32") (Some (py_str z))); split; [reflexivity|exact Iz]).
        destruct (thread_in _ _ _ _ Th (lit "state", state_meta)) as (s1 & s2 & Fi); [left; reflexivity|].
        inversion Fi as [s0 a0 m0 t r' s0' On Rr Rd|s0 a0 m0 Ns _]; subst; [|exfalso; exact (Ns _ Iw Sz)].
        destruct On as (nm1 & On1 & On2 & On3). pose proof (On3 _ Iw Sz) as Eq. assert (t = Scalar (lit "I32") (Some (py_str z))) as -> by congruence.
        destruct (An _ _ _ (I1 _ _ J1)) as (Ex & _). rewrite G. destruct (dict_get str_eqb (lit "state") a) as [v|] eqn:Dv; [|contradiction].
        assert (Hv : holds ci (x_float x) sending 0 (fst g) env r' (Scalar (lit "I32") (Some (py_str z))) v).
        { apply (Ho _ _ _ _ _ _ (I1 _ _ J1)); [exists nm1; split; [exact On1|split; [exact On2|exact On3]]|exact Rr|exact Dv]. }
        inversion Hv as [r0 tag0 text0 v0 Sp| | | | | | |]; subst. rewrite (int_spelled _ _ _ eq_refl Sp). reflexivity.
      + destruct (thread_in _ _ _ _ Th (lit "error_record", record_meta)) as (s1 & s2 & Fi); [right; left; reflexivity|].
        destruct (An _ _ _ (I1 _ _ J2)) as (Ex & Nn). unfold failure. destruct (find _ ex) as [p|] eqn:Fp.
        * apply find_some in Fp. destruct Fp as (Ip & Bp). apply Bool.andb_true_iff in Bp. rewrite !str_eqb_spec in Bp. destruct Bp as (Bp1 & Bp2).
          assert (Sp : suits record_meta (Some (fst p), snd p)) by (split; [right; cbn [fst snd]; rewrite Bp2; left; reflexivity|right; rewrite Bp1; reflexivity]).
          assert (Iw : In (Some (fst p), snd p) (with_name ex)) by (apply in_map_iff; exists p; split; [reflexivity|exact Ip]).
          split; [reflexivity|]. cbn [fst snd].
          inversion Fi as [s0 a0 m0 t r' s0' On Rr Rd|s0 a0 m0 Ns _]; subst; [|exfalso; exact (Ns _ Iw Sp)].
          destruct On as (nm1 & On1 & On2 & On3). pose proof (On3 _ Iw Sp) as Eq. assert (t = snd p) as -> by congruence.
          rewrite G. destruct (dict_get str_eqb (lit "error_record") a) as [v|] eqn:Dv; [|contradiction].
          assert (Hv : holds ci (x_float x) sending 0 (fst g) env Open (snd p) v).
          { change (as_reading record_meta) with (Some Open) in Rr. apply (Ho _ _ _ _ _ _ (I1 _ _ J2)); [exists nm1; split; [exact On1|split; [exact On2|exact On3]]|reflexivity|exact Dv]. }
          split; [|exists env; exact Hv]. intros ->. inversion Hv; subst; try (match goal with K : _ = snd p |- _ => rewrite <- K in Bp2; cbn [tag_of] in Bp2 end).
          -- subst. match goal with K : spelled _ _ _ _ _ |- _ => inversion K end.
          -- discriminate Bp2.
        * rewrite G. assert (Nq : none_suits record_meta (with_name ex)).
          { intros q Iq (Tq & Nq). apply in_map_iff in Iq. destruct Iq as (p & <- & Ip). cbn [fst snd] in *.
            pose proof (find_none _ _ Fp _ Ip) as B. cbn beta in B. destruct Nq as [Nq|Nq]; [discriminate Nq|]. apply Some_inj in Nq. destruct Tq as [Tq|Tq]; [discriminate Tq|].
            destruct Tq as [Tq|[]]. rewrite <- Nq, <- Tq in B. rewrite !str_eqb_refl in B. discriminate B. }
          rewrite (Nn Nq). reflexivity.
    - exfalso. rewrite V in H. inversion H.
    - exfalso. rewrite V in H. inversion H.
  Qed.
End Pipeline.
