(* C69: messages as bytes are heard as what the server has. *)
From Verif Require Import Base BaseProofs Lit NumModel TextModel TextSpec Utf8Model MsgModel MsgSpec MsgProofs XmlModel SerModel SerSpec SerSpec2 SerClasses SerProofs2 SendClasses XtModel WfModel WireModel WireSpec WireProofs ShellModel LibModel RdSpec RdProofs RdProofs3 RdProofs4 HearSpec.
From Verif Require XgSpec XgProofs2 PoolModel PoolSpec.
Require Import Lia ZifyBool ZifyNat ZifyN.
Local Open Scope list_scope.

(* ---- the class asked for is the class made ---- *)
Section Made.
  Context (ci : option cipher) (xml_text : xml -> list N) (float_of : list N -> res (list N)) (classes : list N -> option cdesc).
  Definition is_at (n : nat) (c : list N) (st : dst) : Prop := exists a, nth_error (d_heap st) n = Some (HCls c a).
  Lemma at_grows n c st st' : is_at n c st -> grows (d_heap st) (d_heap st') -> is_at n c st'.
  Proof. intros (a & H) (e & G). exists a. rewrite G, nth_error_app1; [exact H|]. apply nth_error_Some. rewrite H. discriminate. Qed.
  Lemma at_set n c st a v : is_at n c st -> is_at n c (upd_obj n (set_field a v) st).
  Proof. intros (x & H). exists (dict_set str_eqb a v x). unfold upd_obj, set_d_heap. cbn [d_heap]. rewrite (upd_nth_same _ _ _ _ H). reflexivity. Qed.
  Lemma properties_at fuel d group x n c : forall props st st', is_at n c st ->
    des_properties (des ci xml_text float_of classes fuel) d group x n props st = Ok st' -> is_at n c st'.
  Proof.
    induction props as [|[a m] props IH]; intros st st' A H; cbn [des_properties] in H.
    - apply Ok_inj in H. subst st'. exact A.
    - apply bind_ok in H. destruct H as (st1 & H1 & H). refine (IH st1 st' _ H). clear IH H. unfold des_property in H1. destruct (find_property group m x) as [e|].
      + apply bind_ok in H1. destruct H1 as ([[v m'] st2] & E & H1). apply Ok_inj in H1. subst st1. apply at_set. eapply at_grows; [exact A|]. eapply des_grows. exact E.
      + destruct (m_optional m); [apply Ok_inj in H1; subst st1; apply at_set; exact A|].
        destruct (find_in group (lit "Nil") (m_name m) x); [apply Ok_inj in H1; subst st1; apply at_set; exact A|]. destruct (cd_text d (attrs_of n st)); discriminate H1.
  Qed.
  Lemma made c x v h : deserialize ci xml_text float_of classes [] x (class_meta c) = Ok (v, h) ->
    forall n c' a, v = VObj n -> nth_error h n = Some (HCls c' a) -> c' = c.
  Proof.
    intros H n c' a -> Hn. unfold deserialize in H. apply bind_ok in H. destruct H as ([[v m'] st] & H & E). apply Ok_pair_inj in E. destruct E as (-> & <-).
    destruct (depth x) as [|fuel]; [discriminate H|]. cbn [des] in H. change (str_eqb (m_tag (class_meta c)) star) with false in H. cbv iota in H.
    apply bind_ok in H. destruct H as ([types st1] & G & H).
    destruct (primitive ci float_of x st1) as [r|] eqn:P.
    - exfalso. apply bind_ok in H. destruct H as (w & -> & H). apply Ok_inj in H. apply pair_inj in H. destruct H as (H & ->). apply pair_inj in H. destruct H as (-> & _).
      assert (O : d_obj st = []).
      { unfold get_types in G. apply bind_ok in G. destruct G as (s0 & G1 & G2).
        assert (d_obj s0 = []) by (destruct (map _ _) as [|]; [apply Ok_inj in G1; subst; reflexivity|]; destruct (child (lit "TN") x); [apply bind_ok in G1; destruct G1 as (? & _ & G1)|]; apply Ok_inj in G1; subst; reflexivity).
        destruct (child (lit "TNRef") x); [apply bind_ok in G2; destruct G2 as (? & _ & G2); apply bind_ok in G2; destruct G2 as (? & _ & G2)|]; apply Ok_pair_inj in G2; destruct G2 as (_ & <-); assumption. }
      unfold primitive in P. repeat match type of P with (if ?b then _ else _) = _ => destruct b end; try discriminate P; apply Some_inj in P; revert P; clear - O;
        unfold char_of, text_value; rewrite ?O; cbn [dict_get];
        repeat match goal with |- bind ?a _ = _ -> _ => destruct a; cbn [bind] | |- (if ?b then _ else _) = _ -> _ => destruct b | |- match ?b with _ => _ end = _ -> _ => destruct b end; try discriminate;
        intros P; apply Ok_inj in P; match type of P with match ?q with _ => _ end = _ => destruct q; discriminate P end.
    - apply bind_ok in H. destruct H as ([[w m2] st2] & H1 & H).
      change (is_plain (class_meta c) && is_none (m_object (class_meta c)))%bool with false in H1. cbv iota in H1.
      unfold des_struct in H1. change (str_eqb (m_tag (class_meta c)) (lit "Obj")) with true in H1. cbv iota in H1.
      apply bind_ok in H1. destruct H1 as ([w' st3] & H1 & E1). apply Ok_inj in E1. apply pair_inj in E1. destruct E1 as (E1 & ->). apply pair_inj in E1. destruct E1 as (-> & _).
      assert (K : d_heap st = d_heap st2 /\ VObj n = w).
      { destruct (str_eqb (x_tag x) (lit "Obj")); [apply bind_ok in H; destruct H as (st4 & H4 & H); apply bind_ok in H4; destruct H4 as (? & _ & H4); apply Ok_inj in H4|cbn [bind] in H];
          apply Ok_inj in H; apply pair_inj in H; destruct H as (H & <-); apply pair_inj in H; destruct H as (-> & _); [subst st4|]; split; reflexivity. }
      destruct K as (K & <-). unfold des_obj in H1. cbn [m_object class_meta] in H1. destruct (classes c) as [d|]; [|discriminate H1]. cbn [new_obj] in H1.
      apply bind_ok in H1. destruct H1 as (id & _ & H1). apply bind_ok in H1. destruct H1 as (s3 & E3 & H1). apply bind_ok in H1. destruct H1 as (s4 & E4 & H1).
      apply bind_ok in H1. destruct H1 as (s5 & E5 & H1). apply bind_ok in H1. destruct H1 as (s6 & E6 & H1). apply Ok_inj in H1. apply pair_inj in H1. destruct H1 as (Ev & ->).
      assert (En : length (d_heap st1) = n) by congruence. rewrite En in *. clear Ev.
      assert (A0 : is_at n c (obj_put id (VObj n) (set_d_heap (d_heap st1 ++ [HCls c (cd_init d)]) st1))).
      { exists (cd_init d). cbn [obj_put set_d_obj set_d_heap d_heap]. rewrite nth_error_app2, En, Nat.sub_diag by lia. reflexivity. }
      assert (A3 : is_at n c s3).
      { destruct (child (lit "ToString") x); [|apply Ok_inj in E3; subst s3; exact A0]. apply bind_ok in E3. destruct E3 as (? & _ & E3). apply Ok_inj in E3. subst s3. apply at_set. exact A0. }
      pose proof (properties_at _ _ _ _ _ _ _ _ _ A3 E4) as A4. pose proof (properties_at _ _ _ _ _ _ _ _ _ A4 E5) as A5. destruct (properties_at _ _ _ _ _ _ _ _ _ A5 E6) as (a6 & A6).
      rewrite K, A6 in Hn. apply Some_inj in Hn. congruence.
  Qed.
End Made.

Section Messages.
  Context {HS RK : Type} (x : outside HS RK) (fuel : nat) (key : option bytes).
  Let ci := option_map (x_cipher x) key.
  Let cd := library_codec x fuel key [].
  Lemma library_honest : PoolSpec.honest cd.
  Proof.
    intros ty t o ty' H T. unfold cd, library_codec, wire, cd_deser_class, cd_type in H, T. destruct (class_of_type ty) as [c|] eqn:C; [|discriminate H].
    apply bind_ok in H. destruct H as ([v h] & H & E). apply Ok_inj in E. subst o. unfold deserialize_text in H. unfold instance_of in T. cbn [fst snd] in T.
    destruct (xml_parse t) as [d|].
    - destruct v; try discriminate T. destruct (nth_error h n) as [[g|c' a]|] eqn:E; try discriminate T.
      rewrite (made _ _ _ _ _ _ _ _ H _ _ _ eq_refl E) in T. rewrite (class_type _ _ C) in T. congruence.
    - apply Ok_inj in H. apply pair_inj in H. destruct H as (<- & <-). discriminate T.
  Qed.

  Lemma written_header e b : written e b -> exists txt d r p, unpack_header b = Ok (mkHeader d (fst e) (guid_str r) (guid_str p) txt) /\ is_guid r /\ is_guid p /\
    xml_parse txt = Some (write None (snd e)).
  Proof.
    intros (dest & ty & r & p & mark & txt & body & -> & Ld & Lt & Et & Gr & Gp & M & U & Nb & S1).
    exists txt, (Z.of_N (little_endian dest)), r, p. split; [|split; [exact Gr|split; [exact Gp|exact (XgProofs2.parse_says _ _ S1)]]].
    rewrite <- !swap_le_stored by (apply Gr || apply Gp). rewrite <- Et, !little_endian_le_val.
    assert (L1 : length (guid_bytes_le r) = 16) by (unfold guid_bytes_le; rewrite swap_le_length; apply Gr).
    assert (L2 : length (guid_bytes_le p) = 16) by (unfold guid_bytes_le; rewrite swap_le_length; apply Gp).
    replace (guid_str r) with (guid_str (swap_le (guid_bytes_le r))) by (unfold guid_bytes_le; rewrite swap_le_involutive; reflexivity).
    replace (guid_str p) with (guid_str (swap_le (guid_bytes_le p))) by (unfold guid_bytes_le; rewrite swap_le_involutive; reflexivity).
    destruct M as [-> | ->].
    - exact (unpack_header_text dest ty _ _ txt body Ld Lt L1 L2 U Nb).
    - exact (unpack_header_bom dest ty _ _ txt body Ld Lt L1 L2 U).
  Qed.

  Definition heard (e : Z * item) (m : message graph) : Prop :=
    m_type m = fst e /\ (fst e = PUBLIC_KEY_REQUEST \/ exists g, PoolSpec.carried m = Some g /\ had_message ci (x_float x) e g /\ (fst e <> PIPELINE_OUTPUT -> exists n a c, In (fst e, c) protocol /\ snd g = VObj n /\ nth_error (fst g) n = Some (HCls c a))).
  Lemma instance_held base h env c t v : tag_of t = lit "Obj" -> holds ci (x_float x) sending base h env (Instance c) t v -> exists n a, v = VObj n /\ nth_error h n = Some (HCls c a).
  Proof.
    intros T H. destruct t as [tag text|id|id n text sets ad ex|id n k l rest|id n l rest]; [|discriminate T| | |]; inversion H; subst; cbn [taken] in *; try congruence.
    - exfalso. clear H. cbn [tag_of] in T. subst tag. match goal with K : spelled _ _ _ _ _ |- _ => inversion K; subst end;
        match goal with K : In _ _ |- _ => vm_compute in K; repeat (destruct K as [K|K]; [discriminate K|]); destruct K | K : _ = lit "Obj" |- _ => discriminate K end.
    - eexists. eexists. split; [reflexivity|]. match goal with K : Some (Instance c) = Some (Instance _) |- _ => apply Some_inj in K; assert (c = c0) as -> by congruence end. eassumption.
  Qed.
  Lemma known_of_kind ty r : kind_of ty = Some r -> existsb (Z.eqb ty) MsgModel.known_types = true.
  Proof.
    unfold kind_of. rewrite protocol_class. destruct (Z.eqb_spec ty PIPELINE_OUTPUT) as [->|]; [reflexivity|]. destruct (class_of_type ty) as [c|] eqn:C; [|discriminate]. intros _.
    apply existsb_exists. exists ty. split; [exact (class_known _ _ C)|apply Z.eqb_refl].
  Qed.
  Theorem message_heard e b : written e b -> fit ci (x_float x) e -> exists m, message_unpack cd b = Ok m /\ heard e m.
  Proof.
    intros W (Ni & F). destruct (written_header e b W) as (txt & d & r & p & U & Gr & Gp & X). unfold message_unpack. rewrite U. cbn [bind h_dest h_type h_rpid h_pid h_text].
    unfold message_new. rewrite (guid_parse_str r Gr), (guid_parse_str p Gp). cbn [bind].
    destruct F as [F|(q & s' & K & R & T)].
    - rewrite F. eexists. split; [reflexivity|]. split; [rewrite F; reflexivity|left; exact F].
    - unfold unpack_data. rewrite (known_of_kind _ _ K). cbn [negb]. unfold kind_of in K. rewrite protocol_class in K. destruct (Z.eqb_spec (fst e) PIPELINE_OUTPUT) as [E|E].
      + apply Some_inj in K. subst q. unfold cd at 1, library_codec, wire, cd_deser. fold ci.
        destruct (read_text_document ci (x_xml x) (x_float x) sending Open (snd e) s' any_meta [] txt X R eq_refl) as (v & h & env & Ev & _ & Hh).
        cbn [app length] in Ev, Hh. rewrite Ev. cbn [bind]. eexists. split; [reflexivity|]. cbn [m_type m_data data_type]. split; [cbn [m_type]; congruence|]. right.
        exists (h, v). split; [reflexivity|]. split; [|congruence]. exists Open. unfold kind_of. rewrite E. split; [reflexivity|]. exists env. exact Hh.
      + destruct (Z.eqb_spec (fst e) PIPELINE_INPUT) as [E1|E1]; [contradiction|]. destruct (Z.eqb_spec (fst e) PUBLIC_KEY_REQUEST) as [E2|E2].
        { eexists. split; [reflexivity|]. split; [symmetry; exact E2|left; exact E2]. }
        destruct T as [T|T]; [contradiction|]. destruct (class_of_type (fst e)) as [c|] eqn:C; [|discriminate K]. apply Some_inj in K. subst q.
        destruct (read_text_document ci (x_xml x) (x_float x) sending (Instance c) (snd e) s' (class_meta c) [] txt X R eq_refl) as (v & h & env & Ev & _ & Hh).
        cbn [app length] in Ev, Hh. unfold cd at 1, library_codec, wire, cd_deser_class. fold ci. rewrite C, Ev. cbn [bind].
        destruct (instance_held _ _ _ _ _ _ T Hh) as (n & a & -> & En).
        assert (Ct : cd_type cd (h, VObj n) = Some (fst e)) by (unfold cd, library_codec, wire, cd_type, instance_of; cbn [fst snd]; rewrite En; exact (class_type _ _ C)).
        rewrite Ct. cbn [bind]. eexists. split; [reflexivity|]. split; [reflexivity|]. right. exists (h, VObj n). split; [reflexivity|]. split.
        * exists (Instance c). split; [unfold kind_of; rewrite protocol_class; apply Z.eqb_neq in E; rewrite E, C; reflexivity|]. exists env. exact Hh.
        * intros _. exists n, a, c. split; [apply protocol_in; exact C|]. split; [reflexivity|exact En].
  Qed.
  Lemma all_heard items bs : Forall2 written items bs -> Forall (fit ci (x_float x)) items -> exists ms, mapM (message_unpack cd) bs = Ok ms /\ Forall2 heard items ms.
  Proof.
    induction 1 as [|e b items bs W _ IH]; intros F; [exists []; split; [reflexivity|constructor]|].
    destruct (message_heard e b W (Forall_inv F)) as (m & E & H). destruct (IH (Forall_inv_tail F)) as (ms & Es & Hs).
    exists (m :: ms). cbn [mapM]. rewrite E. cbn [bind]. rewrite Es. split; [reflexivity|constructor; assumption].
  Qed.
  Lemma objects_heard ty items ms : ty <> PUBLIC_KEY_REQUEST -> Forall2 heard items ms -> Forall2 (had_message ci (x_float x)) (of_type ty items) (PoolSpec.objects ty ms).
  Proof.
    intros N. induction 1 as [|e m items ms (T & H) _ IH]; [constructor|]. unfold of_type, PoolSpec.objects in *. cbn [filter flat_map]. rewrite T.
    destruct (Z.eqb_spec (fst e) ty) as [E|E]; [|exact IH]. destruct H as [H|(g & -> & H & _)]; [congruence|]. constructor; [exact H|exact IH].
  Qed.
End Messages.
