(* Writing and reading trees with default namespaces in them. *)
From Coq Require Import Lia ZifyBool ZifyNat ZifyN Permutation.
From Verif Require Import Base BaseProofs Lit NumModel NumProofs TextModel TextSpec Utf8Model Utf8Proofs XmlModel SerModel SerProofs XtModel XtSpec XtProofs XtProofs2 XtProofs3 HomeSpec.
Local Open Scope list_scope.

(* not itself an element with a default namespace *)
Definition rooted (x : xml) : Prop :=
  match x with
  | Elem t a txt kids =>
      xml_name t /\ NoDup (map fst a) /\
      Forall (fun kv => xml_name (fst kv) /\ fst kv <> lit "xmlns" /\ Forall xml_char (snd kv)) a /\
      (forall s, txt = Some s -> Forall xml_char s) /\ Forall homable kids
  end.
Lemma homable_cases t a txt kids : homable (Elem t a txt kids) ->
  (exists u, a = [(lit "xmlns", u)] /\ kids = [] /\ nc_name t /\ ns_name u /\ u <> xml_uri /\ forall s, txt = Some s -> Forall xml_char s) \/
  rooted (Elem t a txt kids).
Proof. intros [H|(A & B & C & D & K)]; [left; exact H|right]. apply all_forall in K. repeat (split; [assumption|]). exact K. Qed.
Lemma rooted_homable x : rooted x -> homable x.
Proof. destruct x as [t a txt kids]. intros (A & B & C & D & K). right. repeat (split; [assumption|]). apply all_forall. exact K. Qed.
Lemma writable_homable x : writable x -> homable x.
Proof.
  induction x as [t a txt kids IH] using xml_induction. intros (A & B & C & D & K). apply all_forall in K. right. repeat (split; [assumption|]).
  apply all_forall. rewrite Forall_forall in *. auto.
Qed.
Lemma homed_plain t a txt kids : Forall (fun kv : list N * list N => fst kv <> lit "xmlns") a -> homed (Elem t a txt kids) = Elem t a txt (map homed kids).
Proof.
  intros H. cbn [homed]. destruct a as [|[k u] [|b a]]; [reflexivity| |reflexivity]. destruct kids; [|reflexivity].
  assert (Q := Forall_inv H). cbn [fst] in Q. rewrite str_eqb_neq by exact Q. reflexivity.
Qed.
Lemma homed_id x : writable x -> homed x = x.
Proof.
  induction x as [t a txt kids IH] using xml_induction. intros (A & B & C & D & K). apply all_forall in K. rewrite homed_plain.
  - f_equal. rewrite <- (map_id kids) at 2. apply map_ext_in. intros y I. rewrite Forall_forall in IH, K. apply IH; auto.
  - eapply Forall_impl; [|exact C]. intros kv H. apply H.
Qed.

Section Doc.
  Context (reg : list (list N * list N)) (R : usable_registry reg).

  Lemma xmlns_name : xml_name (lit "xmlns").
  Proof. left. apply nc_xmlns. Qed.
  Lemma homable_names x : homable x -> Forall xml_name (names_of x).
  Proof.
    induction x as [t a txt kids IH] using xml_induction. intros H. apply homable_cases in H. destruct H as [(u & -> & -> & T & _)|(Xt & _ & Xa & _ & Xk)]; cbn [names_of].
    - constructor; [left; exact T|]. constructor; [exact xmlns_name|constructor].
    - constructor; [exact Xt|]. apply Forall_app. split.
      + apply Forall_forall. intros k Hk. apply in_map_iff in Hk. destruct Hk as (kv & <- & Hk). rewrite Forall_forall in Xa. exact (proj1 (Xa kv Hk)).
      + clear - IH Xk. induction kids as [|y l IHl]; [constructor|]. cbn [flat_map]. apply Forall_app. split.
        * apply (Forall_inv IH), (Forall_inv Xk).
        * apply IHl; [exact (Forall_inv_tail IH)|exact (Forall_inv_tail Xk)].
  Qed.
  Lemma namespaces_homable x : homable x -> wf_ns reg (namespaces reg x) /\ Forall (covered (namespaces reg x)) (names_of x).
  Proof. intros H. apply fold_covers; [exact R|apply homable_names, H|]. split; [constructor|]. split; constructor. Qed.

  Section Tree.
    Context (ns : list (list N * list N)) (W : wf_ns reg ns).
    Lemma qualify_leaf t u txt : nc_name t -> qualify reg ns (Elem t [(lit "xmlns", u)] txt []) = Elem t [(lit "xmlns", u)] txt [].
    Proof. intros T. cbn [qualify map fst snd]. rewrite (qualified_plain reg ns t T). rewrite (qualified_plain reg ns (lit "xmlns") (nc_xmlns)). reflexivity. Qed.
    Lemma raw_homable x : homable x -> Forall (covered ns) (names_of x) -> raw_ok (qualify reg ns x).
    Proof.
      induction x as [t a txt kids IH] using xml_induction. intros H C. apply homable_cases in H. destruct H as [(u & -> & -> & T & U & Ux & X)|(Xt & Da & Xa & Xs & Xk)].
      - rewrite qualify_leaf by exact T. cbn [raw_ok map fst]. split; [apply nc_raw, T|]. split; [repeat constructor; intros []|].
        split; [constructor; [|constructor]; split; [apply nc_raw, nc_xmlns|apply U]|]. split; [exact X|exact I].
      - apply cov_split in C. destruct C as (Ct & Ca & Ck). cbn [qualify raw_ok]. destruct (raw_attrs reg R ns W a (conj Da (conj Xa Ca))) as (A1 & A2).
        split; [apply raw_qualified; assumption|]. split; [exact A1|]. split; [exact A2|]. split; [exact Xs|]. apply all_forall.
        clear - IH Xk Ck. induction kids as [|y l IHl]; constructor.
        + apply (Forall_inv IH); [exact (Forall_inv Xk)|exact (Forall_inv Ck)].
        + apply IHl; [exact (Forall_inv_tail IH)|exact (Forall_inv_tail Xk)|exact (Forall_inv_tail Ck)].
    Qed.
    Lemma no_xmlns a : Forall (fun kv : list N * list N => xml_name (fst kv) /\ fst kv <> lit "xmlns" /\ Forall xml_char (snd kv)) a -> Forall (fun kv : list N * list N => fst kv <> lit "xmlns") a.
    Proof. intros H. eapply Forall_impl; [|exact H]. intros kv K. apply K. Qed.
    Lemma resolve_homable env g x : sees ns env -> homable x -> Forall (covered ns) (names_of x) ->
      resolve env (with_text g (qualify reg ns x)) = Some (with_text g (homed x)).
    Proof.
      intros S. induction x as [t a txt kids IH] using xml_induction. intros H C. apply homable_cases in H. destruct H as [(u & -> & -> & T & U & Ux & X)|(Xt & Da & Xa & Xs & Xk)].
      - rewrite qualify_leaf by exact T. cbn [homed]. rewrite str_eqb_refl. cbn [with_text map resolve bindings].
        assert (D : declares (lit "xmlns") u = Some (Some ([], u))).
        { unfold declares. rewrite split_on_free by (apply colon_free, nc_xmlns). rewrite str_eqb_refl. destruct U as (U1 & U2 & U3 & U4).
          rewrite no_brace_free by exact U3. rewrite (str_eqb_neq u xmlns_uri) by exact U4. rewrite (str_eqb_neq u xml_uri) by exact Ux. reflexivity. }
        rewrite D. cbn [expand_all]. unfold expand. rewrite split_on_free by (apply colon_free, T). rewrite nc_ncname by exact T. cbn [dict_get str_eqb].
        destruct U as (U1 & _). destruct u as [|c u]; [contradiction|]. reflexivity.
      - apply cov_split in C. destruct C as (Ct & Ca & Ck). pose proof (conj Da (conj Xa Ca) : attrs_ok ns a) as A.
        rewrite homed_plain by (apply no_xmlns, Xa). cbn [qualify with_text resolve]. fold (qattrs reg ns a). rewrite bindings_quiet by (apply (quiet_attrs reg R ns W), A).
        rewrite (expand_qualified reg R ns W env false t S Xt Ct), (expand_attrs reg R ns W env a S A). rewrite (resolve_kids env _ (map (with_text g) (map homed kids))); [reflexivity|].
        clear - IH Xk Ck. induction kids as [|y l IHl]; cbn [map]; constructor.
        + apply (Forall_inv IH); [exact (Forall_inv Xk)|exact (Forall_inv Ck)].
        + apply IHl; [exact (Forall_inv_tail IH)|exact (Forall_inv_tail Xk)|exact (Forall_inv_tail Ck)].
    Qed.
  End Tree.

  Lemma declared_rooted x : rooted x -> raw_ok (declared reg x).
  Proof.
    intros X. destruct (namespaces_homable x (rooted_homable x X)) as (W & C). unfold declared. set (ns := namespaces reg x) in *. pose proof (raw_homable ns W x (rooted_homable x X) C) as Q.
    destruct x as [t a txt kids]. cbn [qualify] in *. destruct Q as (Q1 & Q2 & Q3 & Q4 & Q5). pose proof W as (W1 & W2 & W3).
    assert (Tk : forall e, In e (sort_by_prefix ns) -> taken reg (length ns) e) by (intros e J; rewrite Forall_forall in W3; apply W3, (Permutation_in _ (sort_perm ns) J)).
    split; [exact Q1|]. split; [|split; [|split; [exact Q4|exact Q5]]].
    - rewrite map_app, map_map.
      assert (Disj : forall k, In k (map (fun e => fst (declaration e)) (sort_by_prefix ns)) -> ~ In k (map fst (map (fun kv : list N * list N => (qualified reg ns (fst kv), snd kv)) a))).
      { intros k Hk Hk'. apply in_map_iff in Hk. destruct Hk as (e & Ek & Ie). apply in_map_iff in Hk'. destruct Hk' as (kv & Ek' & Ikv). apply in_map_iff in Ikv. destruct Ikv as (kv0 & <- & I0).
        cbn [fst] in Ek'. pose proof (declares_declaration reg _ e (Tk e Ie)) as D. rewrite Ek, <- Ek' in D.
        destruct X as (_ & _ & Xa & _). rewrite Forall_forall in Xa. destruct (Xa _ I0) as (X1 & X2 & _).
        rewrite (declares_qualified reg R ns W) in D; [discriminate|exact X1|exact X2|]. apply cov_split in C. destruct C as (_ & Ca & _). rewrite Forall_forall in Ca. apply Ca, in_map, I0. }
      assert (Nd : NoDup (map (fun e => fst (declaration e)) (sort_by_prefix ns))).
      { assert (D2 : NoDup (map snd (sort_by_prefix ns))) by (eapply Permutation_NoDup; [|exact W2]; apply Permutation_map, Permutation_sym, sort_perm).
        revert D2 Tk. clear. induction (sort_by_prefix ns) as [|e l IH]; intros D T; [constructor|]. cbn [map] in *. apply NoDup_cons_iff in D. destruct D as [D1 D2]. constructor.
        - intros F. apply in_map_iff in F. destruct F as (f & E & J). destruct (T e (or_introl eq_refl)) as (_ & _ & Pe & _). destruct (T f (or_intror J)) as (_ & _ & Pf & _).
          destruct e as [u p], f as [u' p']. cbn [snd fst] in *. rewrite !declaration_key in E by assumption. cbn [fst] in E. apply app_inv_head, app_inv_head in E. subst p'.
          apply D1. apply in_map_iff. exists (u', p). split; [reflexivity|exact J].
        - apply IH; [exact D2|]. intros f J. apply T. right. exact J. }
      revert Nd Disj Q2. generalize (map fst (map (fun kv : list N * list N => (qualified reg ns (fst kv), snd kv)) a)) as l2. generalize (map (fun e => fst (declaration e)) (sort_by_prefix ns)) as l1. clear.
      induction l1 as [|k l1 IH]; intros l2 N1 D N2; [exact N2|]. cbn [app]. apply NoDup_cons_iff in N1. destruct N1 as [A B]. constructor.
      + intros F. apply in_app_or in F. destruct F as [F|F]; [exact (A F)|]. exact (D k (or_introl eq_refl) F).
      + apply IH; [exact B| |exact N2]. intros z Hz. apply D. right. exact Hz.
    - apply Forall_app. split; [|exact Q3]. apply Forall_forall. intros kv Hkv. apply in_map_iff in Hkv. destruct Hkv as (e & <- & Ie). destruct (Tk e Ie) as (U & _ & P & _).
      destruct e as [u p]. cbn [fst snd] in *. rewrite declaration_key by exact P. cbn [fst snd]. split; [apply raw_pair; [apply nc_xmlns|exact P]|]. exact (proj1 (proj2 U)).
  Qed.
  Lemma rooted_resolves g x : rooted x -> resolve [(lit "xml", xml_uri)] (with_text g (declared reg x)) = Some (with_text g (homed x)).
  Proof.
    intros X. destruct (namespaces_homable x (rooted_homable x X)) as (W & C). unfold declared. set (ns := namespaces reg x) in *. pose proof (root_sees reg ns W) as S.
    destruct x as [t a txt kids]. pose proof X as (Xt & Da & Xa & Xs & Xk). pose proof (cov_split _ _ _ _ _ C) as (Ct & Ca & Ck).
    rewrite homed_plain by (apply no_xmlns, Xa). cbn [qualify with_text resolve].
    assert (B : bindings (map declaration (sort_by_prefix ns) ++ qattrs reg ns a) [(lit "xml", xml_uri)] = Some (root_env ns, qattrs reg ns a)).
    { rewrite (bindings_declared reg).
      - apply bindings_quiet, (quiet_attrs reg R ns W). exact (conj Da (conj Xa Ca)).
      - apply Forall_forall. intros e J. exists (length ns). destruct W as (_ & _ & W3). rewrite Forall_forall in W3. apply W3, (Permutation_in _ (sort_perm ns) J). }
    fold (qattrs reg ns a). rewrite B. rewrite (expand_qualified reg R ns W _ false t S Xt Ct), (expand_attrs reg R ns W _ a S (conj Da (conj Xa Ca))).
    rewrite (resolve_kids _ _ (map (with_text g) (map homed kids))); [reflexivity|].
    clearbody ns. clear - R W S Xk Ck. induction kids as [|y l IHl]; cbn [map]; constructor.
    - apply resolve_homable; [exact W|exact S|exact (Forall_inv Xk)|exact (Forall_inv Ck)].
    - apply IHl; [exact (Forall_inv_tail Xk)|exact (Forall_inv_tail Ck)].
  Qed.
  Theorem parse_rooted x : rooted x -> xml_parse (xml_print reg x) = Some (with_text read_text (homed x)).
  Proof. intros X. unfold xml_parse, xml_print. rewrite read_shown by (apply declared_rooted, X). rewrite reparse_eol. apply rooted_resolves, X. Qed.
  Theorem rooted_text x : rooted x -> exists b, tostring reg x = Ok b /\ bytes_ok b /\ utf8_decode b = Ok (xml_print reg x).
  Proof.
    intros X. pose proof (show_chars _ (declared_rooted x X)) as H. unfold tostring. unfold xml_print. rewrite charref_id by exact H.
    destruct (utf8_roundtrip (show (declared reg x))) as (b & E & B & D).
    - eapply Forall_impl; [|exact H]. exact xml_scalar.
    - exists b. auto.
  Qed.
  Theorem rooted_carried x : rooted x ->
    exists b s y, tostring reg x = Ok b /\ bytes_ok b /\ utf8_decode b = Ok s /\ xml_parse s = Some y /\ XtSpec.arrives (homed x) y.
  Proof.
    intros X. destruct (rooted_text x X) as (b & E & B & D). exists b, (xml_print reg x), (with_text read_text (homed x)).
    split; [exact E|]. split; [exact B|]. split; [exact D|]. split; [apply parse_rooted; assumption|apply arrives_text].
  Qed.
  (* a tree and what it is read as are read alike *)
  Theorem rooted_same x : rooted x -> writable (homed x) ->
    exists b s b' s' y, tostring reg x = Ok b /\ bytes_ok b /\ utf8_decode b = Ok s /\ xml_parse s = Some y /\
      tostring reg (homed x) = Ok b' /\ utf8_decode b' = Ok s' /\ xml_parse s' = Some y.
  Proof.
    intros X W. destruct (rooted_text x X) as (b & E & B & D). destruct (tostring_text reg (homed x) R W) as (b' & E' & B' & D').
    exists b, (xml_print reg x), b', (xml_print reg (homed x)), (with_text read_text (homed x)).
    split; [exact E|]. split; [exact B|]. split; [exact D|]. split; [apply parse_rooted, X|]. split; [exact E'|]. split; [exact D'|]. apply parse_print; assumption.
  Qed.
End Doc.
