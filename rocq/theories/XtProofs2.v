(* Reading what was written: the namespaces. *)
From Coq Require Import Lia ZifyBool ZifyNat ZifyN.
From Verif Require Import Base BaseProofs Lit NumModel NumProofs TextModel TextSpec XmlModel SerModel SerProofs XtModel XtSpec XtProofs.

Local Open Scope list_scope.

(* ---- names ---- *)
Lemma nc_ncname s : nc_name s -> ncname s = true.
Proof.
  destruct s as [|c s]; [intros []|]. intros [A B]. cbn [ncname]. rewrite (proj2 (name_start_spec c) A). cbn [andb]. apply forallb_forall.
  intros x Hx. rewrite Forall_forall in B. apply nc_char_spec, B, Hx.
Qed.
Lemma nc_free s c : nc_name s -> ~ name_more c -> ~ In c s.
Proof.
  destruct s as [|d s]; [intros []|]. intros [A B] H [F|F].
  - subst d. apply H. left. exact A.
  - rewrite Forall_forall in B. exact (H (B _ F)).
Qed.
Lemma colon_free s : nc_name s -> ~ In 58%N s.
Proof. intros H. apply nc_free; [exact H|]. unfold name_more, name_first. lia. Qed.
Lemma brace_free s : nc_name s -> ~ In 125%N s.
Proof. intros H. apply nc_free; [exact H|]. unfold name_more, name_first. lia. Qed.
Lemma nc_raw s : nc_name s -> raw_name s.
Proof.
  destruct s as [|c s]; [intros []|]. intros [A B]. split; [apply name_start_spec, A|]. apply forallb_forall. intros x Hx. rewrite Forall_forall in B.
  unfold name_char. rewrite (proj2 (nc_char_spec x) (B x Hx)). reflexivity.
Qed.
Lemma raw_pair p l : nc_name p -> nc_name l -> raw_name (p ++ lit ":" ++ l).
Proof.
  intros P L. apply nc_raw in P. apply nc_raw in L. destruct p as [|c p]; [destruct P|]. destruct P as [A B]. split; [exact A|].
  cbn [app]. rewrite !forallb_app, B. cbn. apply raw_all, L.
Qed.
Lemma rsplit_none s : ~ In 125%N s -> rsplit_brace s = None.
Proof.
  induction s as [|c s IH]; intros H; [reflexivity|]. cbn [rsplit_brace]. rewrite IH by (intros F; apply H; right; exact F).
  destruct (N.eqb_spec c 125) as [-> |_]; [exfalso; apply H; left; reflexivity|reflexivity].
Qed.
Lemma rsplit_at u l : ~ In 125%N l -> rsplit_brace (u ++ 125%N :: l) = Some (u, l).
Proof.
  intros H. induction u as [|c u IH]; cbn [app rsplit_brace].
  - rewrite rsplit_none by exact H. reflexivity.
  - rewrite IH. reflexivity.
Qed.
Lemma in_ns_plain n : nc_name n -> in_namespace n = None.
Proof.
  destruct n as [|c n]; [intros []|]. intros [A _]. cbn [in_namespace]. destruct (N.eqb_spec c 123) as [-> |_]; [|reflexivity]. exfalso. unfold name_first in A. lia.
Qed.
Lemma in_ns_qname u l : nc_name l -> in_namespace (qname u l) = Some (u, l).
Proof. intros H. unfold qname. change (lit "{") with [123%N]. change (lit "}") with [125%N]. cbn [app in_namespace]. change (N.eqb 123 123) with true. cbv iota. apply rsplit_at, brace_free, H. Qed.

(* ---- the namespaces of a document ---- *)
Section Doc.
  Context (reg : list (list N * list N)) (R : usable_registry reg).

  Definition taken (k : nat) (e : list N * list N) : Prop :=
    ns_name (fst e) /\ fst e <> xml_uri /\ nc_name (snd e) /\ snd e <> lit "xml" /\ snd e <> lit "xmlns" /\
    (In e reg \/ exists d, snd e = lit "ns" ++ dec d /\ (d < N.of_nat k)%N).
  Definition wf_ns (ns : list (list N * list N)) : Prop :=
    NoDup (map fst ns) /\ NoDup (map snd ns) /\ Forall (taken (length ns)) ns.

  Lemma get_in {V} (k : list N) (v : V) d : dict_get str_eqb k d = Some v -> In (k, v) d.
  Proof.
    induction d as [|[k' v'] d IH]; [discriminate|]. cbn [dict_get]. destruct (str_eqb k k') eqn:E.
    - intros H. apply Some_inj in H. subst v'. apply str_eqb_spec in E. subst k'. left. reflexivity.
    - intros H. right. apply IH, H.
  Qed.
  Lemma get_unique {V} (k : list N) (v : V) d : NoDup (map fst d) -> In (k, v) d -> dict_get str_eqb k d = Some v.
  Proof.
    induction d as [|[k' v'] d IH]; intros D; [intros []|]. cbn [map fst] in D. apply NoDup_cons_iff in D. destruct D as [D1 D2]. intros [E|I]; cbn [dict_get].
    - apply pair_inj in E. destruct E as [-> ->]. rewrite str_eqb_refl. reflexivity.
    - rewrite str_eqb_neq; [apply IH; assumption|]. intros ->. apply D1. apply in_map_iff. exists (k', v). split; [reflexivity|exact I].
  Qed.
  Lemma get_none {V} (k : list N) (d : list (list N * V)) : dict_get str_eqb k d = None -> ~ In k (map fst d).
  Proof.
    induction d as [|[k' v'] d IH]; [intros _ []|]. cbn [dict_get]. destruct (str_eqb k k') eqn:E; [discriminate|]. intros H [F|F].
    - cbn [fst] in F. subst k'. rewrite str_eqb_refl in E. discriminate.
    - exact (IH H F).
  Qed.
  Lemma snd_unique (u u' p : list N) d : NoDup (map snd d) -> In (u, p) d -> In (u', p) d -> u = u'.
  Proof.
    induction d as [|[a b] d IH]; [intros _ []|]. cbn [map snd]. intros D. apply NoDup_cons_iff in D. destruct D as [D1 D2]. intros [E|I] [E'|I'].
    - apply pair_inj in E. apply pair_inj in E'. destruct E, E'. congruence.
    - exfalso. apply D1. apply pair_inj in E. destruct E as [-> ->]. apply in_map_iff. exists (u', p). split; [reflexivity|exact I'].
    - exfalso. apply D1. apply pair_inj in E'. destruct E' as [-> ->]. apply in_map_iff. exists (u, p). split; [reflexivity|exact I].
    - apply IH; assumption.
  Qed.
  Lemma reg_xml : dict_get str_eqb xml_uri reg = Some (lit "xml").
  Proof. destruct R as (A & _ & C & _). apply get_unique; [exact A|exact C]. Qed.
  Lemma dec_num d : Forall (fun c => (48 <= c <= 57)%N) (dec d).
  Proof. exact (proj1 (proj2 (dec_spec d))). Qed.
  Lemma numbered_dec d : numbered (lit "ns" ++ dec d).
  Proof. exists (dec d). split; [reflexivity|apply dec_num]. Qed.
  Lemma nc_numbered d : nc_name (lit "ns" ++ dec d).
  Proof.
    change (lit "ns") with [110%N; 115%N]. cbn [app nc_name]. split; [unfold name_first; lia|]. constructor; [unfold name_more, name_first; lia|].
    eapply Forall_impl; [|apply dec_num]. intros c H. cbn beta in H. right. left. exact H.
  Qed.
  Lemma taken_mono k k' e : (k <= k')%nat -> taken k e -> taken k' e.
  Proof.
    intros H (A & B & C & D & F & [G|(d & G & L)]); repeat (split; [assumption|]); [left; exact G|right]. exists d. split; [exact G|lia].
  Qed.
  Lemma add_wf ns n : xml_name n -> wf_ns ns -> wf_ns (add_name reg ns n).
  Proof.
    intros X W. unfold add_name. destruct X as [X|(u & l & -> & U & L)]; [rewrite in_ns_plain by exact X; exact W|]. rewrite in_ns_qname by exact L.
    destruct (dict_get str_eqb u ns) as [p|] eqn:G; [exact W|]. apply get_none in G. destruct W as (W1 & W2 & W3). destruct R as (R1 & R2 & R3 & R4).
    assert (New : forall p, taken (S (length ns)) (u, p) -> ~ In p (map snd ns) -> wf_ns (ns ++ [(u, p)])).
    { intros p T P. unfold wf_ns. rewrite !map_app. cbn [map fst snd]. split; [|split].
      - apply NoDup_Add with (a := u) (l := map fst ns); [|split; assumption]. rewrite <- (app_nil_r (map fst ns)) at 1. apply Add_app.
      - apply NoDup_Add with (a := p) (l := map snd ns); [|split; assumption]. rewrite <- (app_nil_r (map snd ns)) at 1. apply Add_app.
      - rewrite app_length. cbn [length]. rewrite Nat.add_1_r. apply Forall_app. split; [|constructor; [exact T|constructor]].
        eapply Forall_impl; [|exact W3]. intros e. apply taken_mono. lia. }
    destruct (dict_get str_eqb u reg) as [p|] eqn:Gr.
    - apply get_in in Gr. destruct (str_eqb p (lit "xml")) eqn:Ep; [unfold wf_ns; auto|].
      assert (p <> lit "xml") by (intros ->; rewrite str_eqb_refl in Ep; discriminate).
      rewrite Forall_forall in R4. destruct (R4 _ Gr) as (Q1 & Q2 & Q3). cbn [snd] in *. apply New.
      + unfold taken. cbn [fst snd]. split; [exact U|]. split.
        { intros ->. apply H. pose proof (get_unique _ _ _ R1 Gr). pose proof (get_unique _ _ _ R1 R3). change (lit "http://www.w3.org/XML/1998/namespace") with xml_uri in *. congruence. }
        split; [exact Q1|]. split; [exact H|]. split; [exact Q2|]. left. exact Gr.
      + intros F. apply in_map_iff in F. destruct F as ([u' p'] & E & F). cbn [snd] in E. subst p'. rewrite Forall_forall in W3.
        destruct (W3 _ F) as (_ & _ & _ & _ & _ & [G'|(d & G' & _)]).
        * apply G. pose proof (snd_unique _ _ _ _ R2 Gr G') as <-. apply in_map_iff. exists (u, p). split; [reflexivity|exact F].
        * cbn [snd] in G'. apply Q3. rewrite G'. apply numbered_dec.
    - apply get_none in Gr. rewrite (str_eqb_neq (lit "ns" ++ _) (lit "xml")) by (change (lit "ns") with [110%N; 115%N]; change (lit "xml") with [120; 109; 108]%N; intros F; apply cons_inj in F; destruct F; discriminate).
      apply New.
      + unfold taken. cbn [fst snd]. split; [exact U|]. split.
        { intros ->. apply Gr, in_map_iff. eexists. split; [|exact R3]. reflexivity. }
        split; [apply nc_numbered|]. split; [intros F; change (lit "ns") with [110%N; 115%N] in F; apply cons_inj in F; destruct F; discriminate|].
        split; [intros F; change (lit "ns") with [110%N; 115%N] in F; apply cons_inj in F; destruct F; discriminate|].
        right. eexists. split; [reflexivity|lia].
      + intros F. apply in_map_iff in F. destruct F as ([u' p'] & E & F). cbn [snd] in E. rewrite Forall_forall in W3, R4.
        destruct (W3 _ F) as (_ & _ & _ & _ & _ & [G'|(d & G' & Ld)]).
        * destruct (R4 _ G') as (_ & _ & Q3). apply Q3. cbn [snd]. rewrite E. apply numbered_dec.
        * cbn [snd] in G'. rewrite G' in E. apply app_inv_head, dec_inj in E. lia.
  Qed.
  Definition covered (ns : list (list N * list N)) (n : list N) : Prop :=
    forall u l, in_namespace n = Some (u, l) -> u = xml_uri \/ exists p, In (u, p) ns.
  Lemma add_covers ns n : xml_name n -> covered (add_name reg ns n) n.
  Proof.
    intros X u l E. unfold add_name. rewrite E. destruct (dict_get str_eqb u ns) as [p|] eqn:G; [right; exists p; apply get_in, G|].
    destruct R as (R1 & R2 & R3 & R4).
    destruct (dict_get str_eqb u reg) as [p|] eqn:Gr.
    - destruct (str_eqb p (lit "xml")) eqn:Ep.
      + left. apply str_eqb_spec in Ep. subst p. apply get_in in Gr. exact (snd_unique _ _ _ _ R2 Gr R3).
      + right. exists p. apply in_or_app. right. left. reflexivity.
    - rewrite (str_eqb_neq (lit "ns" ++ _) (lit "xml")) by (change (lit "ns") with [110%N; 115%N]; change (lit "xml") with [120; 109; 108]%N; intros F; apply cons_inj in F; destruct F; discriminate).
      right. eexists. apply in_or_app. right. left. reflexivity.
  Qed.
  Lemma add_keeps ns n e : In e ns -> In e (add_name reg ns n).
  Proof.
    intros H. unfold add_name. destruct (in_namespace n) as [[u l]|]; [|exact H]. destruct (dict_get str_eqb u ns); [exact H|].
    destruct (str_eqb _ (lit "xml")); [exact H|]. apply in_or_app. left. exact H.
  Qed.
  Lemma fold_keeps l : forall ns e, In e ns -> In e (fold_left (add_name reg) l ns).
  Proof. induction l as [|n l IH]; intros ns e H; [exact H|]. cbn [fold_left]. apply IH, add_keeps, H. Qed.
  Lemma fold_covers l : forall ns, Forall xml_name l -> wf_ns ns -> wf_ns (fold_left (add_name reg) l ns) /\ Forall (covered (fold_left (add_name reg) l ns)) l.
  Proof.
    induction l as [|n l IH]; intros ns X W; [split; [exact W|constructor]|]. cbn [fold_left].
    destruct (IH (add_name reg ns n) (Forall_inv_tail X) (add_wf ns n (Forall_inv X) W)) as (A & B). split; [exact A|]. constructor; [|exact B].
    intros u lo E. destruct (add_covers ns n (Forall_inv X) u lo E) as [F|(p & F)]; [left; exact F|right]. exists p. apply fold_keeps, F.
  Qed.
  Lemma writable_names x : writable x -> Forall xml_name (names_of x).
  Proof.
    induction x as [t a txt kids IH] using xml_induction. intros (Xt & _ & Xa & _ & Xk). apply all_forall in Xk. cbn [names_of]. constructor; [exact Xt|].
    apply Forall_app. split.
    - apply Forall_forall. intros k Hk. apply in_map_iff in Hk. destruct Hk as (kv & <- & Hk). rewrite Forall_forall in Xa. exact (proj1 (Xa kv Hk)).
    - clear - IH Xk. induction kids as [|y l IHl]; [constructor|]. cbn [flat_map]. apply Forall_app. split.
      + apply (Forall_inv IH), (Forall_inv Xk).
      + apply IHl; [exact (Forall_inv_tail IH)|exact (Forall_inv_tail Xk)].
  Qed.
  Lemma namespaces_ok x : writable x -> wf_ns (namespaces reg x) /\ Forall (covered (namespaces reg x)) (names_of x).
  Proof. intros W. apply fold_covers; [apply writable_names, W|]. split; [constructor|]. split; constructor. Qed.

  (* ---- names as they are written ---- *)
  Section Names.
    Context (ns : list (list N * list N)) (W : wf_ns ns).

    Lemma qualified_plain n : nc_name n -> qualified reg ns n = n.
    Proof. intros H. unfold qualified. rewrite in_ns_plain by exact H. reflexivity. Qed.
    Lemma qualified_ns u l : nc_name l -> ns_name u -> covered ns (qname u l) ->
      exists p, qualified reg ns (qname u l) = p ++ lit ":" ++ l /\ nc_name p /\ p <> lit "xmlns" /\ ((u = xml_uri /\ p = lit "xml") \/ In (u, p) ns).
    Proof.
      intros L U C. unfold qualified. rewrite in_ns_qname by exact L. unfold prefix_of. destruct W as (W1 & W2 & W3). rewrite Forall_forall in W3.
      destruct (C u l (in_ns_qname u l L)) as [-> |(p & I)].
      - destruct (dict_get str_eqb xml_uri ns) as [p|] eqn:G; [apply get_in in G; destruct (W3 _ G) as (_ & F & _); cbn [fst] in F; congruence|].
        rewrite reg_xml. exists (lit "xml"). split; [reflexivity|]. split; [cbn [nc_name]; change (lit "xml") with [120; 109; 108]%N; split; [unfold name_first; lia|repeat constructor; unfold name_more, name_first; lia]|].
        split; [discriminate|]. left. split; reflexivity.
      - rewrite (get_unique _ _ _ W1 I). destruct (W3 _ I) as (_ & _ & Q & _ & Qx & _). cbn [snd] in *. exists p.
        split; [destruct p; [destruct Q|reflexivity]|]. split; [exact Q|]. split; [exact Qx|]. right. exact I.
    Qed.
    Definition sees (env : list (list N * list N)) : Prop :=
      dict_get str_eqb (lit "xml") env = Some xml_uri /\ dict_get str_eqb [] env = None /\
      forall u p, In (u, p) ns -> dict_get str_eqb p env = Some u.
    Lemma split_pair p l : nc_name p -> nc_name l -> split_on 58 (p ++ lit ":" ++ l) = [p; l].
    Proof.
      intros P L. change (lit ":") with [58%N]. cbn [app]. rewrite split_on_app by (apply colon_free, P). rewrite split_on_free by (apply colon_free, L). reflexivity.
    Qed.
    Lemma expand_qualified env b n : sees env -> xml_name n -> covered ns n -> expand env b (qualified reg ns n) = Some n.
    Proof.
      intros (E1 & E2 & E3) X C. destruct X as [X|(u & l & -> & U & L)].
      - rewrite qualified_plain by exact X. unfold expand. rewrite split_on_free by (apply colon_free, X). rewrite nc_ncname by exact X.
        destruct b; [reflexivity|]. rewrite E2. reflexivity.
      - destruct (qualified_ns u l L U C) as (p & -> & P & Px & H). unfold expand. rewrite split_pair by assumption. rewrite !nc_ncname by assumption. cbn [andb].
        destruct H as [[-> ->]|H]; [rewrite E1; reflexivity|rewrite (E3 _ _ H); reflexivity].
    Qed.
    Lemma raw_qualified n : xml_name n -> covered ns n -> raw_name (qualified reg ns n).
    Proof.
      intros X C. destruct X as [X|(u & l & -> & U & L)].
      - rewrite qualified_plain by exact X. apply nc_raw, X.
      - destruct (qualified_ns u l L U C) as (p & -> & P & _ & _). apply raw_pair; assumption.
    Qed.
    Lemma declares_qualified n v : xml_name n -> n <> lit "xmlns" -> covered ns n -> declares (qualified reg ns n) v = Some None.
    Proof.
      intros X Nx C. destruct X as [X|(u & l & -> & U & L)].
      - rewrite qualified_plain by exact X. unfold declares. rewrite split_on_free by (apply colon_free, X). rewrite str_eqb_neq by exact Nx. reflexivity.
      - destruct (qualified_ns u l L U C) as (p & -> & P & Px & _). unfold declares. rewrite split_pair by assumption. rewrite str_eqb_neq by exact Px. reflexivity.
    Qed.
    Lemma nc_xmlns : nc_name (lit "xmlns").
    Proof. change (lit "xmlns") with [120; 109; 108; 110; 115]%N. split; [unfold name_first; lia|]. repeat constructor; unfold name_more, name_first; lia. Qed.
    Lemma no_brace_free u : ~ In 125%N u -> no_brace u = true.
    Proof. intros H. apply forallb_forall. intros c Hc. destruct (N.eqb_spec c 125) as [-> |_]; [contradiction|reflexivity]. Qed.
    Lemma declaration_key u p : nc_name p -> declaration (u, p) = (lit "xmlns" ++ lit ":" ++ p, u).
    Proof. intros H. destruct p as [|c p]; [destruct H|]. reflexivity. Qed.
    Lemma declares_declaration k e : taken k e -> declares (fst (declaration e)) (snd (declaration e)) = Some (Some (snd e, fst e)).
    Proof.
      intros (U & Ux & P & Px & Pn & _). destruct e as [u p]. cbn [fst snd] in *. rewrite declaration_key by exact P. cbn [fst snd]. unfold declares.
      rewrite split_pair by (apply nc_xmlns || exact P). rewrite str_eqb_refl, nc_ncname by exact P. destruct U as (U1 & U2 & U3 & U4).
      rewrite no_brace_free by exact U3. rewrite (str_eqb_neq p (lit "xmlns")) by exact Pn. rewrite (str_eqb_neq u []) by exact U1.
      rewrite (str_eqb_neq u xmlns_uri) by exact U4. rewrite (str_eqb_neq p (lit "xml")) by exact Px. rewrite (str_eqb_neq u xml_uri) by exact Ux. reflexivity.
    Qed.
  End Names.
End Doc.
