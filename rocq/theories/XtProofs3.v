(* Reading what was written: whole documents. *)
From Coq Require Import Lia ZifyBool ZifyNat ZifyN Permutation.
From Verif Require Import Base BaseProofs Lit NumModel NumProofs TextModel TextSpec Utf8Model Utf8Proofs XmlModel SerModel SerProofs XtModel XtSpec XtProofs XtProofs2.

Local Open Scope list_scope.

(* ---- sorting ---- *)
Lemma insert_perm e l : Permutation (insert_by e l) (e :: l).
Proof.
  induction l as [|f l IH]; [reflexivity|]. cbn [insert_by]. destruct (str_leb (snd f) (snd e)); [|reflexivity].
  etransitivity; [apply perm_skip, IH|]. apply perm_swap.
Qed.
Lemma sort_perm l : Permutation (sort_by_prefix l) l.
Proof.
  unfold sort_by_prefix. assert (H : forall acc, Permutation (fold_left (fun acc e => insert_by e acc) l acc) (acc ++ l)).
  { induction l as [|e l IH]; intros acc; cbn [fold_left]; [rewrite app_nil_r; reflexivity|]. etransitivity; [apply IH|].
    etransitivity; [apply Permutation_app_tail, insert_perm|]. cbn [app]. apply Permutation_middle. }
  apply (H []).
Qed.

Section Doc.
  Context (reg : list (list N * list N)) (R : usable_registry reg).
  Context (ns : list (list N * list N)) (W : wf_ns reg ns).

  Definition swap (e : list N * list N) : list N * list N := (snd e, fst e).
  Lemma bindings_quiet a : forall env, Forall (fun kv => declares (fst kv) (snd kv) = Some None) a -> bindings a env = Some (env, a).
  Proof.
    induction a as [|[k v] a IH]; intros env H; [reflexivity|]. cbn [bindings]. pose proof (Forall_inv H) as E. cbn [fst snd] in E. rewrite E.
    rewrite IH by exact (Forall_inv_tail H). reflexivity.
  Qed.
  Lemma bindings_declared l : forall env a, Forall (fun e => exists k, taken reg k e) l -> bindings (map declaration l ++ a) env = bindings a (rev (map swap l) ++ env).
  Proof.
    induction l as [|e l IH]; intros env a H; [reflexivity|]. cbn [map app rev]. destruct (Forall_inv H) as (k & T). pose proof (declares_declaration reg k e T) as D.
    destruct (declaration e) as [dk dv] eqn:Ed. cbn [fst snd] in D. cbn [bindings]. rewrite D. rewrite IH by exact (Forall_inv_tail H). rewrite <- app_assoc. reflexivity.
  Qed.
  Lemma get_app (k : list N) (a b : list (list N * list N)) : dict_get str_eqb k (a ++ b) = match dict_get str_eqb k a with Some v => Some v | None => dict_get str_eqb k b end.
  Proof. induction a as [|[k' v] a IH]; [reflexivity|]. cbn [app dict_get]. destruct (str_eqb k k'); [reflexivity|exact IH]. Qed.

  Definition env0 : list (list N * list N) := [(lit "xml", xml_uri)].
  Definition root_env : list (list N * list N) := rev (map swap (sort_by_prefix ns)) ++ env0.
  Lemma in_root u p : In (p, u) (rev (map swap (sort_by_prefix ns))) <-> In (u, p) ns.
  Proof.
    rewrite <- in_rev, in_map_iff. split.
    - intros ([u' p'] & E & I). apply pair_inj in E. cbn [fst snd] in E. destruct E as [<- <-]. exact (Permutation_in _ (sort_perm ns) I).
    - intros I. exists (u, p). split; [reflexivity|]. exact (Permutation_in _ (Permutation_sym (sort_perm ns)) I).
  Qed.
  Lemma root_keys : NoDup (map fst (rev (map swap (sort_by_prefix ns)))).
  Proof.
    rewrite map_rev, map_map. apply NoDup_rev. change (fun x => fst (swap x)) with (@snd (list N) (list N)).
    destruct W as (_ & W2 & _). eapply Permutation_NoDup; [|exact W2]. apply Permutation_map, Permutation_sym, sort_perm.
  Qed.
  Lemma root_sees : sees ns root_env.
  Proof.
    destruct W as (W1 & W2 & W3). rewrite Forall_forall in W3. unfold root_env, sees. rewrite !get_app. split; [|split].
    - destruct (dict_get str_eqb (lit "xml") (rev _)) as [u|] eqn:G; [|reflexivity]. apply get_in, in_root in G. destruct (W3 _ G) as (_ & _ & _ & F & _). cbn [snd] in F. congruence.
    - destruct (dict_get str_eqb [] (rev _)) as [u|] eqn:G; [|reflexivity]. apply get_in, in_root in G. destruct (W3 _ G) as (_ & _ & F & _). destruct F.
    - intros u p I. rewrite get_app. apply in_root in I. rewrite (get_unique _ _ _ root_keys I). reflexivity.
  Qed.

  (* ---- trees ---- *)
  Definition qattrs (a : list (list N * list N)) := map (fun kv : list N * list N => (qualified reg ns (fst kv), snd kv)) a.
  Definition attrs_ok (a : list (list N * list N)) : Prop :=
    NoDup (map fst a) /\ Forall (fun kv => xml_name (fst kv) /\ fst kv <> lit "xmlns" /\ Forall xml_char (snd kv)) a /\ Forall (covered ns) (map fst a).
  Lemma expand_attrs env a : sees ns env -> attrs_ok a -> expand_all env (qattrs a) = Some a.
  Proof.
    intros S (D & X & C). induction a as [|[k v] a IH]; [reflexivity|]. cbn [qattrs map fst snd expand_all] in *. apply NoDup_cons_iff in D. destruct D as [D1 D2].
    rewrite (expand_qualified reg R ns W env true k S (proj1 (Forall_inv X)) (Forall_inv C)).
    fold (qattrs a). rewrite IH by (exact D2 || exact (Forall_inv_tail X) || exact (Forall_inv_tail C)). rewrite dict_get_none_app by exact D1. reflexivity.
  Qed.
  Lemma quiet_attrs a : attrs_ok a -> Forall (fun kv => declares (fst kv) (snd kv) = Some None) (qattrs a).
  Proof.
    intros (D & X & C). apply Forall_forall. intros kv Hkv. apply in_map_iff in Hkv. destruct Hkv as (kv0 & <- & I). cbn [fst snd].
    rewrite Forall_forall in X, C. destruct (X _ I) as (X1 & X2 & _). apply declares_qualified; [exact R|exact W|exact X1|exact X2|]. apply C, in_map, I.
  Qed.
  Lemma raw_attrs a : attrs_ok a -> NoDup (map fst (qattrs a)) /\ Forall (fun kv => raw_name (fst kv) /\ Forall xml_char (snd kv)) (qattrs a).
  Proof.
    intros A. pose proof A as (D & X & C). split.
    - unfold qattrs. rewrite map_map. cbn [fst]. rewrite <- (map_map fst (qualified reg ns)).
      assert (Inj : forall x y, In x (map fst a) -> In y (map fst a) -> qualified reg ns x = qualified reg ns y -> x = y).
      { intros x y Hx Hy E. assert (Xn : forall z, In z (map fst a) -> xml_name z).
        { intros z Hz. apply in_map_iff in Hz. destruct Hz as (kv & <- & I). rewrite Forall_forall in X. exact (proj1 (X _ I)). }
        rewrite Forall_forall in C. pose proof (expand_qualified reg R ns W root_env true x root_sees (Xn x Hx) (C x Hx)) as E1.
        pose proof (expand_qualified reg R ns W root_env true y root_sees (Xn y Hy) (C y Hy)) as E2. rewrite E, E2 in E1. apply Some_inj in E1. symmetry. exact E1. }
      revert D Inj. generalize (map fst a) as l. clear. induction l as [|x l IH]; intros D Inj; [constructor|]. apply NoDup_cons_iff in D. destruct D as [D1 D2]. cbn [map]. constructor.
      + intros F. apply in_map_iff in F. destruct F as (y & E & I). apply D1. rewrite (Inj x y); [exact I|left; reflexivity|right; exact I|symmetry; exact E].
      + apply IH; [exact D2|]. intros u v Hu Hv. apply Inj; right; assumption.
    - apply Forall_forall. intros kv Hkv. apply in_map_iff in Hkv. destruct Hkv as (kv0 & <- & I). cbn [fst snd].
      rewrite Forall_forall in X, C. destruct (X _ I) as (X1 & X2 & X3). split; [|exact X3]. apply raw_qualified; [exact R|exact W|exact X1|]. apply C, in_map, I.
  Qed.
  Lemma cov_split t a txt kids : Forall (covered ns) (names_of (Elem t a txt kids)) -> covered ns t /\ Forall (covered ns) (map fst a) /\ Forall (fun y => Forall (covered ns) (names_of y)) kids.
  Proof.
    cbn [names_of]. intros H. split; [exact (Forall_inv H)|]. apply Forall_inv_tail, Forall_app in H. destruct H as [H1 H2]. split; [exact H1|].
    clear - H2. induction kids as [|y l IH]; constructor; cbn [flat_map] in H2; apply Forall_app in H2; [exact (proj1 H2)|apply IH, (proj2 H2)].
  Qed.
  Lemma raw_tree x : writable x -> Forall (covered ns) (names_of x) -> raw_ok (qualify reg ns x).
  Proof.
    induction x as [t a txt kids IH] using xml_induction. intros (Xt & Da & Xa & Xs & Xk) C. apply all_forall in Xk. apply cov_split in C. destruct C as (Ct & Ca & Ck).
    cbn [qualify raw_ok]. destruct (raw_attrs a (conj Da (conj Xa Ca))) as (A1 & A2).
    split; [apply raw_qualified; assumption|]. split; [exact A1|]. split; [exact A2|]. split; [exact Xs|]. apply all_forall.
    clear - IH Xk Ck. induction kids as [|y l IHl]; constructor.
    - apply (Forall_inv IH); [exact (Forall_inv Xk)|exact (Forall_inv Ck)].
    - apply IHl; [exact (Forall_inv_tail IH)|exact (Forall_inv_tail Xk)|exact (Forall_inv_tail Ck)].
  Qed.
  (* any change of the texts *)
  Fixpoint with_text (g : option (list N) -> option (list N)) (x : xml) : xml :=
    match x with Elem t a txt kids => Elem t a (g txt) (map (with_text g) kids) end.
  Lemma resolve_kids env l l' : Forall2 (fun y z => resolve env y = Some z) l l' ->
    (fix all (l : list xml) : option (list xml) :=
       match l with [] => Some [] | y :: l' => match resolve env y, all l' with Some z, Some r => Some (z :: r) | _, _ => None end end) l = Some l'.
  Proof. induction 1 as [|y z l l' E _ IH]; [reflexivity|]. cbn. rewrite E, IH. reflexivity. Qed.
  Lemma resolve_tree env g x : sees ns env -> writable x -> Forall (covered ns) (names_of x) ->
    resolve env (with_text g (qualify reg ns x)) = Some (with_text g x).
  Proof.
    intros S. induction x as [t a txt kids IH] using xml_induction. intros (Xt & Da & Xa & Xs & Xk) C. apply all_forall in Xk. apply cov_split in C. destruct C as (Ct & Ca & Ck).
    pose proof (conj Da (conj Xa Ca) : attrs_ok a) as A. cbn [qualify with_text resolve]. fold (qattrs a). rewrite bindings_quiet by (apply quiet_attrs, A).
    rewrite (expand_qualified reg R ns W env false t S Xt Ct), (expand_attrs env a S A). rewrite (resolve_kids env _ (map (with_text g) kids)); [reflexivity|].
    clear - IH Xk Ck. induction kids as [|y l IHl]; cbn [map]; constructor.
    - apply (Forall_inv IH); [exact (Forall_inv Xk)|exact (Forall_inv Ck)].
    - apply IHl; [exact (Forall_inv_tail IH)|exact (Forall_inv_tail Xk)|exact (Forall_inv_tail Ck)].
  Qed.
End Doc.

Section Root.
  Context (reg : list (list N * list N)) (R : usable_registry reg).

  Lemma declared_raw x : writable x -> raw_ok (declared reg x).
  Proof.
    intros X. destruct (namespaces_ok reg R x X) as (W & C). unfold declared. set (ns := namespaces reg x) in *. pose proof (raw_tree reg R ns W x X C) as Q.
    destruct x as [t a txt kids]. cbn [qualify] in *. destruct Q as (Q1 & Q2 & Q3 & Q4 & Q5). pose proof W as (W1 & W2 & W3).
    assert (Tk : forall e, In e (sort_by_prefix ns) -> taken reg (length ns) e) by (intros e I; rewrite Forall_forall in W3; apply W3, (Permutation_in _ (sort_perm ns) I)).
    split; [exact Q1|]. split; [|split; [|split; [exact Q4|exact Q5]]].
    - rewrite map_app, map_map.
      assert (Disj : forall k, In k (map (fun e => fst (declaration e)) (sort_by_prefix ns)) -> ~ In k (map fst (map (fun kv : list N * list N => (qualified reg ns (fst kv), snd kv)) a))).
      { intros k Hk Hk'. apply in_map_iff in Hk. destruct Hk as (e & Ek & Ie). apply in_map_iff in Hk'. destruct Hk' as (kv & Ek' & Ikv). apply in_map_iff in Ikv. destruct Ikv as (kv0 & <- & I0).
        cbn [fst] in Ek'. pose proof (declares_declaration reg _ e (Tk e Ie)) as D. rewrite Ek, <- Ek' in D.
        destruct X as (_ & _ & Xa & _). rewrite Forall_forall in Xa. destruct (Xa _ I0) as (X1 & X2 & _).
        rewrite (declares_qualified reg R ns W) in D; [discriminate|exact X1|exact X2|]. apply cov_split in C. destruct C as (_ & Ca & _). rewrite Forall_forall in Ca. apply Ca, in_map, I0. }
      assert (Nd : NoDup (map (fun e => fst (declaration e)) (sort_by_prefix ns))).
      { assert (D2 : NoDup (map snd (sort_by_prefix ns))) by (eapply Permutation_NoDup; [|exact W2]; apply Permutation_map, Permutation_sym, sort_perm).
        revert D2 Tk. clear. induction (sort_by_prefix ns) as [|e l IH]; intros D T; [constructor|]. cbn [map] in *. apply NoDup_cons_iff in D. destruct D as [D1 D2]. constructor.
        - intros F. apply in_map_iff in F. destruct F as (f & E & I). destruct (T e (or_introl eq_refl)) as (_ & _ & Pe & _). destruct (T f (or_intror I)) as (_ & _ & Pf & _).
          destruct e as [u p], f as [u' p']. cbn [snd fst] in *. rewrite !declaration_key in E by assumption. cbn [fst] in E. apply app_inv_head, app_inv_head in E. subst p'.
          apply D1. apply in_map_iff. exists (u', p). split; [reflexivity|exact I].
        - apply IH; [exact D2|]. intros f I. apply T. right. exact I. }
      revert Nd Disj Q2. generalize (map fst (map (fun kv : list N * list N => (qualified reg ns (fst kv), snd kv)) a)) as l2. generalize (map (fun e => fst (declaration e)) (sort_by_prefix ns)) as l1. clear.
      induction l1 as [|k l1 IH]; intros l2 N1 D N2; [exact N2|]. cbn [app]. apply NoDup_cons_iff in N1. destruct N1 as [A B]. constructor.
      + intros F. apply in_app_or in F. destruct F as [F|F]; [exact (A F)|]. exact (D k (or_introl eq_refl) F).
      + apply IH; [exact B| |exact N2]. intros z Hz. apply D. right. exact Hz.
    - apply Forall_app. split; [|exact Q3]. apply Forall_forall. intros kv Hkv. apply in_map_iff in Hkv. destruct Hkv as (e & <- & Ie). destruct (Tk e Ie) as (U & _ & P & _).
      destruct e as [u p]. cbn [fst snd] in *. rewrite declaration_key by exact P. cbn [fst snd]. split; [apply raw_pair; [apply nc_xmlns|exact P]|]. exact (proj1 (proj2 U)).
  Qed.
  Lemma declared_resolves g x : writable x -> resolve [(lit "xml", xml_uri)] (with_text g (declared reg x)) = Some (with_text g x).
  Proof.
    intros X. destruct (namespaces_ok reg R x X) as (W & C). unfold declared. set (ns := namespaces reg x) in *. pose proof (root_sees reg ns W) as S.
    destruct x as [t a txt kids]. pose proof X as (Xt & Da & Xa & Xs & Xk). apply all_forall in Xk. pose proof (cov_split _ _ _ _ _ C) as (Ct & Ca & Ck). cbn [qualify with_text resolve].
    assert (B : bindings (map declaration (sort_by_prefix ns) ++ qattrs reg ns a) [(lit "xml", xml_uri)] = Some (root_env ns, qattrs reg ns a)).
    { rewrite (bindings_declared reg).
      - apply bindings_quiet, (quiet_attrs reg R ns W). exact (conj Da (conj Xa Ca)).
      - apply Forall_forall. intros e I. exists (length ns). destruct W as (_ & _ & W3). rewrite Forall_forall in W3. apply W3, (Permutation_in _ (sort_perm ns) I). }
    fold (qattrs reg ns a). rewrite B. rewrite (expand_qualified reg R ns W _ false t S Xt Ct), (expand_attrs reg R ns W _ a S (conj Da (conj Xa Ca))).
    rewrite (resolve_kids _ _ (map (with_text g) kids)); [reflexivity|].
    clearbody ns. clear - R W S Xk Ck. induction kids as [|y l IHl]; cbn [map]; constructor.
    - apply resolve_tree; [exact R|exact W|exact S|exact (Forall_inv Xk)|exact (Forall_inv Ck)].
    - apply IHl; [exact (Forall_inv_tail Xk)|exact (Forall_inv_tail Ck)].
  Qed.

  Definition read_text (txt : option (list N)) : option (list N) :=
    match match txt with Some s => Some (eol s) | None => None end with Some [] => None | o => o end.
  Lemma reparse_eol x : reparse (eol_tree x) = with_text read_text x.
  Proof.
    induction x as [t a txt kids IH] using xml_induction. cbn [reparse eol_tree with_text]. f_equal; [unfold read_text; destruct txt as [s|]; [destruct (eol s); reflexivity|reflexivity]|]. rewrite map_map. apply map_ext_in. rewrite Forall_forall in IH. exact IH.
  Qed.
  Theorem parse_print x : writable x -> xml_parse (xml_print reg x) = Some (with_text read_text x).
  Proof.
    intros X. unfold xml_parse, xml_print. rewrite read_shown by (apply declared_raw, X). rewrite reparse_eol. apply declared_resolves, X.
  Qed.
  Lemma with_text_id x : unreturned x -> with_text read_text x = reparse x.
  Proof.
    induction x as [t a txt kids IH] using xml_induction. intros (U & K). apply all_forall in K. cbn [with_text reparse]. f_equal.
    - unfold read_text. destruct txt as [s|]; [|reflexivity]. rewrite eol_id by (apply U; reflexivity). destruct s; reflexivity.
    - apply map_ext_in. intros y I. rewrite Forall_forall in IH, K. apply IH; [exact I|apply K, I].
  Qed.
  Theorem parse_print_id x : writable x -> unreturned x -> xml_parse (xml_print reg x) = Some (reparse x).
  Proof. intros X U. rewrite (parse_print x X), (with_text_id x U). reflexivity. Qed.
End Root.

(* ---- bytes ---- *)
Lemma lit_chars_ascii s : forallb is_char s = true -> Forall xml_char s.
Proof. intros H. apply Forall_forall. intros c Hc. rewrite forallb_forall in H. apply is_char_spec, H, Hc. Qed.
Lemma esc_text_chars s : Forall xml_char s -> Forall xml_char (esc_text s).
Proof.
  intros H. unfold esc_text. apply Forall_forall. intros d Hd. apply in_flat_map in Hd. destruct Hd as (c & Hc & Hd). rewrite Forall_forall in H. specialize (H c Hc).
  revert d Hd. apply Forall_forall. unfold esc_text_char.
  destruct (N.eqb c 38); [apply lit_chars_ascii; reflexivity|]. destruct (N.eqb c 60); [apply lit_chars_ascii; reflexivity|].
  destruct (N.eqb c 62); [apply lit_chars_ascii; reflexivity|]. constructor; [exact H|constructor].
Qed.
Lemma esc_attr_chars s : Forall xml_char s -> Forall xml_char (esc_attr s).
Proof.
  intros H. unfold esc_attr. apply Forall_forall. intros d Hd. apply in_flat_map in Hd. destruct Hd as (c & Hc & Hd). rewrite Forall_forall in H. specialize (H c Hc).
  revert d Hd. apply Forall_forall. unfold esc_attr_char.
  destruct (N.eqb c 38); [apply lit_chars_ascii; reflexivity|]. destruct (N.eqb c 60); [apply lit_chars_ascii; reflexivity|].
  destruct (N.eqb c 62); [apply lit_chars_ascii; reflexivity|]. destruct (N.eqb c 34); [apply lit_chars_ascii; reflexivity|].
  destruct (N.eqb c 13); [apply lit_chars_ascii; reflexivity|]. destruct (N.eqb c 10); [apply lit_chars_ascii; reflexivity|].
  destruct (N.eqb c 9); [apply lit_chars_ascii; reflexivity|]. constructor; [exact H|constructor].
Qed.
Lemma raw_chars s : raw_name s -> Forall xml_char s.
Proof.
  intros H. apply raw_all in H. apply Forall_forall. intros c Hc. rewrite forallb_forall in H. specialize (H c Hc).
  unfold name_char, nc_char, name_start, is_alpha, is_digit in H. unfold xml_char. lia.
Qed.
Lemma show_chars x : raw_ok x -> Forall xml_char (show x).
Proof.
  induction x as [t a txt kids IH] using xml_induction. intros (Rt & Da & Ra & Xt & Rk). apply all_forall in Rk. cbn [show].
  set (body := match txt with Some s => s | None => [] end).
  assert (Xb : Forall xml_char body) by (unfold body; destruct txt as [s|]; [apply Xt; reflexivity|constructor]).
  apply Forall_app. split; [apply lit_chars_ascii; reflexivity|]. apply Forall_app. split; [apply raw_chars, Rt|]. apply Forall_app. split.
  - apply Forall_forall. intros c Hc. apply in_flat_map in Hc. destruct Hc as (kv & Hk & Hc). rewrite Forall_forall in Ra. destruct (Ra kv Hk) as (R1 & R2).
    revert c Hc. apply Forall_forall. unfold show_attr. repeat (apply Forall_app; split); try (apply lit_chars_ascii; reflexivity); [apply raw_chars, R1|apply esc_attr_chars, R2].
  - assert (Open : Forall xml_char (lit ">" ++ esc_text body ++ flat_map show kids ++ lit "</" ++ t ++ lit ">")).
    { repeat (apply Forall_app; split); try (apply lit_chars_ascii; reflexivity); [apply esc_text_chars, Xb| |apply raw_chars, Rt].
      clear - IH Rk. induction kids as [|y l IHl]; [constructor|]. cbn [flat_map]. apply Forall_app. split; [apply (Forall_inv IH), (Forall_inv Rk)|].
      apply IHl; [exact (Forall_inv_tail IH)|exact (Forall_inv_tail Rk)]. }
    destruct body; [destruct kids|]; [apply lit_chars_ascii; reflexivity|exact Open|exact Open].
Qed.
Lemma xml_scalar c : xml_char c -> scalar c.
Proof. unfold xml_char, scalar. lia. Qed.
Lemma charref_id s : Forall xml_char s -> flat_map charref s = s.
Proof.
  induction 1 as [|c s H _ IH]; [reflexivity|]. cbn [flat_map]. rewrite IH. unfold charref. assert (is_surrogate c = false) as -> by (unfold is_surrogate; unfold xml_char in H; lia). reflexivity.
Qed.
Theorem tostring_text reg x : usable_registry reg -> writable x -> exists b, tostring reg x = Ok b /\ bytes_ok b /\ utf8_decode b = Ok (xml_print reg x).
Proof.
  intros R X. pose proof (show_chars _ (declared_raw reg R x X)) as H. unfold tostring. unfold xml_print. rewrite charref_id by exact H.
  destruct (utf8_roundtrip (show (declared reg x))) as (b & E & B & D).
  - eapply Forall_impl; [|exact H]. exact xml_scalar.
  - exists b. auto.
Qed.

(* ---- the registries ---- *)
Fixpoint nodupb (l : list (list N)) : bool := match l with [] => true | x :: l' => (negb (existsb (str_eqb x) l') && nodupb l')%bool end.
Lemma nodupb_ok l : nodupb l = true -> NoDup l.
Proof.
  induction l as [|x l IH]; [constructor|]. cbn [nodupb]. intros H. apply andb_true_iff in H. destruct H as [H1 H2]. constructor; [|apply IH, H2].
  intros F. assert (existsb (str_eqb x) l = true) by (apply existsb_exists; exists x; split; [exact F|apply str_eqb_refl]). rewrite H in H1. discriminate.
Qed.
Lemma ncname_nc s : ncname s = true -> nc_name s.
Proof.
  destruct s as [|c s]; [discriminate|]. cbn [ncname nc_name]. intros H. apply andb_true_iff in H. destruct H as [A B]. split; [apply name_start_spec, A|].
  apply Forall_forall. intros d Hd. rewrite forallb_forall in B. apply nc_char_spec, B, Hd.
Qed.
Definition usableb (reg : list (list N * list N)) : bool :=
  (nodupb (map fst reg) && nodupb (map snd reg)
   && match dict_get str_eqb xml_uri reg with Some p => str_eqb p (lit "xml") | None => false end
   && forallb (fun e => ncname (snd e) && negb (str_eqb (snd e) (lit "xmlns")) && negb (starts_with (lit "ns") (snd e))) reg)%bool.
Lemma usableb_ok reg : usableb reg = true -> usable_registry reg.
Proof.
  unfold usableb. intros H. apply andb_true_iff in H. destruct H as [H H4]. apply andb_true_iff in H. destruct H as [H H3]. apply andb_true_iff in H. destruct H as [H1 H2].
  split; [apply nodupb_ok, H1|]. split; [apply nodupb_ok, H2|]. split.
  - destruct (dict_get str_eqb xml_uri reg) as [p|] eqn:E; [|discriminate]. apply str_eqb_spec in H3. subst p. apply get_in in E. exact E.
  - apply Forall_forall. intros e He. rewrite forallb_forall in H4. specialize (H4 e He). apply andb_true_iff in H4. destruct H4 as [H4 N3]. apply andb_true_iff in H4. destruct H4 as [N1 N2].
    split; [apply ncname_nc, N1|]. split; [intros F; rewrite F in N2; discriminate|]. intros (d & F & _). rewrite F in N3. discriminate.
Qed.
Lemma python_usable : usable_registry python_registry.
Proof. apply usableb_ok. vm_compute. reflexivity. Qed.
Lemma library_usable : usable_registry library_registry.
Proof. apply usableb_ok. vm_compute. reflexivity. Qed.

(* ---- line ends ---- *)
Lemma eol_fed s : line_fed s (eol s).
Proof.
  remember (length s) as k eqn:Hk. revert s Hk. induction k as [k IH] using lt_wf_ind. intros [|c s] Hk; [constructor|]. cbn [eol length] in *.
  destruct (N.eqb_spec c 13) as [-> |Hc].
  - destruct s as [|d s']; [apply lf_lone; [discriminate|constructor]|]. cbn [length] in Hk. destruct (N.eqb_spec d 10) as [-> |Hd].
    + apply lf_pair, (IH (length s')); [lia|reflexivity].
    + apply lf_lone; [intros s'' F; apply cons_inj in F; destruct F as [F _]; contradiction|]. apply (IH (length (d :: s'))); [cbn [length]; lia|reflexivity].
  - apply lf_char; [exact Hc|]. apply (IH (length s)); [lia|reflexivity].
Qed.
Lemma arrives_text x : arrives x (with_text read_text x).
Proof.
  induction x as [t a txt kids IH] using xml_induction. cbn [with_text]. constructor.
  - destruct txt as [s|]; [|reflexivity]. exists (eol s). split; [apply eol_fed|]. unfold read_text. destruct (eol s); [left; auto|right; split; [discriminate|reflexivity]].
  - induction IH as [|y l H _ IHl]; cbn [map]; constructor; assumption.
Qed.
Theorem carried reg x : usable_registry reg -> writable x ->
  exists b s y, tostring reg x = Ok b /\ bytes_ok b /\ utf8_decode b = Ok s /\ xml_parse s = Some y /\ arrives x y.
Proof.
  intros R X. destruct (tostring_text reg x R X) as (b & E & B & D). exists b, (xml_print reg x), (with_text read_text x).
  split; [exact E|]. split; [exact B|]. split; [exact D|]. split; [apply parse_print; assumption|apply arrives_text].
Qed.
Theorem carried_same reg x : usable_registry reg -> writable x -> unreturned x ->
  exists b s, tostring reg x = Ok b /\ bytes_ok b /\ utf8_decode b = Ok s /\ xml_parse s = Some (reparse x).
Proof.
  intros R X U. destruct (tostring_text reg x R X) as (b & E & B & D). exists b, (xml_print reg x).
  split; [exact E|]. split; [exact B|]. split; [exact D|]. apply parse_print_id; assumption.
Qed.
Theorem told_apart reg reg' x y : usable_registry reg -> usable_registry reg' -> writable x -> unreturned x -> writable y -> unreturned y ->
  tostring reg x = tostring reg' y -> reparse x = reparse y.
Proof.
  intros R R' X U Y V E. destruct (carried_same reg x R X U) as (b & s & E1 & _ & D1 & P1). destruct (carried_same reg' y R' Y V) as (b' & s' & E2 & _ & D2 & P2).
  rewrite E, E2 in E1. apply Ok_inj in E1. subst b'. rewrite D2 in D1. apply Ok_inj in D1. subst s'. rewrite P2 in P1. apply Some_inj in P1. symmetry. exact P1.
Qed.
