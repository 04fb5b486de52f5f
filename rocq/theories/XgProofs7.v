(* The reader reads only texts the grammar allows: declarations, namespaces, and
   texts; and so a text is read exactly as what it says. *)
From Coq Require Import Lia ZifyBool ZifyNat ZifyN.
From Verif Require Import Base BaseProofs Lit NumModel NumProofs TextModel TextSpec XmlModel XtModel XtSpec XtProofs XtProofs2 XtProofs3 XgSpec XgProofs XgProofs2 XgProofs4 XgProofs5 XgProofs6 Utf8Model XgModel XgProofs3.
Local Open Scope list_scope.

(* ---- the declaration ---- *)
Lemma skip_ws_inv s : exists b, s = b ++ skip_ws s /\ blank b.
Proof.
  induction s as [|c s (b & E & B)]; [exists []; split; [reflexivity|constructor]|]. cbn [skip_ws]. destruct (is_ws c) eqn:W.
  - exists (c :: b). split; [cbn [app]; rewrite <- E; reflexivity|]. constructor; [apply space_ws; exact W|exact B].
  - exists []. split; [reflexivity|constructor].
Qed.
Lemma after_word_inv w s r : after_word w s = Some r -> s = w ++ r.
Proof.
  unfold after_word. destruct (starts_with w s) eqn:E; [|discriminate]. intros H. apply Some_inj in H. subst r. destruct (starts_with_app _ _ E) as (t & ->). rewrite skipn_app, skipn_all, Nat.sub_diag. reflexivity.
Qed.
Lemma decl_sign c : decl_char c = true -> sign c.
Proof. unfold decl_char, is_alpha, is_digit, sign, letter. intros H. lia. Qed.
Lemma quoted_inv q s : forall v r, quoted q s = Some (v, r) -> s = v ++ [q] ++ r /\ Forall sign v.
Proof.
  induction s as [|c s IH]; intros v r H; [discriminate H|]. cbn [quoted] in H. destruct (N.eqb_spec c q) as [->|].
  - apply Some_inj in H. apply pair_inj in H. destruct H as (<- & <-). split; [reflexivity|constructor].
  - destruct (decl_char c) eqn:E; [|discriminate H]. destruct (quoted q s) as [(v0, r0)|] eqn:Q; [|discriminate H]. apply Some_inj in H. apply pair_inj in H. destruct H as (<- & <-).
    destruct (IH v0 r0 eq_refl) as (-> & F). split; [reflexivity|]. constructor; [apply decl_sign; exact E|exact F].
Qed.
Lemma pseudo_inv w s v r : pseudo w s = Some (v, r) -> exists t, s = t ++ r /\ setting w v t.
Proof.
  unfold pseudo. destruct s as [|c s1]; [discriminate|]. destruct (is_ws c) eqn:W; [|discriminate]. destruct (after_word w (skip_ws s1)) as [s2|] eqn:A; [|discriminate]. apply after_word_inv in A.
  destruct (skip_ws_inv s1) as (b0 & E0 & B0). destruct (skip_ws_inv s2) as (b & E2 & B2). destruct (skip_ws s2) as [|e s3]; [discriminate|]. destruct (N.eqb_spec e 61) as [->|]; [|discriminate].
  destruct (skip_ws_inv s3) as (b' & E3 & B3). destruct (skip_ws s3) as [|q s4]; [discriminate|]. destruct (N.eqb q 34 || N.eqb q 39)%bool eqn:Q; [|discriminate]. intros H. apply quoted_inv in H. destruct H as (-> & F).
  exists ((c :: b0) ++ w ++ b ++ [61%N] ++ b' ++ [q] ++ v ++ [q]). split; [rewrite E0, A, E2, E3; rewrite <- !app_assoc; cbn [app]; rewrite <- ?app_assoc; reflexivity|].
  exists (c :: b0), b, b', q. split; [reflexivity|]. split; [split; [constructor; [apply space_ws; exact W|exact B0]|discriminate]|]. split; [exact B2|]. split; [exact B3|]. split; [|exact F].
  apply Bool.orb_true_iff in Q. destruct Q as [Q|Q]; apply N.eqb_eq in Q; [left|right]; exact Q.
Qed.
Lemma undeclared_inv s r : undeclared s = Some r -> exists d, s = d ++ r /\ declaration d.
Proof.
  unfold undeclared. intros H. assert (Z : Some s = Some r -> exists d, s = d ++ r /\ declaration d) by (intros E; apply Some_inj in E; subst; exists []; split; [reflexivity|left; reflexivity]).
  destruct (after_word (lit "<?xml") s) as [[|c s1]|] eqn:A; [exact (Z H)| |exact (Z H)]. destruct (is_ws c) eqn:W; [|exact (Z H)]. clear Z. apply after_word_inv in A.
  destruct (pseudo (lit "version") (c :: s1)) as [(nv, s2)|] eqn:P1; [|discriminate H]. apply pseudo_inv in P1. destruct P1 as (tv & E1 & V).
  assert (K2 : exists e s3, s2 = e ++ s3 /\ (e = [] \/ exists c n, setting (lit "encoding") (c :: n) e /\ letter c) /\
    match (match pseudo (lit "standalone") s3 with Some (v, s4) => if (str_eqb v (lit "yes") || str_eqb v (lit "no"))%bool then Some s4 else None | None => Some s3 end) with
    | None => None | Some s4 => after_word (lit "?>") (skip_ws s4) end = Some r).
  { destruct (pseudo (lit "encoding") s2) as [(ne, s3)|] eqn:P2.
    - destruct (encoding_ok ne) eqn:Eo; [|discriminate H]. apply pseudo_inv in P2. destruct P2 as (te & E2 & Ve). exists te, s3. split; [exact E2|]. split; [|exact H]. right. destruct ne as [|c0 ne]; [discriminate Eo|].
      exists c0, ne. split; [exact Ve|]. cbn [encoding_ok] in Eo. unfold is_alpha in Eo. unfold letter. lia.
    - exists [], s2. split; [reflexivity|]. split; [left; reflexivity|exact H]. }
  clear H. destruct K2 as (e & s3 & E2 & Ve & H).
  assert (K3 : exists a s4, s3 = a ++ s4 /\ (a = [] \/ setting (lit "standalone") (lit "yes") a \/ setting (lit "standalone") (lit "no") a) /\ after_word (lit "?>") (skip_ws s4) = Some r).
  { destruct (pseudo (lit "standalone") s3) as [(na, s4)|] eqn:P3.
    - destruct (str_eqb na (lit "yes") || str_eqb na (lit "no"))%bool eqn:Eo; [|discriminate H]. apply pseudo_inv in P3. destruct P3 as (ta & E3 & Va). exists ta, s4. split; [exact E3|]. split; [|exact H]. right.
      apply Bool.orb_true_iff in Eo. destruct Eo as [Eo|Eo]; apply str_eqb_spec in Eo; subst na; [left|right]; exact Va.
    - exists [], s3. split; [reflexivity|]. split; [left; reflexivity|exact H]. }
  clear H. destruct K3 as (a & s4 & E3 & Va & H). apply after_word_inv in H. destruct (skip_ws_inv s4) as (b & E4 & B).
  exists (lit "<?xml" ++ tv ++ e ++ a ++ b ++ lit "?>"). split; [rewrite A, E1, E2, E3, E4, H, <- !app_assoc; reflexivity|]. right. exists tv, e, a, b. split; [reflexivity|]. split; [exists nv; exact V|]. split; [exact Ve|]. split; [exact Va|exact B].
Qed.

(* ---- namespaces ---- *)
Lemma ncname_nc n : ncname n = true -> nc_name n.
Proof.
  destruct n as [|c n]; [discriminate|]. cbn [ncname]. intros H. apply Bool.andb_true_iff in H. destruct H as (H & K). split; [apply name_start_spec; exact H|].
  apply Forall_forall. intros d D. apply nc_char_spec. rewrite forallb_forall in K. exact (K d D).
Qed.
Lemma expand_inv env b n n' : expand env b n = Some n' -> names (fun p => dict_get str_eqb p env) b n n'.
Proof.
  unfold expand. pose proof (join_split 58 n) as J. destruct (split_on 58 n) as [|p [|l [|? ?]]]; try discriminate; cbn [join] in J.
  - subst p. destruct (ncname n) eqn:E; [|discriminate]. apply ncname_nc in E. destruct b.
    + intros H. apply Some_inj in H. subst. apply na_attribute. exact E.
    + destruct (dict_get str_eqb [] env) as [[|c u]|] eqn:G; intros H; apply Some_inj in H; subst n'.
      * apply na_bare; [exact E|right; exact G].
      * apply na_default; [exact E|exact G|discriminate].
      * apply na_bare; [exact E|left; exact G].
  - destruct (ncname p && ncname l)%bool eqn:E; [|discriminate]. apply Bool.andb_true_iff in E. destruct E as (E1 & E2). apply ncname_nc in E1, E2. destruct (dict_get str_eqb p env) as [u|] eqn:G; [|discriminate].
    intros H. apply Some_inj in H. subst n'. rewrite <- J. apply na_prefixed; assumption.
Qed.
Lemma expand_all_inv env a : forall a', expand_all env a = Some a' ->
  Forall2 (fun e f => names (fun p => dict_get str_eqb p env) true (fst e) (fst f) /\ snd e = snd f) a a' /\ NoDup (map fst a') /\ (forall k v, In (k, v) a -> exists k', expand env true k = Some k').
Proof.
  induction a as [|(k, v) a IH]; intros a' H; cbn [expand_all] in H; [apply Some_inj in H; subst; split; [constructor|]; split; [constructor|intros k v []]|].
  destruct (expand env true k) as [k'|] eqn:E; [|discriminate H]. destruct (expand_all env a) as [r|]; [|discriminate H]. destruct (IH r eq_refl) as (F & D & A). destruct (dict_get str_eqb k' r) eqn:G; [discriminate H|].
  apply Some_inj in H. subst a'. split; [constructor; [split; [apply expand_inv; exact E|reflexivity]|exact F]|]. split; [cbn [map fst]; constructor; [apply dict_get_absent; exact G|exact D]|].
  intros k0 v0 [I0|I0]; [apply pair_inj in I0; destruct I0 as (<- & _); exists k'; exact E|exact (A k0 v0 I0)].
Qed.
Lemma prefix_length p : lit "xmlns" <> lit "xmlns:" ++ p.
Proof. intros F. apply (f_equal (@length N)) in F. rewrite app_length in F. change (length (lit "xmlns")) with 5%nat in F. change (length (lit "xmlns:")) with 6%nat in F. lia. Qed.
Lemma prefix_unique k p q : declares_prefix k p -> declares_prefix k q -> p = q.
Proof.
  intros [(-> & ->)| ->] [(F & ->)|F]; try reflexivity; [destruct (prefix_length _ F)|symmetry in F; destruct (prefix_length _ F)|]. apply app_inv_head in F. exact F.
Qed.
Lemma brace_free u : no_brace u = true -> ~ In 125%N u.
Proof. unfold no_brace. rewrite forallb_forall. intros H K. specialize (H _ K). discriminate H. Qed.
Lemma declares_inv k v p u : declares k v = Some (Some (p, u)) -> u = v /\ declares_prefix k p /\ lawful p u /\ (k = lit "xmlns" \/ nc_name p /\ u <> []).
Proof.
  unfold declares. pose proof (join_split 58 k) as J. destruct (split_on 58 k) as [|d [|p0 [|? ?]]]; try discriminate; cbn [join] in J.
  - subst d. destruct (str_eqb k (lit "xmlns")) eqn:E; [|discriminate]. apply str_eqb_spec in E. destruct (no_brace v && negb (str_eqb v xml_uri) && negb (str_eqb v xmlns_uri))%bool eqn:L; [|discriminate].
    intros H. apply Some_inj, Some_inj in H. apply pair_inj in H. destruct H as (<- & <-). apply Bool.andb_true_iff in L. destruct L as (L & L3). apply Bool.andb_true_iff in L. destruct L as (L1 & L2).
    apply Bool.negb_true_iff in L2, L3. split; [reflexivity|]. split; [left; split; [exact E|reflexivity]|]. split; [|left; exact E]. split; [apply brace_free; exact L1|].
    split; [intros F; rewrite F in L3; discriminate L3|]. split; [|discriminate]. split; [discriminate|]. intros F. rewrite F in L2. discriminate L2.
  - destruct (str_eqb d (lit "xmlns")) eqn:E; [|discriminate]. apply str_eqb_spec in E. subst d.
    destruct (ncname p0 && no_brace v && negb (str_eqb p0 (lit "xmlns")) && negb (str_eqb v []) && negb (str_eqb v xmlns_uri) && Bool.eqb (str_eqb p0 (lit "xml")) (str_eqb v xml_uri))%bool eqn:L; [|discriminate].
    intros H. apply Some_inj, Some_inj in H. apply pair_inj in H. destruct H as (<- & <-).
    apply Bool.andb_true_iff in L. destruct L as (L & L6). apply Bool.andb_true_iff in L. destruct L as (L & L5). apply Bool.andb_true_iff in L. destruct L as (L & L4). apply Bool.andb_true_iff in L. destruct L as (L & L3). apply Bool.andb_true_iff in L. destruct L as (L1 & L2).
    apply Bool.negb_true_iff in L3, L4, L5. apply ncname_nc in L1. apply Bool.eqb_prop in L6. split; [reflexivity|]. split; [right; rewrite <- J; reflexivity|]. split; [|right; split; [exact L1|intros ->; discriminate L4]].
    split; [apply brace_free; exact L2|]. split; [intros F; rewrite F in L5; discriminate L5|]. split; [|intros ->; discriminate L3].
    split; [intros ->; symmetry in L6; apply str_eqb_spec in L6; exact L6|]. intros ->. change (str_eqb xml_space xml_uri) with true in L6. apply str_eqb_spec in L6. exact L6.
Qed.
Lemma split_ne s : split_on 58 s <> [].
Proof. pose proof (join_split 58 s) as J. intros E. rewrite E in J. destruct s; [discriminate E|discriminate J]. Qed.
Lemma declares_not k v env k' : declares k v = Some None -> expand env true k = Some k' -> forall p, ~ declares_prefix k p.
Proof.
  intros H X p [(-> & ->)| ->].
  - unfold declares in H. change (split_on 58 (lit "xmlns")) with [lit "xmlns"] in H. cbv beta iota in H. change (str_eqb (lit "xmlns") (lit "xmlns")) with true in H. cbv iota in H. match type of H with (if ?b then _ else _) = _ => destruct b; discriminate H end.
  - assert (E : split_on 58 (lit "xmlns:" ++ p) = lit "xmlns" :: split_on 58 p).
    { change (lit "xmlns:" ++ p) with (lit "xmlns" ++ 58%N :: p). apply split_on_app. vm_compute. intuition discriminate. }
    unfold declares in H. unfold expand in X. rewrite E in H, X. pose proof (split_ne p) as Ne. destruct (split_on 58 p) as [|q [|? ?]]; [contradiction| |discriminate X].
    cbv beta iota in H. change (str_eqb (lit "xmlns") (lit "xmlns")) with true in H. cbv iota in H. match type of H with (if ?b then _ else _) = _ => destruct b; discriminate H end.
Qed.
Lemma bindings_inv e a : forall env env' r, bindings a env = Some (env', r) -> (forall k v, In (k, v) r -> exists k', expand e true k = Some k') -> NoDup (map fst a) ->
  others a r /\
  (forall k u p, In (k, u) a -> declares_prefix k p -> lawful p u /\ (k = lit "xmlns" \/ nc_name p /\ u <> []) /\ dict_get str_eqb p env' = Some u) /\
  (forall p, (forall k u, In (k, u) a -> ~ declares_prefix k p) -> dict_get str_eqb p env' = dict_get str_eqb p env).
Proof.
  induction a as [|(k, v) a IH]; intros env env' r H X D; cbn [bindings] in H.
  - apply Some_inj in H. apply pair_inj in H. destruct H as (<- & <-). split; [constructor|]. split; [intros k u p []|reflexivity].
  - cbn [map fst] in D. apply NoDup_cons_iff in D. destruct D as (D1 & D2). destruct (declares k v) as [[(p, u)|]|] eqn:De; [| |discriminate H].
    + destruct (declares_inv k v p u De) as (-> & P & L & K). destruct (IH _ _ _ H X D2) as (O & A & B). split; [exact (ot_declared k v p a r P O)|].
      assert (U : forall k' u', In (k', u') a -> ~ declares_prefix k' p).
      { intros k' u' I1 P'. apply D1. assert (k' = k); [|subst k'; exact (in_map fst _ _ I1)]. destruct (A k' u' p I1 P') as (_ & K' & _).
        destruct K' as [->|(K' & _)]; [|destruct P' as [(_ & ->)| ->]; [destruct K'|]].
        - destruct P' as [(_ & ->)|F]; [|destruct (prefix_length _ F)]. destruct K as [->|(K & _)]; [reflexivity|destruct K].
        - destruct P as [(_ & ->)| ->]; [destruct K'|reflexivity]. }
      split.
      * intros k0 u0 p0 [I0|I0] P0; [|exact (A k0 u0 p0 I0 P0)]. apply pair_inj in I0. destruct I0 as (<- & <-). rewrite <- (prefix_unique k p p0 P P0). split; [exact L|]. split; [exact K|].
        rewrite (B p U). cbn [dict_get]. rewrite str_eqb_refl. reflexivity.
      * intros q Hq. rewrite (B q (fun k0 u0 I0 => Hq k0 u0 (or_intror I0))). cbn [dict_get]. rewrite str_eqb_no; [reflexivity|]. intros ->. exact (Hq k v (or_introl eq_refl) P).
    + destruct (bindings a env) as [(e0, r0)|] eqn:Bi; [|discriminate H]. apply Some_inj in H. apply pair_inj in H. destruct H as (<- & <-).
      destruct (X k v (or_introl eq_refl)) as (k' & Xk). pose proof (declares_not k v e k' De Xk) as Nd. destruct (IH _ _ _ Bi (fun k1 v1 I1 => X k1 v1 (or_intror I1)) D2) as (O & A & B).
      split; [exact (ot_kept k v a r0 Nd O)|]. split.
      * intros k0 u0 p0 [I0|I0] P0; [|exact (A k0 u0 p0 I0 P0)]. apply pair_inj in I0. destruct I0 as (<- & <-). destruct (Nd p0 P0).
      * intros q Hq. exact (B q (fun k0 u0 I0 => Hq k0 u0 (or_intror I0))).
Qed.
(* no attribute is given twice *)
Inductive plain : xml -> Prop := pl : forall t a txt kids, NoDup (map fst a) -> Forall plain kids -> plain (Elem t a txt kids).
Lemma resolve_inv x : plain x -> forall env sc y, agree env sc -> resolve env x = Some y -> means sc x y.
Proof.
  induction x as [t a txt kids IH] using xml_induction. intros Pl env sc y Ag H. inversion Pl as [t0 a0 txt0 kids0 D Pk E1]; subst. clear Pl. cbn [resolve] in H.
  destruct (bindings a env) as [(env', r)|] eqn:Bi; [|discriminate H]. destruct (expand env' false t) as [t'|] eqn:Et; [|discriminate H]. destruct (expand_all env' r) as [a'|] eqn:Ea; [|discriminate H].
  destruct (expand_all_inv env' r a' Ea) as (F & D' & X). destruct (bindings_inv env' a env env' r Bi X D) as (O & A & B).
  match type of H with match ?l with _ => _ end = _ => destruct l as [kids'|] eqn:Ek end; [|discriminate H]. apply Some_inj in H. subst y.
  apply (me_elem sc (fun p => dict_get str_eqb p env')) with (r := r); [exact A| |apply expand_inv; exact Et|exact O|exact F|exact D'|].
  - intros p Hp. rewrite (B p Hp). apply Ag.
  - clear - IH Pk Ek. revert kids' Ek. induction kids as [|k kids IHk]; intros kids' Ek; [apply Some_inj in Ek; subst; constructor|].
    destruct (resolve env' k) as [z|] eqn:Ez; [|discriminate Ek]. match type of Ek with match ?l with _ => _ end = _ => destruct l as [zs|] eqn:Ezs end; [|discriminate Ek]. apply Some_inj in Ek. subst kids'.
    constructor; [|exact (IHk (Forall_inv_tail IH) (Forall_inv_tail Pk) zs eq_refl)]. apply (Forall_inv IH (Forall_inv Pk) env'); [intros p; reflexivity|exact Ez].
Qed.
Scheme element_ind2 := Minimality for element Sort Prop with content_ind2 := Minimality for content Sort Prop.
Lemma element_plain e x : element e x -> plain x.
Proof.
  apply (element_ind2 (fun _ x => plain x) (fun _ _ l => Forall plain l)); intros; try assumption; try constructor; try assumption. constructor.
Qed.

(* ---- texts ---- *)
Theorem says_parse txt x : xml_parse txt = Some x -> says txt x.
Proof.
  unfold xml_parse, read_markup. intros H. destruct (undeclared (eol (drop_bom txt))) as [s'|] eqn:U; [|discriminate H]. apply undeclared_inv in U. destruct U as (d & E & Dd).
  assert (R := run_inv s' [] (Before, [])). cbn [app inv] in R. specialize (R (conj eq_refl mi_nil)).
  destruct (fold_left step s' (Before, [])) as (m, fs). destruct m; try discriminate H. cbn [inv] in R. destruct R as (_ & m & e & m' & -> & M & El & M').
  assert (Bom : exists bom, txt = bom ++ drop_bom txt /\ (bom = [] \/ bom = [65279%N])).
  { destruct txt as [|c txt]; [exists []; split; [reflexivity|left; reflexivity]|]. cbn [drop_bom]. destruct (N.eqb_spec c 65279) as [->|]; [exists [65279%N]; split; [reflexivity|right; reflexivity]|exists []; split; [reflexivity|left; reflexivity]]. }
  destruct Bom as (bom & Eb & Hb). exists bom, (drop_bom txt), (eol (drop_bom txt)), x0, (fun p => dict_get str_eqb p [(lit "xml", xml_uri)]).
  split; [exact Eb|]. split; [exact Hb|]. split; [apply eol_fed|]. split; [exists d, m, e, m'; split; [exact E|]; split; [exact Dd|]; split; [exact M|]; split; assumption|]. split.
  - split; [reflexivity|]. intros p Np. cbn [dict_get]. rewrite str_eqb_no by exact Np. reflexivity.
  - apply (resolve_inv x0 (element_plain e x0 El) [(lit "xml", xml_uri)]); [intros p; reflexivity|exact H].
Qed.
Theorem parse_iff txt x : xml_parse txt = Some x <-> says txt x.
Proof. split; [apply says_parse|apply parse_says]. Qed.

(* ---- bodies ---- *)
Lemma named_utf8 n : str_eqb (map lower n) (lit "utf-8") = true -> utf8_name n.
Proof.
  intros H. apply str_eqb_spec in H. unfold utf8_name. rewrite <- H. clear H. induction n as [|c n IH]; [constructor|]. cbn [map]. constructor; [|exact IH].
  unfold lower. destruct (N.leb 65 c && N.leb c 90)%bool eqn:E; [right; lia|left; reflexivity].
Qed.
(* the encoding a text announces is the one that is looked at *)
Lemma announced_named txt x n : says txt x -> announces txt n -> named_encoding (eol (drop_bom txt)) = Some n.
Proof.
  intros (bom0 & body0 & s0 & y & sc & E0 & Hb0 & L0 & M & _) (bom & body & s & v & m & e & r & E & Hb & L & Es & V & Ve).
  assert (D : drop_bom txt = body).
  { rewrite E. destruct Hb as [-> | ->]; [|reflexivity]. cbn [app]. destruct body as [|d body]; [reflexivity|]. cbn [drop_bom]. destruct (N.eqb_spec d 65279) as [->|_]; [|reflexivity].
    exfalso. subst s. inversion L; subst; discriminate. }
  rewrite D, (eol_line_fed body s L), Es. unfold named_encoding. rewrite after_word_app. rewrite (pseudo_set (lit "version") m v (e ++ r)); [|intros c t Ec; apply cons_inj in Ec; destruct Ec as (<- & _); unfold space; cbv; intuition discriminate|discriminate|exact V].
  rewrite (pseudo_set (lit "encoding") n e r); [reflexivity|intros c t Ec; apply cons_inj in Ec; destruct Ec as (<- & _); unfold space; cbv; intuition discriminate|discriminate|exact Ve].
Qed.
Theorem body_iff b x : body_tree b = Some x <-> exists txt, utf8_decode b = Ok txt /\ says txt x /\ (forall n, announces txt n -> utf8_name n).
Proof.
  split; [|intros (txt & E & S1 & A); exact (body_read b txt x E S1 A)]. unfold body_tree. destruct (utf8_decode b) as [txt|] eqn:E; [|discriminate]. intros H. exists txt. split; [reflexivity|].
  assert (P : xml_parse txt = Some x) by (destruct (named_encoding (eol (drop_bom txt))) as [n|]; [destruct (str_eqb (map lower n) (lit "utf-8")); [exact H|discriminate H]|exact H]).
  apply says_parse in P. split; [exact P|]. intros n A. rewrite (announced_named txt x n P A) in H. apply named_utf8. destruct (str_eqb (map lower n) (lit "utf-8")); [reflexivity|discriminate H].
Qed.
