(* The reader reads every text the grammar allows: namespaces, and texts. *)
From Coq Require Import Lia ZifyBool ZifyNat ZifyN.
From Verif Require Import Base BaseProofs Lit NumModel NumProofs TextModel TextSpec XmlModel XtModel XtSpec XtProofs XtProofs2 XtProofs3 XgSpec XgProofs.
Local Open Scope list_scope.

Definition agree (env : list (list N * list N)) (sc : scope) : Prop := forall p, dict_get str_eqb p env = sc p.

Lemma split_two p l : nc_name p -> nc_name l -> split_on 58 (p ++ [58%N] ++ l) = [p; l].
Proof. intros P L. cbn [app]. rewrite split_on_app by (apply colon_free, P). rewrite split_on_free by (apply colon_free, L). reflexivity. Qed.
Lemma expand_names env sc b n n' : agree env sc -> names sc b n n' -> expand env b n = Some n'.
Proof.
  intros A H. unfold expand. destruct H as [n u W E Ne|n W E|n W|b p l u Wp Wl E].
  - rewrite (split_on_free 58 n (colon_free n W)), (nc_ncname n W), (A []), E. destruct u; [congruence|reflexivity].
  - rewrite (split_on_free 58 n (colon_free n W)), (nc_ncname n W), (A []). destruct E as [-> | ->]; reflexivity.
  - rewrite (split_on_free 58 n (colon_free n W)), (nc_ncname n W). reflexivity.
  - rewrite (split_two p l Wp Wl), (nc_ncname p Wp), (nc_ncname l Wl), (A p), E. reflexivity.
Qed.
Lemma expand_all_names env sc r a' : agree env sc -> Forall2 (fun e f => names sc true (fst e) (fst f) /\ snd e = snd f) r a' -> NoDup (map fst a') -> expand_all env r = Some a'.
Proof.
  intros A. induction 1 as [|[k v] [k' v'] r a' (H1 & H2) _ IH]; intros D; [reflexivity|]. cbn [fst snd map] in *. subst v'. apply NoDup_cons_iff in D. destruct D as (D1 & D2).
  cbn [expand_all]. rewrite (expand_names env sc true k k' A H1), (IH D2), (dict_get_none_app k' a' D1). reflexivity.
Qed.
Lemma no_brace_spec u : ~ In 125%N u -> no_brace u = true.
Proof. intros H. apply forallb_forall. intros c Hc. destruct (N.eqb_spec c 125) as [-> |_]; [contradiction|reflexivity]. Qed.
Lemma str_eqb_no (a b : list N) : a <> b -> str_eqb a b = false.
Proof. intros H. destruct (str_eqb a b) eqn:E; [apply str_eqb_spec in E; contradiction|reflexivity]. Qed.
Lemma declares_lawful k p u : declares_prefix k p -> lawful p u -> k = lit "xmlns" \/ nc_name p /\ u <> [] -> declares k u = Some (Some (p, u)).
Proof.
  intros D (L1 & L2 & L3 & L4) H. unfold declares.
  assert (K : k = lit "xmlns" -> p = []).
  { intros ->. destruct D as [(_ & E)|E]; [exact E|]. destruct p; [reflexivity|]. exfalso. apply (f_equal (@length N)) in E. rewrite app_length in E. cbn [length] in E. change (length (lit "xmlns")) with 5%nat in E. change (length (lit "xmlns:")) with 6%nat in E. lia. }
  destruct H as [-> |(Hp & Hu)].
  - specialize (K eq_refl). subst p. change (split_on 58 (lit "xmlns")) with [lit "xmlns"]. change (str_eqb (lit "xmlns") (lit "xmlns")) with true. cbv iota.
    rewrite (no_brace_spec u L1), (str_eqb_no u xml_uri), (str_eqb_no u xmlns_uri L2); [reflexivity|]. intros E. apply L3 in E. discriminate E.
  - destruct D as [(_ & ->)| ->]; [destruct Hp|]. change (lit "xmlns:") with (lit "xmlns" ++ [58%N]). rewrite <- app_assoc.
    rewrite split_two; [|vm_compute; repeat constructor; intuition discriminate|exact Hp]. change (str_eqb (lit "xmlns") (lit "xmlns")) with true. cbv iota.
    rewrite (nc_ncname p Hp), (no_brace_spec u L1), (str_eqb_no p (lit "xmlns") L4), (str_eqb_no u [] Hu), (str_eqb_no u xmlns_uri L2). cbn [andb negb].
    assert (E : Bool.eqb (str_eqb p (lit "xml")) (str_eqb u xml_uri) = true).
    { destruct (str_eqb p (lit "xml")) eqn:E1.
      - apply str_eqb_spec in E1. apply L3 in E1. subst u. reflexivity.
      - destruct (str_eqb u xml_uri) eqn:E2; [|reflexivity]. apply str_eqb_spec in E2. apply L3 in E2. subst p. discriminate E1. }
    rewrite E. reflexivity.
Qed.
Lemma declares_other k u : (forall p, ~ declares_prefix k p) -> declares k u = Some None.
Proof.
  intros H. unfold declares. pose proof (join_split 58 k) as J. destruct (split_on 58 k) as [|d [|p [|? ?]]]; try reflexivity.
  - cbn [join] in J. subst d. rewrite str_eqb_no; [reflexivity|]. intros E. apply (H []). left. split; [exact E|reflexivity].
  - cbn [join] in J. rewrite str_eqb_no; [reflexivity|]. intros E. apply (H p). right. rewrite <- J, E. reflexivity.
Qed.
Lemma bindings_others a r : others a r -> forall env sc sc', agree env sc ->
  (forall k u p, In (k, u) a -> declares_prefix k p -> lawful p u /\ (k = lit "xmlns" \/ nc_name p /\ u <> []) /\ sc' p = Some u) ->
  (forall p, (forall k u, In (k, u) a -> ~ declares_prefix k p) -> sc' p = sc p) ->
  exists env', bindings a env = Some (env', r) /\ agree env' sc'.
Proof.
  induction 1 as [|k u p a r D _ IH|k u a r H _ IH]; intros env sc sc' A H1 H2.
  - exists env. split; [reflexivity|]. intros p. rewrite (A p). symmetry. apply H2. intros k u [].
  - cbn [bindings]. destruct (H1 k u p (or_introl eq_refl) D) as (L & K & E). rewrite (declares_lawful k p u D L K).
    destruct (IH ((p, u) :: env) (fun q => if str_eqb q p then Some u else sc q) sc') as (env' & E' & A').
    + intros q. cbn [dict_get]. destruct (str_eqb q p); [reflexivity|apply A].
    + intros k' u' p' I1 D'. exact (H1 k' u' p' (or_intror I1) D').
    + intros q Hq. destruct (str_eqb q p) eqn:Eq; [apply str_eqb_spec in Eq; subst q; exact E|]. apply H2. intros k' u' [I1|I1] D'; [|exact (Hq k' u' I1 D')].
      apply pair_inj in I1. destruct I1 as (<- & <-). destruct (H1 k u q (or_introl eq_refl) D') as (_ & K' & E'). 
      assert (q = p); [|subst q; rewrite str_eqb_refl in Eq; discriminate Eq].
      destruct D as [(-> & ->)| ->], D' as [(F & ->)|F]; try reflexivity.
      * apply (f_equal (@length N)) in F. rewrite app_length in F. change (length (lit "xmlns")) with 5%nat in F. change (length (lit "xmlns:")) with 6%nat in F. lia.
      * apply (f_equal (@length N)) in F. rewrite app_length in F. change (length (lit "xmlns")) with 5%nat in F. change (length (lit "xmlns:")) with 6%nat in F. lia.
      * apply app_inv_head in F. symmetry. exact F.
    + exists env'. split; [exact E'|exact A'].
  - cbn [bindings]. rewrite (declares_other k u H).
    destruct (IH env sc sc' A) as (env' & E' & A').
    + intros k' u' p' I1. exact (H1 k' u' p' (or_intror I1)).
    + intros p Hp. apply H2. intros k' u' [I1|I1] D'; [|exact (Hp k' u' I1 D')]. apply pair_inj in I1. destruct I1 as (<- & <-). exact (H p D').
    + exists env'. rewrite E'. split; [reflexivity|exact A'].
Qed.
Lemma resolve_means x : forall env sc y, agree env sc -> means sc x y -> resolve env x = Some y.
Proof.
  induction x as [t a txt kids IH] using xml_induction. intros env sc y A M. inversion M as [sc0 sc' t0 a0 txt0 kids0 t' r a' kids' H1 H2 H3 H4 H5 H6 H7]. subst. cbn [resolve].
  destruct (bindings_others a r H4 env sc sc' A H1 H2) as (env' & E & A'). rewrite E, (expand_names env' sc' false t t' A' H3), (expand_all_names env' sc' r a' A' H5 H6).
  assert (K : (fix all (l : list xml) : option (list xml) :=
                   match l with
                   | [] => Some []
                   | y :: l' => match resolve env' y, all l' with Some z, Some r => Some (z :: r) | _, _ => None end
                   end) kids = Some kids').
  { clear - IH H7 A'. revert IH. induction H7 as [|x y l l' Hx _ IHl]; intros IH; [reflexivity|]. rewrite (Forall_inv IH env' sc' y A' Hx), (IHl (Forall_inv_tail IH)). reflexivity. }
  rewrite K. reflexivity.
Qed.

(* ---- line ends ---- *)
Lemma eol_line_fed s t : line_fed s t -> eol s = t.
Proof.
  induction 1 as [|c s t Hc _ IH|s t _ IH|s t Hs _ IH]; [reflexivity| | |].
  - cbn [eol]. destruct (N.eqb_spec c 13) as [-> |_]; [congruence|]. rewrite IH. reflexivity.
  - cbn [eol]. change (N.eqb 13 13) with true. change (N.eqb 10 10) with true. cbv iota. rewrite IH. reflexivity.
  - cbn [eol]. change (N.eqb 13 13) with true. cbv iota. destruct s as [|d s]; [cbn [eol] in IH; rewrite <- IH; reflexivity|].
    destruct (N.eqb_spec d 10) as [-> |_]; [exfalso; exact (Hs s eq_refl)|]. rewrite IH. reflexivity.
Qed.
Theorem parse_says txt x : says txt x -> xml_parse txt = Some x.
Proof.
  intros (bom & body & s & y & sc & -> & Hb & L & M & (O1 & O2) & Me). unfold xml_parse, read_markup.
  destruct (markup_read s y M) as (s' & U & R & c & t & Es & Nc).
  assert (D : drop_bom (bom ++ body) = body).
  { destruct Hb as [-> | ->]; [|reflexivity]. cbn [app]. destruct body as [|d body]; [reflexivity|]. cbn [drop_bom]. destruct (N.eqb_spec d 65279) as [-> |_]; [|reflexivity].
    exfalso. subst s. inversion L; subst; congruence. }
  rewrite D, (eol_line_fed body s L), U. fold run. rewrite R. apply (resolve_means y _ sc); [|exact Me].
  intros p. cbn [dict_get]. destruct (str_eqb p (lit "xml")) eqn:E; [apply str_eqb_spec in E; subst p; symmetry; exact O1|]. symmetry. apply O2. intros ->. discriminate E.
Qed.
