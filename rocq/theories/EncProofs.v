(* Proofs about message encryption: matchers and the text of a part. *)
From Coq Require Import Lia ZifyBool ZifyNat ZifyN.
From Verif Require Import Base BaseProofs Lit NumModel NumProofs ReModel ReProofs EncModel EncSpec.
Ltac Zify.zify_post_hook ::= Z.div_mod_to_equations.

Lemma byte_space_iff c : byte_space c = true <-> blank_byte c.
Proof.
  unfold byte_space, blank_byte. split.
  - intros H.
    assert (E : (c = 9 \/ c = 10 \/ c = 11 \/ c = 12 \/ c = 13 \/ c = 32)%N) by lia.
    cbn [In]. intuition congruence.
  - cbn [In]. intros H. assert (E : (c = 9 \/ c = 10 \/ c = 11 \/ c = 12 \/ c = 13 \/ c = 32)%N) by (intuition congruence).
    lia.
Qed.

Lemma m_after_blanks_some k s n : m_after_blanks k s = Some n ->
  exists bl r j, Forall blank_byte bl /\ s = bl ++ r /\ k r = Some j /\ n = length bl + j.
Proof.
  revert n; induction s as [|c s IH]; intros n H; cbn [m_after_blanks] in H.
  - exists [], [], n. repeat split; [constructor|exact H].
  - destruct (byte_space c) eqn:Ec.
    + destruct (m_after_blanks k s) as [n'|].
      * destruct (IH n' eq_refl) as (bl & r & j & H1 & -> & H3 & ->).
        exists (c :: bl), r, j. split; [constructor; [now apply byte_space_iff|exact H1]|].
        split; [reflexivity|]. split; [exact H3|]. cbn [length]. assert (S (length bl + j) = n) by congruence. lia.
      * exists [], (c :: s), n. repeat split; [constructor|exact H].
    + exists [], (c :: s), n. repeat split; [constructor|exact H].
Qed.

Lemma m_after_blanks_none k bl r : Forall blank_byte bl -> m_after_blanks k (bl ++ r) = None -> k r = None.
Proof.
  induction bl as [|c bl IH]; intros Hb H; cbn [app] in H.
  - destruct r as [|c r]; cbn [m_after_blanks] in H; [exact H|].
    destruct (byte_space c); [|exact H]. destruct (m_after_blanks k r); [discriminate|exact H].
  - cbn [m_after_blanks] in H. pose proof (Forall_inv Hb) as Hc. apply byte_space_iff in Hc. rewrite Hc in H.
    apply IH; [exact (Forall_inv_tail Hb)|].
    destruct (m_after_blanks k (bl ++ r)); [discriminate|reflexivity].
Qed.

Lemma m_delim_some boundary s n : m_delim boundary s = Some n ->
  exists d r, s = d ++ r /\ delimiter boundary d /\ n = length d.
Proof.
  unfold m_delim. destruct (after (lit "--") s) as [s1|] eqn:Ea; [|discriminate].
  apply after_spec in Ea. destruct (m_after_blanks _ s1) as [k|] eqn:Em; [|discriminate].
  intros H. assert (Hn : 2 + k = n) by congruence.
  destruct (m_after_blanks_some _ _ _ Em) as (bl & r & j & Hb & -> & Hk & ->).
  apply m_lit_spec in Hk. destruct Hk as [-> [t ->]].
  exists (lit "--" ++ bl ++ boundary ++ newline), t. split; [|split].
  - rewrite Ea. unfold newline, crlf. now rewrite <- !app_assoc.
  - exists bl. split; [exact Hb|reflexivity].
  - rewrite <- Hn. unfold newline, crlf. rewrite !app_length. reflexivity.
Qed.

Lemma m_delim_none boundary d r : delimiter boundary d -> m_delim boundary (d ++ r) <> None.
Proof.
  intros (bl & Hb & ->) H. unfold m_delim in H.
  destruct (after (lit "--") ((lit "--" ++ bl ++ boundary ++ newline) ++ r)) as [s1|] eqn:Ea.
  - apply after_spec in Ea. rewrite <- !app_assoc in Ea. apply app_inv_head in Ea. subst s1.
    destruct (m_after_blanks _ _) as [n|] eqn:Em; [discriminate|].
    apply m_after_blanks_none in Em; [|exact Hb].
    apply (proj1 (m_lit_none _ _) Em r). unfold newline, crlf. now rewrite <- !app_assoc.
  - apply (proj1 (after_none _ _) Ea (bl ++ boundary ++ newline ++ r)). now rewrite <- !app_assoc.
Qed.

(* cutting at the delimiters is what the scan computes *)
Lemma split_cut boundary s : cut_at (delimiter boundary) s (re_split (m_delim boundary) 0 s).
Proof.
  remember (length s) as n eqn:E. revert s E.
  induction n as [n IHn] using lt_wf_ind; intros s E.
  assert (D : (quiet (m_delim boundary) s []) \/
    exists p rest, s = p ++ rest /\ quiet (m_delim boundary) p rest /\ m_delim boundary rest <> None).
  { clear. induction s as [|c s IH].
    - left. apply quiet_nil.
    - destruct (m_delim boundary (c :: s)) eqn:Em.
      + right. exists [], (c :: s). split; [reflexivity|]. split; [apply quiet_nil|congruence].
      + destruct IH as [H|(p & rest & -> & Hq & Hm)].
        * left. apply quiet_cons. split; [now rewrite app_nil_r|exact H].
        * right. exists (c :: p), rest. split; [reflexivity|]. split; [|exact Hm].
          apply quiet_cons. split; [exact Em|exact Hq]. }
  destruct D as [Hq|(p & rest & -> & Hq & Hm)].
  - rewrite re_split_none by exact Hq. apply cut_last. intros a d b Hs Hd.
    assert (Hne : d ++ b <> []) by (destruct Hd as (bl & _ & ->); discriminate).
    specialize (Hq a (d ++ b) Hs Hne). rewrite app_nil_r in Hq. revert Hq. now apply m_delim_none.
  - destruct (m_delim boundary rest) as [k|] eqn:Ek; [|congruence].
    destruct (m_delim_some _ _ _ Ek) as (d & r & -> & Hd & ->).
    assert (Hlen : exists k', length d = S k').
    { destruct Hd as (bl & _ & ->). cbn. eexists. reflexivity. }
    destruct Hlen as [k' Hk']. rewrite Hk' in Ek.
    rewrite (re_split_step _ p (d ++ r) k' Hq Ek) by (rewrite app_length; lia).
    rewrite <- Hk', skipn_app_length.
    apply cut_next; [exact Hd| |].
    + intros a c d' b Hp Hc Hx Hd'. specialize (Hq a c Hp Hc). rewrite Hx in Hq. revert Hq. now apply m_delim_none.
    + apply (IHn (length r)); [|reflexivity]. rewrite E, !app_length. lia.
Qed.

(* ---- texts without "--" ---- *)
Fixpoint no_dd (s : list N) : bool :=
  match s with
  | [] => true
  | c :: s' =>
      match s' with
      | d :: _ => negb (N.eqb c 45 && N.eqb d 45) && no_dd s'
      | [] => negb (N.eqb c 45)
      end
  end%bool.

Lemma no_dd_app a b : no_dd a = true -> no_dd b = true -> no_dd (a ++ b) = true.
Proof.
  induction a as [|c a IH]; intros Ha Hb; [exact Hb|].
  destruct a as [|d a].
  - cbn [app no_dd] in *. destruct b as [|e b]; [exact Ha|].
    apply andb_true_intro. split; [|exact Hb]. destruct (N.eqb c 45); [discriminate|reflexivity].
  - cbn [app] in *. cbn [no_dd] in Ha. cbn [no_dd]. apply andb_prop in Ha. destruct Ha as [H1 H2].
    apply andb_true_intro. split; [exact H1|]. apply IH; assumption.
Qed.

Lemma no_dd_suffix a c : no_dd (a ++ c) = true -> no_dd c = true.
Proof.
  induction a as [|x a IH]; intros H; [exact H|]. apply IH. cbn [app no_dd] in H.
  destruct (a ++ c) as [|y s]; [reflexivity|]. apply andb_prop in H. apply H.
Qed.

Lemma no_dd_after c rest : c <> [] -> no_dd c = true -> after (lit "--") (c ++ rest) = None.
Proof.
  intros Hc H. apply after_none. intros r E.
  destruct c as [|x c]; [congruence|]. cbn [no_dd] in H. destruct c as [|y c]; cbn [app] in E.
  - injection E as E1 _. subst x. discriminate.
  - injection E as E1 E2 _. subst x y. discriminate.
Qed.

Lemma quiet_no_dd_delim boundary p rest : no_dd p = true -> quiet (m_delim boundary) p rest.
Proof.
  intros H a c -> Hc. unfold m_delim. rewrite no_dd_after; [reflexivity|exact Hc|now apply no_dd_suffix in H].
Qed.

Lemma quiet_no_dd_final boundary p rest : no_dd p = true -> quiet (m_final boundary) p rest.
Proof.
  intros H a c -> Hc. unfold m_final. rewrite no_dd_after; [reflexivity|exact Hc|now apply no_dd_suffix in H].
Qed.

(* ---- the binary content ---- *)
Definition B0 : list N := lit "Encrypted Boundary".
Definition no_dash (s : list N) : Prop := Forall (fun c => c <> 45%N) s.

Lemma blank_no_dash bl : Forall blank_byte bl -> no_dash bl.
Proof.
  intros H. eapply Forall_impl; [|exact H]. intros c Hc ->. apply byte_space_iff in Hc. discriminate.
Qed.

Lemma B0_no_dash : no_dash B0.
Proof.
  apply Forall_forall. intros c Hc ->.
  assert (E : existsb (N.eqb 45) B0 = true) by (apply existsb_exists; exists 45%N; split; [exact Hc|reflexivity]).
  vm_compute in E. discriminate.
Qed.

Lemma dashless_prefix D t y r : no_dash D -> y ++ 45%N :: r = D ++ t -> exists z, y = D ++ z.
Proof.
  revert y; induction D as [|c D IH]; intros y HD E; [now exists y|].
  destruct y as [|x y]; cbn [app] in E.
  - injection E as E1 _. exfalso. apply (Forall_inv HD). congruence.
  - injection E as E1 E2. subst x. destruct (IH y (Forall_inv_tail HD) E2) as [z ->]. now exists z.
Qed.

Lemma opaque_suffix a c : opaque (a ++ c) -> opaque c.
Proof.
  intros [H1 H2]. split.
  - intros bl Hb (x & y & E). apply (H1 bl Hb). exists (a ++ x), y. rewrite E; apply app_assoc.
  - intros (x & y & E). apply H2. exists (a ++ x), y. rewrite E; apply app_assoc.
Qed.

Lemma dd_app s : lit "--" ++ s = 45%N :: 45%N :: s. Proof. reflexivity. Qed.

(* a delimiter cannot start in opaque content, whatever follows it on the wire *)
Lemma opaque_overlap c rest bl t :
  opaque c -> c <> [] -> (rest = [] \/ exists r, rest = 45%N :: 45%N :: r) -> Forall blank_byte bl ->
  c ++ rest <> lit "--" ++ bl ++ B0 ++ t.
Proof.
  intros [Ho _] Hc Hr Hb E. rewrite (app_assoc bl) in E.
  assert (HD : no_dash (bl ++ B0)) by (apply Forall_app; split; [now apply blank_no_dash|apply B0_no_dash]).
  destruct Hr as [->|[r ->]].
  - rewrite app_nil_r in E. apply (Ho bl Hb). exists [], t. rewrite E, app_nil_l. fold B0. now rewrite <- !app_assoc.
  - rewrite dd_app in E. destruct c as [|x c]; [congruence|]. destruct c as [|y c]; cbn [app] in E.
    + injection E as _ E2.
      destruct (dashless_prefix (bl ++ B0) t [] r HD E2) as [z Hz].
      destruct bl; discriminate.
    + injection E as Ex Ey E1. subst x y.
      destruct (dashless_prefix (bl ++ B0) t c (45%N :: r) HD E1) as [z ->].
      apply (Ho bl Hb). exists [], z. rewrite app_nil_l. fold B0.
      change (45%N :: 45%N :: (bl ++ B0) ++ z) with (lit "--" ++ (bl ++ B0) ++ z). now rewrite <- !app_assoc.
Qed.

Definition dash_start (rest : list N) : Prop := rest = [] \/ exists r, rest = 45%N :: 45%N :: r.

Lemma quiet_opaque_delim x rest : opaque x -> dash_start rest -> quiet (m_delim B0) x rest.
Proof.
  intros Ho Hr a c -> Hc. destruct (m_delim B0 (c ++ rest)) as [n|] eqn:E; [|reflexivity]. exfalso.
  destruct (m_delim_some _ _ _ E) as (d & r & E2 & (bl & Hb & ->) & _).
  apply (opaque_overlap c rest bl (newline ++ r)); [now apply opaque_suffix in Ho|exact Hc|exact Hr|exact Hb|].
  rewrite E2. now rewrite <- !app_assoc.
Qed.

Lemma m_final_some boundary s n : m_final boundary s = Some n ->
  exists bl r, Forall blank_byte bl /\ s = lit "--" ++ bl ++ boundary ++ lit "--" ++ newline ++ r /\ (r = [] \/ r = [10%N]).
Proof.
  unfold m_final. destruct (after (lit "--") s) as [s1|] eqn:Ea; [|discriminate].
  apply after_spec in Ea. destruct (m_after_blanks _ s1) as [k|] eqn:Em; [|discriminate].
  intros _. destruct (m_after_blanks_some _ _ _ Em) as (bl & r & j & Hb & -> & Hk & ->).
  unfold m_lit_end in Hk. destruct (after _ r) as [t|] eqn:Er; [|discriminate]. apply after_spec in Er. subst r s.
  exists bl, t. split; [exact Hb|]. split; [unfold newline, crlf; now rewrite <- !app_assoc|].
  destruct t as [|y [|]]; [now left| |discriminate].
  destruct (N.eqb_spec y 10) as [->|]; [now right|discriminate].
Qed.

Lemma quiet_opaque_final x rest : opaque x -> dash_start rest -> quiet (m_final B0) x rest.
Proof.
  intros Ho Hr a c -> Hc. destruct (m_final B0 (c ++ rest)) as [n|] eqn:E; [|reflexivity]. exfalso.
  destruct (m_final_some _ _ _ E) as (bl & r & Hb & E2 & _).
  apply (opaque_overlap c rest bl (lit "--" ++ newline ++ r)); [now apply opaque_suffix in Ho|exact Hc|exact Hr|exact Hb|].
  exact E2.
Qed.

Lemma quiet_opaque_octet x : opaque x -> quiet (m_lit octet_stream) x [].
Proof.
  intros Ho a c -> Hc. apply m_lit_none. rewrite app_nil_r. intros r E.
  apply opaque_suffix in Ho. destruct Ho as [_ Ho]. apply Ho. exists [], r. rewrite E. reflexivity.
Qed.

(* ---- the pieces of a body ---- *)
Definition Mline : list N := lit "--Encrypted Boundary" ++ newline.
Definition Fin : list N := lit "--Encrypted Boundary--" ++ newline.
Definition head_text (proto digits : list N) : list N :=
  lit "	Content-Type: " ++ proto ++ newline ++
  lit "	OriginalContent: type=application/soap+xml;charset=UTF-8;Length=" ++ digits ++ newline.

Lemma m_delim_Mline s : m_delim B0 (Mline ++ s) = Some (length Mline).
Proof. reflexivity. Qed.

Lemma split_Mline s : re_split (m_delim B0) 0 (Mline ++ s) = [] :: re_split (m_delim B0) 0 s.
Proof.
  assert (E : length Mline = S 21) by reflexivity.
  rewrite (re_split_here _ (Mline ++ s) 21) by (try (rewrite app_length, E; lia); rewrite m_delim_Mline, E; reflexivity).
  rewrite <- E, skipn_app_length. reflexivity.
Qed.

Lemma split_quiet_Mline p s : quiet (m_delim B0) p (Mline ++ s) ->
  re_split (m_delim B0) 0 (p ++ Mline ++ s) = p :: re_split (m_delim B0) 0 s.
Proof.
  intros Hq. rewrite re_split_quiet by exact Hq. rewrite split_Mline. now rewrite app_nil_r.
Qed.

Lemma digits_no_dd s : Forall (fun c => (48 <= c <= 57)%N) s -> no_dd s = true.
Proof.
  induction 1 as [|c s Hc Hs IH]; [reflexivity|]. cbn [no_dd].
  assert (Ec : N.eqb c 45 = false) by lia. rewrite Ec. destruct s; [reflexivity|]. exact IH.
Qed.

Lemma proto_no_dd proto : In proto protocols -> no_dd proto = true.
Proof. intros [<-|[<-|[<-|[]]]]; reflexivity. Qed.

Lemma head_no_dd proto digits : In proto protocols -> Forall (fun c => (48 <= c <= 57)%N) digits ->
  no_dd (head_text proto digits) = true.
Proof.
  intros Hp Hd. unfold head_text.
  apply no_dd_app; [reflexivity|]. apply no_dd_app; [now apply proto_no_dd|].
  apply no_dd_app; [reflexivity|]. apply no_dd_app; [reflexivity|].
  apply no_dd_app; [now apply digits_no_dd|reflexivity].
Qed.

Lemma quiet_fin : quiet (m_delim B0) Fin [].
Proof.
  assert (H : forall s, (fix all (s : list N) : bool :=
     match s with [] => true | _ :: s' => match m_delim B0 s with None => all s' | _ => false end end) s = true ->
     quiet (m_delim B0) s []).
  { induction s as [|c s IH]; intros H; [apply quiet_nil|]. apply quiet_cons. rewrite app_nil_r.
    destruct (m_delim B0 (c :: s)); [discriminate|]. split; [reflexivity|]. now apply IH. }
  apply H. vm_compute. reflexivity.
Qed.

Record raw := { r_digits : list N; r_binary : list N }.
Definition raw_ok (p : raw) : Prop := Forall (fun c => (48 <= c <= 57)%N) (r_digits p) /\ opaque (r_binary p).
Definition raw_text (proto : list N) (p : raw) : list N :=
  Mline ++ head_text proto (r_digits p) ++ Mline ++ octet_stream ++ r_binary p.

Fixpoint pieces_of (proto : list N) (ps : list raw) : list (list N) :=
  match ps with
  | [] => []
  | [p] => [head_text proto (r_digits p); octet_stream ++ r_binary p ++ Fin]
  | p :: ps' => head_text proto (r_digits p) :: (octet_stream ++ r_binary p) :: pieces_of proto ps'
  end.

Lemma octet_no_dd : no_dd octet_stream = true. Proof. reflexivity. Qed.

Lemma split_raw proto ps : In proto protocols -> Forall raw_ok ps -> ps <> [] ->
  re_split (m_delim B0) 0 (concat (map (raw_text proto) ps) ++ Fin) = [] :: pieces_of proto ps.
Proof.
  intros Hp. induction ps as [|p ps IH]; intros Hok Hne; [congruence|].
  destruct (Forall_inv Hok) as [Hd Ho]. apply Forall_inv_tail in Hok.
  cbn [map concat]. unfold raw_text at 1. rewrite <- !app_assoc.
  rewrite split_Mline. f_equal.
  rewrite split_quiet_Mline by (apply quiet_no_dd_delim; now apply head_no_dd).
  destruct ps as [|p' ps].
  - cbn [map concat app pieces_of]. f_equal.
    rewrite re_split_none; [reflexivity|].
    apply quiet_app; [apply quiet_no_dd_delim, octet_no_dd|].
    apply quiet_app; [|apply quiet_fin]. rewrite app_nil_r.
    apply quiet_opaque_delim; [exact Ho|]. right. eexists. reflexivity.
  - specialize (IH Hok ltac:(discriminate)).
    cbn [pieces_of]. cbn [pieces_of] in IH. f_equal.
    rewrite app_assoc. rewrite re_split_quiet.
    + rewrite IH. rewrite app_nil_r. reflexivity.
    + cbn [map concat]. unfold raw_text at 1. rewrite <- !app_assoc.
      apply quiet_app; [apply quiet_no_dd_delim, octet_no_dd|].
      apply quiet_opaque_delim; [exact Ho|]. right. eexists. reflexivity.
Qed.

Lemma pieces_nonempty proto ps : filter nonempty (pieces_of proto ps) = pieces_of proto ps.
Proof.
  induction ps as [|p ps IH]; [reflexivity|]. destruct ps as [|p' ps]; [reflexivity|].
  change (pieces_of proto (p :: p' :: ps)) with
    (head_text proto (r_digits p) :: (octet_stream ++ r_binary p) :: pieces_of proto (p' :: ps)).
  cbn [filter].
  change (nonempty (head_text proto (r_digits p))) with true.
  change (nonempty (octet_stream ++ r_binary p)) with true. cbv iota. now rewrite IH.
Qed.
