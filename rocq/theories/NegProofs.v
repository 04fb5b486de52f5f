(* Lemmas about scheme selection and the token exchange. *)
From Verif Require Import Base BaseProofs Lit NumModel TextModel TextSpec TextProofs NegModel NegSpec.
Require Import Lia ZifyBool ZifyNat ZifyN.

(* ---- names ---- *)
Definition ascii_text (s : list N) : Prop := Forall (fun c => (c < 128)%N) s.
Lemma forall2_length {A B} (R : A -> B -> Prop) l r : Forall2 R l r -> length l = length r.
Proof. intros F. induction F; cbn [length]; congruence. Qed.
Lemma names_ascii name : In name [negotiate; kerberos; ntlm] -> ascii_text name.
Proof. intros [<-|[<-|[<-|[]]]]; unfold ascii_text; vm_compute; repeat constructor. Qed.

Lemma letter_low x y : (x < 128)%N -> (N.eqb (low1 x) (if N.ltb y 128 then low1 y else y) = true <-> same_letter x y).
Proof.
  intros L. unfold low1, same_letter. destruct (N.ltb_spec y 128).
  - replace (N.leb 192 x && N.leb x 222 && negb (N.eqb x 215))%bool with false by lia.
    replace (N.leb 192 y && N.leb y 222 && negb (N.eqb y 215))%bool with false by lia.
    destruct (N.leb 65 x && N.leb x 90)%bool eqn:A; destruct (N.leb 65 y && N.leb y 90)%bool eqn:B; lia.
  - replace (N.leb 192 x && N.leb x 222 && negb (N.eqb x 215))%bool with false by lia.
    destruct (N.leb 65 x && N.leb x 90)%bool eqn:A; lia.
Qed.

Lemma starts_nocase_spec p : ascii_text p -> forall s r,
  starts_nocase p s = Some r <-> exists t, s = t ++ r /\ same_nocase p t.
Proof.
  induction p as [|x p IH]; intros A s r.
  - cbn [starts_nocase]. split.
    + intros E. apply Some_inj in E. subst r. exists []. split; [reflexivity|constructor].
    + intros (t & -> & F). inversion F. reflexivity.
  - pose proof (Forall_inv A) as Ax. pose proof (Forall_inv_tail A) as Ap. destruct s as [|y s].
    + cbn [starts_nocase]. split; [discriminate|]. intros (t & E & F). destruct t as [|z t]; [inversion F|discriminate E].
    + cbn [starts_nocase]. destruct (N.eqb (low1 x) (if N.ltb y 128 then low1 y else y)) eqn:E.
      * apply letter_low in E; [|exact Ax]. rewrite IH by exact Ap. split.
        -- intros (t & -> & F). exists (y :: t). split; [reflexivity|constructor; assumption].
        -- intros (t & Et & F). destruct t as [|z t]; [inversion F|]. exists t.
           assert (Hs : s = t ++ r) by (cbn in Et; congruence). split; [exact Hs|]. inversion F; assumption.
      * split; [discriminate|]. intros (t & Et & F). destruct t as [|z t]; [inversion F|].
        assert (Hz : y = z) by (cbn in Et; congruence). subst z. assert (S : same_letter x y) by (inversion F; assumption).
        apply letter_low in S; [|exact Ax]. congruence.
Qed.

Lemma match_name_here s : match_name s = None <-> ~ name_here s.
Proof.
  unfold match_name. pose proof (starts_nocase_spec _ (names_ascii kerberos ltac:(cbn; auto)) s) as K.
  pose proof (starts_nocase_spec _ (names_ascii negotiate ltac:(cbn; auto)) s) as Ng.
  pose proof (starts_nocase_spec _ (names_ascii ntlm ltac:(cbn; auto)) s) as Nt.
  change (lit "Kerberos") with kerberos. change (lit "Negotiate") with negotiate. change (lit "NTLM") with ntlm.
  destruct (starts_nocase kerberos s) as [r|] eqn:E1.
  { split; [discriminate|]. intros H. exfalso. apply H. destruct (proj1 (K r) eq_refl) as (t & -> & F). exists kerberos, t, r. cbn; auto. }
  destruct (starts_nocase negotiate s) as [r|] eqn:E2.
  { split; [discriminate|]. intros H. exfalso. apply H. destruct (proj1 (Ng r) eq_refl) as (t & -> & F). exists negotiate, t, r. cbn; auto. }
  destruct (starts_nocase ntlm s) as [r|] eqn:E3.
  { split; [discriminate|]. intros H. exfalso. apply H. destruct (proj1 (Nt r) eq_refl) as (t & -> & F). exists ntlm, t, r. cbn; auto. }
  split; [|reflexivity]. intros _ (name & t & r & I & -> & F).
  destruct I as [<-|[<-|[<-|[]]]].
  - pose proof (proj2 (Ng r) (ex_intro _ t (conj eq_refl F))); congruence.
  - pose proof (proj2 (K r) (ex_intro _ t (conj eq_refl F))); congruence.
  - pose proof (proj2 (Nt r) (ex_intro _ t (conj eq_refl F))); congruence.
Qed.

(* the three names differ in their first letter, or the second *)
Lemma match_name_spec name t r : In name [negotiate; kerberos; ntlm] -> same_nocase name t -> match_name (t ++ r) = Some r.
Proof.
  intros I F. unfold match_name.
  pose proof (fun n Hn => starts_nocase_spec n (names_ascii n Hn) (t ++ r)) as SN.
  change (lit "Kerberos") with kerberos. change (lit "Negotiate") with negotiate. change (lit "NTLM") with ntlm.
  assert (Own : starts_nocase name (t ++ r) = Some r) by (apply SN; [exact I|exists t; auto]).
  assert (Kn : forall x y s, same_letter x 75 -> False -> starts_nocase y s = None) by (intros; contradiction). clear Kn.
  assert (First : forall a p s, starts_nocase (a :: p) s <> None -> exists c s', s = c :: s' /\ N.eqb (low1 a) (if N.ltb c 128 then low1 c else c) = true).
  { intros a p [|c s] H; [cbn in H; congruence|]. cbn [starts_nocase] in H. exists c, s. split; [reflexivity|].
    destruct (N.eqb (low1 a) (if N.ltb c 128 then low1 c else c)); [reflexivity|congruence]. }
  destruct I as [<-|[<-|[<-|[]]]].
  - (* Negotiate *) destruct (starts_nocase kerberos (t ++ r)) as [r'|] eqn:K; [|rewrite Own; reflexivity]. exfalso.
    destruct (First 75%N (tl kerberos) (t ++ r)) as (c & s' & E1 & Q1); [change (75%N :: tl kerberos) with kerberos; congruence|].
    destruct (First 78%N (tl negotiate) (t ++ r)) as (c' & s'' & E2 & Q2); [change (78%N :: tl negotiate) with negotiate; congruence|].
    assert (c = c') by congruence. subst c'. apply N.eqb_eq in Q1, Q2. rewrite <- Q1 in Q2. vm_compute in Q2. discriminate Q2.
  - rewrite Own. reflexivity.
  - destruct (starts_nocase kerberos (t ++ r)) as [r'|] eqn:K.
    { exfalso. destruct (First 75%N (tl kerberos) (t ++ r)) as (c & s' & E1 & Q1); [change (75%N :: tl kerberos) with kerberos; congruence|].
      destruct (First 78%N (tl ntlm) (t ++ r)) as (c' & s'' & E2 & Q2); [change (78%N :: tl ntlm) with ntlm; congruence|].
      assert (c = c') by congruence. subst c'. apply N.eqb_eq in Q1, Q2. rewrite <- Q1 in Q2. vm_compute in Q2. discriminate Q2. }
    destruct (starts_nocase negotiate (t ++ r)) as [r'|] eqn:Ng; [|exact Own]. exfalso.
    destruct t as [|x t]; [inversion F|]. destruct t as [|y t]; [inversion F as [|? ? ? ? _ F2]; inversion F2|].
    assert (S2 : same_letter 84 y) by (inversion F as [|? ? ? ? _ F2]; inversion F2; assumption).
    assert (S2' : same_letter 101 y).
    { apply (SN negotiate ltac:(cbn; auto)) in Ng. destruct Ng as (u & Eu & Fu). destruct u as [|u1 u]; [inversion Fu|].
      destruct u as [|u2 u]; [inversion Fu as [|? ? ? ? _ F2]; inversion F2|].
      assert (y = u2) by (cbn in Eu; congruence). subst u2. inversion Fu as [|? ? ? ? _ F2]; inversion F2; assumption. }
    unfold same_letter in S2, S2'. lia.
Qed.

Lemma search_first a name t r : In name [negotiate; kerberos; ntlm] -> same_nocase name t ->
  none_before (length a) (a ++ t ++ r) -> search_token (a ++ t ++ r) = Some (upto_comma (drop_while is_space r)).
Proof.
  intros I F. induction a as [|c a IH]; intros B.
  - cbn [app]. pose proof (match_name_spec name t r I F) as M.
    destruct (t ++ r) as [|x s] eqn:E; [cbn [search_token]; rewrite M; reflexivity|]. cbn [search_token]. rewrite M. reflexivity.
  - cbn [app search_token].
    assert (M : match_name (c :: a ++ t ++ r) = None) by (apply match_name_here; apply (B 0%nat); cbn; lia).
    rewrite M. apply IH. intros k Hk. apply (B (S k)). cbn. lia.
Qed.
Lemma search_none s : none_before (S (length s)) s -> search_token s = None.
Proof.
  induction s as [|c s IH]; intros B.
  - cbn [search_token]. replace (match_name []) with (@None (list N)) by reflexivity. reflexivity.
  - cbn [search_token]. assert (M : match_name (c :: s) = None) by (apply match_name_here; apply (B 0%nat); cbn; lia).
    rewrite M. apply IH. intros k Hk. apply (B (S k)). cbn. lia.
Qed.

Lemma drop_blanks b r : blanks b -> drop_while is_space (b ++ r) = drop_while is_space r.
Proof. induction b as [|c b IH]; intros B; [reflexivity|]. cbn [app drop_while]. rewrite (Forall_inv B). apply IH. exact (Forall_inv_tail B). Qed.

Lemma alphabet_plain c : b64_alphabet c \/ c = 61%N -> is_space c = false /\ c <> 44%N.
Proof.
  intros A. split; [|unfold b64_alphabet in A; lia].
  unfold is_space. unfold b64_alphabet in A.
  replace (N.leb 9 c && N.leb c 13)%bool with false by lia. replace (N.leb 28 c && N.leb c 32)%bool with false by lia.
  replace (N.eqb c 133) with false by lia. replace (N.eqb c 160) with false by lia. replace (N.eqb c 5760) with false by lia.
  replace (N.leb 8192 c && N.leb c 8202)%bool with false by lia. replace (N.eqb c 8232) with false by lia.
  replace (N.eqb c 8233) with false by lia. replace (N.eqb c 8239) with false by lia. replace (N.eqb c 8287) with false by lia.
  replace (N.eqb c 12288) with false by lia. reflexivity.
Qed.
Lemma encoded_chars b : bytes_ok b -> Forall (fun c => b64_alphabet c \/ c = 61%N) (b64encode b).
Proof.
  intros H. destruct (b64_chars b H) as (body & pad & -> & B & P). apply Forall_app. split.
  - eapply Forall_impl; [|exact B]. auto.
  - destruct P as [-> | [-> | ->]]; repeat (apply Forall_cons; [right; reflexivity|]); apply Forall_nil.
Qed.
Lemma upto_app s rest : Forall (fun c => c <> 44%N) s -> ends_item rest -> upto_comma (s ++ rest) = s.
Proof.
  intros F R. induction s as [|c s IH].
  - destruct R as [-> | (r & ->)]; reflexivity.
  - cbn [app upto_comma]. pose proof (Forall_inv F) as C. cbv beta in C. replace (N.eqb c 44) with false by lia.
    f_equal. apply IH. exact (Forall_inv_tail F).
Qed.
Lemma drop_head c s : is_space c = false -> drop_while is_space (c :: s) = c :: s.
Proof. intros H. cbn [drop_while]. rewrite H. reflexivity. Qed.

(* the token a header carries is what the client reads *)
Lemma carried_token h t : carries h t -> exists r, get_auth_token h = Ok r /\ (if tokenless r then t = None else r = t).
Proof.
  intros C. destruct C as [h B|a name t b rest I F Bl E B|a name t b tok rest I F Bl E Hok Hne B]; unfold get_auth_token.
  - rewrite (search_none h B). exists None. split; reflexivity.
  - rewrite (search_first a name t (b ++ rest) I F B). rewrite drop_blanks by exact Bl.
    exists (Some []). split; [|reflexivity].
    assert (U : upto_comma (drop_while is_space rest) = []).
    { destruct E as [-> | (r & ->)]; reflexivity. }
    rewrite U. reflexivity.
  - rewrite (search_first a name t _ I F B). rewrite drop_blanks by exact Bl.
    pose proof (encoded_chars tok Hok) as Ch.
    destruct tok as [|x tok]; [contradiction|].
    assert (Ne : exists c cs, b64encode (x :: tok) = c :: cs) by (destruct tok as [|y [|z tok]]; cbn [b64encode app]; eauto).
    destruct Ne as (c & cs & Ec).
    assert (Sp : is_space c = false) by (rewrite Ec in Ch; exact (proj1 (alphabet_plain c (Forall_inv Ch)))).
    rewrite Ec. cbn [app]. rewrite drop_head by exact Sp. change (c :: cs ++ rest) with ((c :: cs) ++ rest). rewrite <- Ec.
    rewrite upto_app; [|eapply Forall_impl; [|exact Ch]; intros d Hd; exact (proj2 (alphabet_plain d Hd))|exact E].
    rewrite (b64_roundtrip _ Hok). cbn [bind]. exists (Some (x :: tok)). split; reflexivity.
Qed.

(* ---- the scheme ---- *)
Lemma starts_spec p : forall s, starts p s = true <-> exists r, s = p ++ r.
Proof.
  induction p as [|x p IH]; intros s; cbn [starts].
  - split; [intros _; exists s; reflexivity|auto].
  - destruct s as [|y s]; [split; [discriminate|intros (r & E); discriminate E]|].
    rewrite andb_true_iff, N.eqb_eq, IH. split.
    + intros (-> & r & ->). exists r. reflexivity.
    + intros (r & E). cbn in E. split; [congruence|]. exists r. congruence.
Qed.
Lemma within_spec p : forall s, within p s = true <-> exists a b, s = a ++ p ++ b.
Proof.
  intros s. induction s as [|c s IH].
  - cbn [within]. rewrite orb_false_r, starts_spec. split.
    + intros (r & E). exists [], r. exact E.
    + intros (a & b & E). destruct a; [exists b; exact E|discriminate E].
  - cbn [within]. rewrite orb_true_iff, starts_spec, IH. split.
    + intros [(r & E)|(a & b & ->)]; [exists [], r; exact E|exists (c :: a), b; reflexivity].
    + intros (a & b & E). destruct a as [|d a]; [left; exists b; exact E|right]. exists a, b. cbn in E. congruence.
Qed.

Definition up_char (c : N) : N := hd 0%N (up1 c).
Lemma upper_latin h : latin h -> uppercase h = map up_char h.
Proof.
  unfold latin, uppercase. induction h as [|c h IH]; intros L; [reflexivity|]. cbn [flat_map map]. rewrite IH by exact (Forall_inv_tail L).
  destruct (Forall_inv L) as [_ S]. unfold up_char, up1. replace (N.eqb c 223) with false by lia.
  destruct (N.leb 97 c && N.leb c 122)%bool; [reflexivity|]. destruct (N.eqb c 181); [reflexivity|]. destruct (N.eqb c 255); [reflexivity|].
  destruct (N.leb 224 c && N.leb c 254 && negb (N.eqb c 247))%bool; reflexivity.
Qed.
(* an ASCII letter or digit of a name, in upper case *)
Definition ascii_letter (x : N) : Prop := (65 <= x <= 90 \/ 97 <= x <= 122)%N.
Lemma up_same x c : ascii_letter x -> (c < 256)%N -> c <> 223%N -> (up_char x = up_char c <-> same_letter x c).
Proof.
  intros A L S. unfold up_char, up1, same_letter. unfold ascii_letter in A.
  replace (N.eqb x 181) with false by lia. replace (N.eqb x 223) with false by lia. replace (N.eqb x 255) with false by lia.
  replace (N.leb 224 x && N.leb x 254 && negb (N.eqb x 247))%bool with false by lia. replace (N.eqb c 223) with false by lia.
  destruct (N.leb 97 x && N.leb x 122)%bool eqn:X; destruct (N.leb 97 c && N.leb c 122)%bool eqn:C; cbn [hd]; try lia.
  - destruct (N.eqb c 181) eqn:C1; cbn [hd]; [lia|]. destruct (N.eqb c 255) eqn:C2; cbn [hd]; [lia|].
    destruct (N.leb 224 c && N.leb c 254 && negb (N.eqb c 247))%bool eqn:C3; cbn [hd]; lia.
  - destruct (N.eqb c 181) eqn:C1; cbn [hd]; [lia|]. destruct (N.eqb c 255) eqn:C2; cbn [hd]; [lia|].
    destruct (N.leb 224 c && N.leb c 254 && negb (N.eqb c 247))%bool eqn:C3; cbn [hd]; lia.
Qed.
Lemma up_nocase p : forall t, Forall ascii_letter p -> latin t -> (map up_char p = map up_char t <-> same_nocase p t).
Proof.
  induction p as [|x p IH]; intros t A L.
  - split; [intros E; destruct t; [constructor|discriminate E]|intros F; inversion F; reflexivity].
  - destruct t as [|c t]; [split; [discriminate|intros F; inversion F]|]. cbn [map].
    destruct (Forall_inv L) as [L1 L2]. pose proof (up_same x c (Forall_inv A) L1 L2) as U.
    specialize (IH t (Forall_inv_tail A) (Forall_inv_tail L)). split.
    + intros E. apply cons_inj in E. destruct E as [E1 E2]. constructor; [apply U; exact E1|apply IH; exact E2].
    + intros F. assert (S1 : same_letter x c) by (inversion F; assumption). assert (S2 : same_nocase p t) by (inversion F; assumption).
      f_equal; [apply U; exact S1|apply IH; exact S2].
Qed.
Lemma names_letters name : In name preferred -> Forall ascii_letter name /\ uppercase name = map up_char name.
Proof.
  intros I.
  assert (B : forallb (fun x => (N.leb 65 x && N.leb x 90 || N.leb 97 x && N.leb x 122)%bool) name = true) by (destruct I as [<-|[<-|[<-|[]]]]; vm_compute; reflexivity).
  split; [|destruct I as [<-|[<-|[<-|[]]]]; vm_compute; reflexivity].
  apply Forall_forall. intros x Hx. rewrite forallb_forall in B. specialize (B x Hx). unfold ascii_letter. lia.
Qed.

Lemma within_occurs name h : In name preferred -> latin h -> (within (uppercase name) (uppercase h) = true <-> occurs name h).
Proof.
  intros I L. destruct (names_letters name I) as [A U]. rewrite within_spec, U, (upper_latin h L). split.
  - intros (a & b & E). assert (E' := E). apply map_eq_app in E'.
    destruct E' as (a' & r & -> & Ea & Er). apply map_eq_app in Er. destruct Er as (t & b' & -> & Et & Eb).
    exists a', t, b'. split; [reflexivity|]. apply up_nocase; [exact A| |symmetry; exact Et].
    unfold latin in *. apply Forall_app in L. destruct L as [_ L]. apply Forall_app in L. exact (proj1 L).
  - intros (a & t & b & -> & F). exists (map up_char a), (map up_char b). rewrite !map_app. f_equal. f_equal. symmetry. apply up_nocase; [exact A| |exact F].
    unfold latin in *. apply Forall_app in L. destruct L as [_ L]. apply Forall_app in L. exact (proj1 L).
Qed.

Lemma check_selects h : latin h ->
  (occurs negotiate h -> check_auth_supported h preferred = Ok negotiate) /\
  (~ occurs negotiate h -> occurs kerberos h -> check_auth_supported h preferred = Ok kerberos) /\
  (~ occurs negotiate h -> ~ occurs kerberos h -> occurs ntlm h -> check_auth_supported h preferred = Ok ntlm) /\
  (~ occurs negotiate h -> ~ occurs kerberos h -> ~ occurs ntlm h -> check_auth_supported h preferred = Err AuthenticationError).
Proof.
  intros L. pose proof (within_occurs negotiate h ltac:(cbn; auto) L) as Wn. pose proof (within_occurs kerberos h ltac:(cbn; auto) L) as Wk.
  pose proof (within_occurs ntlm h ltac:(cbn; auto) L) as Wt.
  unfold check_auth_supported, preferred. change (lit "Negotiate") with negotiate. change (lit "Kerberos") with kerberos. change (lit "NTLM") with ntlm.
  cbn [filter].
  destruct (within (uppercase negotiate) (uppercase h)); [|assert (~ occurs negotiate h) by (intros O; apply Wn in O; discriminate O)].
  { assert (occurs negotiate h) by (apply Wn; reflexivity). repeat split; intros; try contradiction; reflexivity. }
  destruct (within (uppercase kerberos) (uppercase h)); [|assert (~ occurs kerberos h) by (intros O; apply Wk in O; discriminate O)].
  { assert (occurs kerberos h) by (apply Wk; reflexivity). repeat split; intros; try contradiction; reflexivity. }
  destruct (within (uppercase ntlm) (uppercase h)); [|assert (~ occurs ntlm h) by (intros O; apply Wt in O; discriminate O)].
  { assert (occurs ntlm h) by (apply Wt; reflexivity). repeat split; intros; try contradiction; reflexivity. }
  repeat split; intros; try contradiction; reflexivity.
Qed.
Lemma check_one h p : check_auth_supported h preferred = Ok p -> In p preferred.
Proof.
  unfold check_auth_supported. destruct (filter _ preferred) as [|q l] eqn:F; [discriminate|]. intros E. assert (q = p) by congruence. subst q.
  assert (I : In p (filter (fun p => within (uppercase p) (uppercase h)) preferred)) by (rewrite F; left; reflexivity).
  apply filter_In in I. exact (proj1 I).
Qed.
Lemma check_error h e : check_auth_supported h preferred = Err e -> e = AuthenticationError.
Proof. unfold check_auth_supported. destruct (filter _ preferred); intros E; congruence. Qed.

Lemma lower_nocase name : In name preferred -> same_nocase name (lowercase name) /\ same_nocase (lowercase name) name.
Proof.
  intros I. destruct (names_letters name I) as [A _]. unfold same_nocase, lowercase. clear I. induction name as [|x l IH]; [split; constructor|].
  destruct (IH (Forall_inv_tail A)) as [I1 I2]. pose proof (Forall_inv A) as X. unfold ascii_letter in X.
  assert (S : same_letter x (low1 x) /\ same_letter (low1 x) x).
  { unfold low1, same_letter. destruct (N.leb 65 x && N.leb x 90)%bool eqn:B; [lia|]. replace (N.leb 192 x && N.leb x 222 && negb (N.eqb x 215))%bool with false by lia. lia. }
  cbn [map]. split; constructor; tauto.
Qed.

Lemma choose_permitted configured offered p : In offered preferred -> choose_protocol configured offered = Ok p -> permitted configured offered p.
Proof.
  intros I. destruct (lower_nocase offered I) as [S _]. unfold choose_protocol, permitted.
  destruct (str_eqb (lowercase offered) configured) eqn:A.
  - apply str_eqb_spec in A. intros E. assert (p = configured) by congruence. subst p. left. split; [|reflexivity]. rewrite <- A. exact S.
  - destruct (str_eqb configured (lit "negotiate")) eqn:B.
    + apply str_eqb_spec in B. intros E. assert (p = lowercase offered) by congruence. subst p. right; left. auto.
    + destruct (str_eqb (lowercase offered) (lit "negotiate")) eqn:C; [|discriminate]. apply str_eqb_spec in C.
      intros E. assert (p = configured) by congruence. subst p. right; right. split; [|reflexivity]. rewrite <- C. exact S.
Qed.
(* refused exactly when neither is Negotiate and they differ *)
Lemma choose_refused configured offered e : choose_protocol configured offered = Err e <->
  e = ValueError /\ lowercase offered <> configured /\ configured <> lit "negotiate" /\ lowercase offered <> lit "negotiate".
Proof.
  unfold choose_protocol. destruct (str_eqb (lowercase offered) configured) eqn:A.
  { apply str_eqb_spec in A. split; [discriminate|intros (_ & H & _); contradiction]. }
  destruct (str_eqb configured (lit "negotiate")) eqn:B.
  { apply str_eqb_spec in B. split; [discriminate|intros (_ & _ & H & _); contradiction]. }
  destruct (str_eqb (lowercase offered) (lit "negotiate")) eqn:C.
  { apply str_eqb_spec in C. split; [discriminate|intros (_ & _ & _ & H); contradiction]. }
  split; [|intros (-> & _); reflexivity]. intros E. assert (e = ValueError) by congruence. subst e. split; [reflexivity|].
  repeat split; intros X; apply str_eqb_spec in X; congruence.
Qed.

Section X.
  Context {CS NS : Type}.
  Context (step : CS -> option bytes -> res (option bytes) * CS) (complete : CS -> bool).
  Context (send : NS -> list N -> res answer * NS).
  Notation exchange := (exchange step complete send).
  Notation authenticate := (authenticate step complete send).
  Notation hook := (response_hook step complete send).

  (* the token in an answer, as the client reads it *)
  Definition token_in (a : answer) : list bytes :=
    match get_auth_token (a_auth a) with Ok t => if tokenless t then [] else match t with Some b => [b] | None => [] end | Err _ => [] end.
  Definition made_ok (o : option bytes) (l : list happening) : list bytes := match o with Some b => [b] | None => [] end ++ tokens_made l.

  Lemma exchange_log fuel scheme : forall out a cs ns x cs' ns' l,
    exchange fuel scheme out a cs ns = (x, cs', ns', l) ->
    (* sent *)
    (x <> Err OutOfFuel -> requests_out l = map (fun b => scheme ++ [32%N] ++ b64encode b) (made_ok out l)) /\
    (* fed *)
    fed l = map Some (flat_map token_in (answers l)) /\
    (* ended *)
    (forall b, x = Ok b ->
       (exists front, answers l = front ++ [b] /\ token_in b = [] /\ (forall y, In y front -> token_in y <> []) /\
          Forall (fun o => exists t, o = Ok (Some t)) (made l) /\ out <> None) \/
       ((forall y, In y (answers l) -> token_in y <> []) /\ complete cs' = true /\
          match rev (made l) with
          | [] => out = None /\ b = a /\ answers l = []
          | o :: rest => o = Ok None /\ Forall (fun o => exists t, o = Ok (Some t)) rest /\ out <> None /\ exists front, answers l = front ++ [b]
          end)) /\
    (* out of fuel *)
    ((forall c i, fst (step c i) <> Err OutOfFuel) -> (forall n h, fst (send n h) <> Err OutOfFuel) -> x = Err OutOfFuel ->
       length (flat_map token_in (answers l)) = fuel).
  Proof.
    induction fuel as [|fuel IH]; intros out a cs ns x cs' ns' l H.
    - cbn [NegModel.exchange] in H. destruct (complete cs && match out with None => true | Some _ => false end)%bool eqn:C.
      + assert (x = Ok a /\ cs' = cs /\ l = []) by (repeat split; congruence). destruct H0 as (-> & -> & ->).
        apply andb_prop in C. destruct C as [C O]. destruct out; [discriminate O|].
        repeat split; try reflexivity.
        * intros b E. right. assert (b = a) by congruence. subst b. cbn. repeat split; auto; intros y [].
      + assert (x = Err OutOfFuel /\ l = []) by (split; congruence). destruct H0 as (-> & ->).
        repeat split; try reflexivity; try congruence; intros b E; discriminate E.
    - cbn [NegModel.exchange] in H. destruct (complete cs && match out with None => true | Some _ => false end)%bool eqn:C.
      + assert (x = Ok a /\ cs' = cs /\ l = []) by (repeat split; congruence). destruct H0 as (-> & -> & ->).
        apply andb_prop in C. destruct C as [C O]. destruct out; [discriminate O|].
        repeat split; try reflexivity; try congruence.
        intros b E. right. assert (b = a) by congruence. subst b. cbn. repeat split; auto; intros y [].
      + destruct out as [o|]; cbn [auth_header] in H.
        2: { assert (x = Err TypeError /\ l = []) by (split; congruence). destruct H0 as (-> & ->). repeat split; try reflexivity; try congruence; intros b E; discriminate E. }
        destruct (send ns (scheme ++ [32%N] ++ b64encode o)) as [r ns1] eqn:Sd. destruct r as [a1|e].
        2: { assert (x = Err e /\ l = [HRequest (scheme ++ [32%N] ++ b64encode o)]) by (split; congruence). destruct H0 as (-> & ->).
             repeat split; try reflexivity; try (intros b E; discriminate E).
             intros Hs Hn E. exfalso. apply (Hn ns (scheme ++ [32%N] ++ b64encode o)). rewrite Sd. cbn [fst]. congruence. }
        destruct (get_auth_token (a_auth a1)) as [t|e] eqn:T.
        2: { assert (x = Err e /\ l = [HRequest (scheme ++ [32%N] ++ b64encode o); HAnswer a1]) by (split; congruence). destruct H0 as (-> & ->).
             assert (Tn : token_in a1 = []) by (unfold token_in; rewrite T; reflexivity).
             repeat split; try reflexivity; try (intros b E; discriminate E).
             - cbn. rewrite Tn. reflexivity.
             - intros Hs Hn E. exfalso. revert T. unfold get_auth_token. destruct (search_token (a_auth a1)) as [tt'|]; [|discriminate].
               unfold b64decode. assert (Ns : forall s q le p, b64_scan q le p s <> Err OutOfFuel).
               { clear. induction s as [|c s IH]; intros q le p; cbn [b64_scan]; [destruct q; discriminate|].
                 destruct (N.eqb c 61); [destruct (Nat.leb 2 q); [destruct (Nat.leb 4 (q + S p)); [discriminate|apply IH]|apply IH]|].
                 destruct (b64_value c) as [v|]; [|apply IH].
                 destruct q as [|[|[|q]]]; [apply IH| | |]; match goal with |- bind (b64_scan ?a ?b ?c0 s) _ <> _ => pose proof (IH a b c0); destruct (b64_scan a b c0 s); cbn [bind]; congruence end. }
               destruct (forallb _ tt'); [|cbn [bind]; congruence]. pose proof (Ns tt' 0%nat 0%N 0%nat). destruct (b64_scan 0 0 0 tt'); cbn [bind]; congruence. }
        destruct (tokenless t) eqn:Tl.
        { assert (x = Ok a1 /\ cs' = cs /\ l = [HRequest (scheme ++ [32%N] ++ b64encode o); HAnswer a1]) by (repeat split; congruence). destruct H0 as (-> & -> & ->).
          assert (Tn : token_in a1 = []) by (unfold token_in; rewrite T, Tl; reflexivity).
          repeat split; try reflexivity; try congruence.
          - cbn. rewrite Tn. reflexivity.
          - intros b E. assert (b = a1) by congruence. subst b. left. exists []. split; [reflexivity|]. split; [exact Tn|]. split; [intros y []|]. split; [constructor|discriminate]. }
        destruct t as [[|tb tr]|]; try discriminate Tl.
        assert (Tn : token_in a1 = [tb :: tr]) by (unfold token_in; rewrite T; reflexivity).
        destruct (step cs (Some (tb :: tr))) as [o1 cs1] eqn:St. destruct o1 as [out1|e].
        2: { assert (x = Err e /\ l = [HRequest (scheme ++ [32%N] ++ b64encode o); HAnswer a1; HStep (Some (tb :: tr)) (Err e)]) by (split; congruence). destruct H0 as (-> & ->).
             repeat split; try reflexivity; try (intros b E; discriminate E).
             - cbn. rewrite Tn. reflexivity.
             - intros Hs Hn E. exfalso. apply (Hs cs (Some (tb :: tr))). rewrite St. cbn [fst]. congruence. }
        destruct (exchange fuel scheme out1 a1 cs1 ns1) as [[[x1 cs2] ns2] l1] eqn:R.
        assert (x = x1 /\ cs' = cs2 /\ l = HRequest (scheme ++ [32%N] ++ b64encode o) :: HAnswer a1 :: HStep (Some (tb :: tr)) (Ok out1) :: l1) by (repeat split; congruence).
        destruct H0 as (-> & -> & ->). clear H. destruct (IH _ _ _ _ _ _ _ _ R) as (I1 & I2 & I3 & I4). clear IH R.
        split; [|split; [|split]].
        * intros Nx. specialize (I1 Nx). cbn [requests_out flat_map app]. fold (requests_out l1). rewrite I1.
          unfold made_ok, tokens_made. cbn [made flat_map app]. fold (made l1). cbn [flat_map app map].
          fold (tokens_made l1). destruct out1; reflexivity.
        * cbn [fed answers flat_map app]. fold (fed l1). fold (answers l1). cbn [flat_map]. rewrite Tn, I2. reflexivity.
        * intros b E. destruct (I3 b E) as [(front & F1 & F2 & F3 & F4 & F5)|(F1 & F2 & F3)].
          -- left. exists (a1 :: front). cbn [answers flat_map app made]. fold (answers l1). fold (made l1). rewrite F1.
             split; [reflexivity|]. split; [exact F2|]. split; [intros y [<-|Y]; [rewrite Tn; discriminate|exact (F3 y Y)]|].
             split; [|discriminate]. constructor; [|exact F4]. destruct out1 as [b1|]; [eauto|contradiction].
          -- right. cbn [answers flat_map app made]. fold (answers l1). fold (made l1).
             split; [intros y [<-|Y]; [rewrite Tn; discriminate|exact (F1 y Y)]|]. split; [exact F2|].
             cbn [rev]. destruct (rev (made l1)) as [|o2 rest] eqn:Rv.
             ++ destruct F3 as (-> & -> & F5). cbn [app]. rewrite F5. split; [reflexivity|]. split; [constructor|]. split; [discriminate|]. exists []. reflexivity.
             ++ destruct F3 as (G1 & G2 & G3 & front & G4). cbn [app]. split; [exact G1|]. split; [|split; [discriminate|exists (a1 :: front); rewrite G4; reflexivity]].
                apply Forall_app. split; [exact G2|]. constructor; [|constructor]. destruct out1 as [b1|]; [eauto|contradiction].
        * intros Hs Hn E. cbn [answers flat_map app]. fold (answers l1). cbn [flat_map]. rewrite Tn. cbn [app length]. f_equal. exact (I4 Hs Hn E).
  Qed.

  Lemma carries_in l ts : Forall2 carries (map a_auth l) ts -> flat_map token_in l = somes ts.
  Proof.
    revert ts. induction l as [|a l IH]; intros ts F; inversion F as [|h t hs ts' C R]; subst; [reflexivity|].
    unfold somes. cbn [flat_map]. fold (@somes bytes). rewrite (IH _ R). unfold somes. f_equal.
    destruct (carried_token _ _ C) as (r & G & T). unfold token_in. rewrite G. destruct (tokenless r) eqn:Tl.
    - rewrite T. reflexivity.
    - rewrite T. reflexivity.
  Qed.
  Lemma carries_one a t : carries (a_auth a) t -> token_in a = match t with Some b => [b] | None => [] end.
  Proof.
    intros C. destruct (carried_token _ _ C) as (r & G & T). unfold token_in. rewrite G. destruct (tokenless r) eqn:Tl.
    - rewrite T. reflexivity.
    - rewrite T. reflexivity.
  Qed.
  Lemma carries_last l b ts : Forall2 carries (map a_auth (l ++ [b])) ts -> exists front t, ts = front ++ [t] /\ Forall2 carries (map a_auth l) front /\ carries (a_auth b) t.
  Proof.
    rewrite map_app. intros F. apply Forall2_app_inv_l in F. destruct F as (f & r & F & R & ->).
    inversion R as [|h t hs ts' C R2]; subst. inversion R2; subst. exists f, t. auto.
  Qed.
  Lemma carries_all l ts : Forall2 carries (map a_auth l) ts -> (forall y, In y l -> token_in y <> []) -> Forall (fun t => t <> None) ts.
  Proof.
    revert ts. induction l as [|a l IH]; intros ts F A; inversion F as [|h t hs ts' C R]; subst; [constructor|].
    constructor; [|apply IH; [exact R|intros y Y; apply A; right; exact Y]].
    intros ->. apply (A a); [left; reflexivity|]. rewrite (carries_one _ _ C). reflexivity.
  Qed.

  Lemma authenticate_log fuel scheme first cs ns x cs' ns' l :
    authenticate fuel scheme first cs ns = (x, cs', ns', l) ->
    (x <> Err OutOfFuel -> requests_out l = map (fun b => scheme ++ [32%N] ++ b64encode b) (tokens_made l)) /\
    (forall ts, Forall2 carries (map a_auth (answers l)) ts ->
       fed l = None :: map Some (somes ts) /\
       (forall a, x = Ok a ->
          (exists front, answers l = front ++ [a] /\ (exists ts', ts = ts' ++ [None] /\ Forall (fun t => t <> None) ts') /\
             Forall (fun o => exists t, o = Ok (Some t)) (made l)) \/
          (Forall (fun t => t <> None) ts /\ complete cs' = true /\
             (exists os, made l = os ++ [Ok None] /\ Forall (fun o => exists t, o = Ok (Some t)) os) /\
             (answers l = [] /\ a = first \/ exists front, answers l = front ++ [a]))) /\
       ((forall c i, fst (step c i) <> Err OutOfFuel) -> (forall n h, fst (send n h) <> Err OutOfFuel) -> x = Err OutOfFuel -> length (somes ts) = fuel)).
  Proof.
    unfold NegModel.authenticate. destruct (step cs None) as [o cs1] eqn:St. destruct o as [out|e].
    2: { intros H. assert (x = Err e /\ l = [HStep None (Err e)]) by (split; congruence). destruct H0 as (-> & ->). split; [reflexivity|].
         intros ts F. cbn in F. inversion F; subst. split; [reflexivity|]. split; [intros a E; discriminate E|]. intros Hs _ E. exfalso. apply (Hs cs None). rewrite St. cbn [fst]. congruence. }
    destruct (exchange fuel scheme out first cs1 ns) as [[[x1 cs2] ns2] l1] eqn:R. intros H.
    assert (x = x1 /\ cs' = cs2 /\ l = HStep None (Ok out) :: l1) by (repeat split; congruence). destruct H0 as (-> & -> & ->). clear H.
    destruct (exchange_log _ _ _ _ _ _ _ _ _ _ R) as (I1 & I2 & I3 & I4). split.
    { intros Nx. cbn [requests_out flat_map app]. fold (requests_out l1). rewrite (I1 Nx). unfold made_ok, tokens_made. cbn [made flat_map app]. destruct out; reflexivity. }
    cbn [answers flat_map app]. fold (answers l1). intros ts F. rewrite (carries_in _ _ F) in I2, I4. split; [|split].
    - cbn [fed flat_map app]. fold (fed l1). rewrite I2. reflexivity.
    - intros a E. cbn [made flat_map app]. fold (made l1). destruct (I3 a E) as [(front & F1 & F2 & F3 & F4 & F5)|(F1 & F2 & F3)].
      + left. exists front. split; [exact F1|]. rewrite F1 in F. destruct (carries_last _ _ _ F) as (ts' & t & -> & C1 & C2). split.
        * exists ts'. rewrite (carries_one _ _ C2) in F2. destruct t; [discriminate F2|]. split; [reflexivity|]. exact (carries_all _ _ C1 F3).
        * constructor; [|exact F4]. destruct out as [b1|]; [eauto|contradiction].
      + right. split; [exact (carries_all _ _ F F1)|]. split; [exact F2|]. destruct (rev (made l1)) as [|o2 rest] eqn:Rv.
        * destruct F3 as (-> & -> & F5). assert (made l1 = []) by (rewrite <- (rev_involutive (made l1)), Rv; reflexivity). rewrite H. split; [exists []; split; [reflexivity|constructor]|]. left. auto.
        * destruct F3 as (-> & G2 & G3 & G4). split; [|right; exact G4]. exists (Ok out :: rev rest).
          assert (made l1 = rev rest ++ [Ok None]) by (rewrite <- (rev_involutive (made l1)), Rv; reflexivity). rewrite H. split; [reflexivity|].
          constructor; [destruct out as [b1|]; [eauto|contradiction]|]. apply Forall_rev. exact G2.
    - intros Hs Hn E. exact (I4 Hs Hn E).
  Qed.

  Lemma log_scheme fuel scheme first cs ns x cs' ns' l h :
    authenticate fuel scheme first cs ns = (x, cs', ns', l) -> In h (requests_out l) -> exists token, h = scheme ++ [32%N] ++ b64encode token.
  Proof.
    unfold NegModel.authenticate. destruct (step cs None) as [o cs1]. destruct o as [out|e].
    2: { intros H I. assert (l = [HStep None (Err e)]) by congruence. subst l. destruct I. }
    assert (G : forall fuel out a cs ns x cs' ns' l, exchange fuel scheme out a cs ns = (x, cs', ns', l) -> In h (requests_out l) -> exists token, h = scheme ++ [32%N] ++ b64encode token).
    { clear. induction fuel as [|fuel IH]; intros out a cs ns x cs' ns' l H I; cbn [NegModel.exchange] in H.
      - destruct (complete cs && _)%bool; assert (l = []) by congruence; subst l; destruct I.
      - destruct (complete cs && _)%bool; [assert (l = []) by congruence; subst l; destruct I|].
        destruct out as [o|]; cbn [auth_header] in H; [|assert (l = []) by congruence; subst l; destruct I].
        destruct (send ns _) as [r ns1]. destruct r as [a1|e]; [destruct (get_auth_token (a_auth a1)) as [t|e]; [destruct (tokenless t); [|destruct (step cs t) as [o1 cs1]; destruct o1 as [out1|e]]|]|];
          try (match goal with H : (_, _, _, ?L) = (_, _, _, l) |- _ => assert (l = L) by congruence; subst l; destruct I as [<-|[]]; eauto end).
        destruct (exchange fuel scheme out1 a1 cs1 ns1) as [[[x1 cs2] ns2] l1] eqn:R.
        assert (E : l = HRequest (scheme ++ [32%N] ++ b64encode o) :: HAnswer a1 :: HStep t (Ok out1) :: l1) by congruence. subst l.
        destruct I as [<-|I]; [eauto|]. exact (IH _ _ _ _ _ _ _ _ R I). }
    destruct (exchange fuel scheme out first cs1 ns) as [[[x1 cs2] ns2] l1] eqn:R. intros H I.
    assert (E : l = HStep None (Ok out) :: l1) by congruence. subst l. exact (G _ _ _ _ _ _ _ _ _ R I).
  Qed.

  Lemma hook_other fuel client configured host a ns contexts : a_status a <> 401%Z ->
    hook fuel client configured host a ns contexts = (Ok a, contexts, ns, []).
  Proof. intros H. unfold response_hook. destruct (Z.eqb_spec (a_status a) 401); [contradiction|reflexivity]. Qed.

  Lemma hook_none fuel client configured host a ns contexts : a_status a = 401%Z -> latin (a_auth a) ->
    ~ occurs negotiate (a_auth a) -> ~ occurs kerberos (a_auth a) -> ~ occurs ntlm (a_auth a) ->
    hook fuel client configured host a ns contexts = (Err AuthenticationError, contexts, ns, []).
  Proof.
    intros S L N1 N2 N3. unfold response_hook. rewrite S. change (Z.eqb 401 401) with true. cbv iota.
    destruct (check_selects _ L) as (_ & _ & _ & C). rewrite (C N1 N2 N3). reflexivity.
  Qed.

  (* the scheme used *)
  Definition best (h p : list N) : Prop :=
    p = negotiate /\ occurs negotiate h \/ p = kerberos /\ ~ occurs negotiate h /\ occurs kerberos h \/
    p = ntlm /\ ~ occurs negotiate h /\ ~ occurs kerberos h /\ occurs ntlm h.
  Lemma best_check h p : latin h -> best h p -> check_auth_supported h preferred = Ok p.
  Proof.
    intros L B. destruct (check_selects h L) as (C1 & C2 & C3 & _). destruct B as [(-> & B)|[(-> & B1 & B2)|(-> & B1 & B2 & B3)]]; auto.
  Qed.

  Lemma hook_scheme fuel client configured host a ns contexts offered x contexts' ns' l :
    a_status a = 401%Z -> latin (a_auth a) -> best (a_auth a) offered ->
    hook fuel client configured host a ns contexts = (x, contexts', ns', l) ->
    (forall h, In h (requests_out l) -> exists token, h = offered ++ [32%N] ++ b64encode token) /\
    (l <> [] -> exists protocol cs, permitted configured offered protocol /\ client protocol = Ok cs /\
       exists cs', authenticate fuel offered a cs ns = (x, cs', ns', l)) /\
    (lowercase offered <> configured -> configured <> lit "negotiate" -> offered <> negotiate ->
       x = Err ValueError /\ contexts' = contexts /\ ns' = ns /\ l = []).
  Proof.
    intros S L B. unfold response_hook. rewrite S. change (Z.eqb 401 401) with true. cbv iota.
    pose proof (best_check _ _ L B) as C. rewrite C. pose proof (check_one _ _ C) as I.
    assert (Ng : offered <> negotiate -> lowercase offered <> lit "negotiate").
    { intros D. destruct I as [<-|[<-|[<-|[]]]]; [contradiction D; reflexivity| |]; vm_compute; discriminate. }
    destruct (choose_protocol configured offered) as [protocol|e] eqn:P.
    - pose proof (choose_permitted _ _ _ I P) as Pm.
      assert (V : lowercase offered <> configured -> configured <> lit "negotiate" -> offered <> negotiate -> False).
      { intros D1 D2 D3. assert (X : choose_protocol configured offered = Err ValueError) by (apply choose_refused; auto). congruence. }
      destruct (client protocol) as [cs|e] eqn:K.
      + destruct (authenticate fuel offered a cs ns) as [[[x1 cs1] ns1] l1] eqn:A. intros H. assert (x = x1 /\ ns' = ns1 /\ l = l1) by (repeat split; congruence).
        destruct H0 as (-> & -> & ->). split; [intros h Hh; exact (log_scheme _ _ _ _ _ _ _ _ _ _ A Hh)|]. split; [|intros; exfalso; auto].
        intros _. exists protocol, cs. split; [exact Pm|]. split; [exact K|]. exists cs1. exact A.
      + intros H. assert (l = []) by congruence. subst l. split; [intros h []|]. split; [congruence|]. intros; exfalso; auto.
    - intros H. assert (x = Err e /\ contexts' = contexts /\ ns' = ns /\ l = []) by (repeat split; congruence). destruct H0 as (-> & -> & -> & ->).
      split; [intros h []|]. split; [congruence|]. intros _ _ _. apply choose_refused in P. destruct P as (-> & _). auto.
  Qed.

  (* only a context of a permitted protocol matters *)
  Lemma hook_permitted fuel client client' configured host a ns contexts offered :
    a_status a = 401%Z -> latin (a_auth a) -> best (a_auth a) offered ->
    (forall p, permitted configured offered p -> client p = client' p) ->
    hook fuel client configured host a ns contexts = hook fuel client' configured host a ns contexts.
  Proof.
    intros S L B Ag. unfold response_hook. rewrite S. change (Z.eqb 401 401) with true. cbv iota.
    pose proof (best_check _ _ L B) as C. rewrite C. pose proof (check_one _ _ C) as I.
    destruct (choose_protocol configured offered) as [protocol|e] eqn:P; [|reflexivity].
    rewrite (Ag _ (choose_permitted _ _ _ I P)). reflexivity.
  Qed.
End X.

(* ---- the contexts ---- *)
Section Kept.
  Context {CS NS : Type}.
  Context (step : CS -> option bytes -> res (option bytes) * CS) (complete : CS -> bool).
  Context (send : NS -> list N -> res answer * NS).
  Lemma hook_kept fuel client configured host a ns contexts x contexts' ns' l :
    response_hook step complete send fuel client configured host a ns contexts = (x, contexts', ns', l) ->
    (forall other, other <> host -> dict_get str_eqb other contexts' = dict_get str_eqb other contexts) /\
    (l = [] -> contexts' = contexts) /\
    (l <> [] -> exists offered protocol cs cs' name, client protocol = Ok cs /\
       authenticate step complete send fuel offered a cs ns = (x, cs', ns', l) /\ dict_get str_eqb host contexts' = Some (cs', name) /\
       (forall r, x = Ok r -> In (offered, name) [(negotiate, lit "negotiate"); (kerberos, lit "kerberos"); (ntlm, lit "ntlm")])).
  Proof.
    unfold response_hook. intros H.
    assert (Q : forall y, (y, contexts, ns, @nil happening) = (x, contexts', ns', l) ->
      (forall other, other <> host -> dict_get str_eqb other contexts' = dict_get str_eqb other contexts) /\
      (l = [] -> contexts' = contexts) /\
      (l <> [] -> exists offered protocol cs cs' name, client protocol = Ok cs /\
         authenticate step complete send fuel offered a cs ns = (x, cs', ns', l) /\ dict_get str_eqb host contexts' = Some (cs', name) /\
         (forall r, x = Ok r -> In (offered, name) [(negotiate, lit "negotiate"); (kerberos, lit "kerberos"); (ntlm, lit "ntlm")]))).
    { intros y E. apply pair_inj in E. destruct E as [E <-]. apply pair_inj in E. destruct E as [E <-]. apply pair_inj in E. destruct E as [_ <-].
      split; [reflexivity|]. split; [reflexivity|]. intros C. exfalso. apply C. reflexivity. }
    destruct (Z.eqb (a_status a) 401); [|exact (Q _ H)].
    destruct (check_auth_supported (a_auth a) preferred) as [offered|e] eqn:K; [|exact (Q _ H)].
    destruct (choose_protocol configured offered) as [protocol|e]; [|exact (Q _ H)].
    destruct (client protocol) as [cs|e] eqn:C; [|exact (Q _ H)].
    destruct (authenticate step complete send fuel offered a cs ns) as [[[y cs'] ns2] log] eqn:A.
    apply pair_inj in H. destruct H as [H <-]. apply pair_inj in H. destruct H as [H <-]. apply pair_inj in H. destruct H as [<- <-].
    assert (In offered preferred).
    { unfold check_auth_supported in K. destruct (filter _ preferred) as [|p ps] eqn:F; [discriminate K|]. apply Ok_inj in K. subst p.
      assert (I : In offered (filter (fun p => within (uppercase p) (uppercase (a_auth a))) preferred)) by (rewrite F; left; reflexivity).
      apply filter_In in I. exact (proj1 I). }
    split; [intros other O; apply (dict_get_set_other str_eqb str_eqb_spec); exact O|]. split.
    { intros ->. unfold authenticate in A. destruct (step cs None) as [o cs1]. destruct o as [out|e].
      - destruct (exchange step complete send fuel offered out a cs1 ns) as [[[? ?] ?] ?]. apply pair_inj in A. destruct A as [_ A]. discriminate A.
      - apply pair_inj in A. destruct A as [_ A]. discriminate A. }
    intros _. exists offered, protocol, cs, cs', (match y with Ok _ => lowercase offered | Err _ => [] end).
    split; [exact C|]. split; [exact A|]. split; [apply (dict_get_set_same str_eqb str_eqb_spec)|].
    intros r ->. destruct H as [<-|[<-|[<-|[]]]]; [left|right; left|right; right; left]; reflexivity.
  Qed.
End Kept.
