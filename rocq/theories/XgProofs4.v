(* The reader reads only texts the grammar allows: markup. *)
From Coq Require Import Lia ZifyBool ZifyNat ZifyN.
From Verif Require Import Base BaseProofs Lit NumModel TextModel TextSpec XmlModel XtModel XtSpec XtProofs XgSpec XgProofs.
Local Open Scope list_scope.

(* ---- lists ---- *)
Lemma snoc_cases {A} (s : list A) : s = [] \/ exists u c, s = u ++ [c].
Proof. destruct s as [|a s] using rev_ind; [left; reflexivity|right; eauto]. Qed.
Lemma snoc_inj {A} (u v : list A) a b : u ++ [a] = v ++ [b] -> u = v /\ a = b.
Proof. apply app_inj_tail. Qed.
(* a pattern that ends at the new character, or was there *)
Lemma within_snoc p d s c : within (p ++ [d]) (s ++ [c]) -> within (p ++ [d]) s \/ (c = d /\ exists u, s = u ++ p).
Proof.
  intros (u & v & E). destruct (snoc_cases v) as [->|(v' & e & ->)].
  - right. rewrite app_nil_r, app_assoc in E. apply snoc_inj in E. destruct E as (-> & ->). split; [reflexivity|]. exists u. reflexivity.
  - left. rewrite !app_assoc in E. apply snoc_inj in E. destruct E as (-> & _). exists u, v'. rewrite !app_assoc. reflexivity.
Qed.
Lemma within_front p s t : within p s -> within p (s ++ t).
Proof. intros (u & v & ->). exists u, (v ++ t). rewrite <- !app_assoc. reflexivity. Qed.

(* ---- contents put together ---- *)
Lemma content_char c t l ch : content c t l -> xml_char ch -> ch <> 60%N -> ch <> 38%N -> (ch = 62%N -> ~ exists u, c = u ++ [93%N; 93%N]) ->
  content (c ++ [ch]) (match l with [] => t ++ [ch] | _ => t end) l.
Proof.
  intros H X N1 N2. induction H as [|c0 s t l X0 A1 A2 A3 _ IH|r c0 s t l R _ IH|b s t l F W _ IH|m s t l M _ IH|m s t l M _ IH|e x s t l El _ IH]; intros B.
  - cbn [app]. apply co_char; [exact X|exact N1|exact N2| |constructor]. intros r E. change (lit "]]>" ++ r) with (93%N :: 93%N :: 62%N :: r) in E. apply cons_inj in E. destruct E as (_ & E). discriminate E.
  - assert (Q : content (c0 :: s ++ [ch]) (c0 :: match l with [] => t ++ [ch] | _ => t end) l).
    { apply co_char; [exact X0|exact A1|exact A2| |apply IH; intros E (u & ->); apply (B E); exists (c0 :: u); reflexivity].
      intros r E. change (lit "]]>" ++ r) with (93%N :: 93%N :: 62%N :: r) in E. apply cons_inj in E. destruct E as (-> & E).
      destruct (snoc_cases r) as [->|(r' & e & ->)].
      - change [93%N; 62%N] with ([93%N] ++ [62%N]) in E. apply snoc_inj in E. destruct E as (-> & ->). apply (B eq_refl). exists []. reflexivity.
      - change (93%N :: 62%N :: r' ++ [e]) with ((93%N :: 62%N :: r') ++ [e]) in E. apply snoc_inj in E. destruct E as (-> & _). exact (A3 r' eq_refl). }
    cbn [app]. destruct l; exact Q.
  - rewrite <- app_assoc. assert (Q := co_ref r c0 _ _ _ R (IH ltac:(intros E (u & ->); apply (B E); exists (r ++ u); rewrite <- app_assoc; reflexivity))). destruct l; exact Q.
  - rewrite <- !app_assoc. assert (Q := co_cdata b _ _ _ F W (IH ltac:(intros E (u & ->); apply (B E); exists (lit "<![CDATA[" ++ b ++ lit "]]>" ++ u); rewrite <- !app_assoc; reflexivity))). destruct l; exact Q.
  - rewrite <- app_assoc. exact (co_comment m _ _ _ M (IH ltac:(intros E (u & ->); apply (B E); exists (m ++ u); rewrite <- app_assoc; reflexivity))).
  - rewrite <- app_assoc. exact (co_instruction m _ _ _ M (IH ltac:(intros E (u & ->); apply (B E); exists (m ++ u); rewrite <- app_assoc; reflexivity))).
  - rewrite <- app_assoc. exact (co_child e x _ _ _ El (IH ltac:(intros E (u & ->); apply (B E); exists (e ++ u); rewrite <- app_assoc; reflexivity))).
Qed.
Definition marked (d : list N) : Prop := match d with c :: _ => c = 60%N \/ c = 38%N | [] => False end.
Lemma content_app c t l d t' l' : content c t l -> content d t' l' -> marked d -> content (c ++ d) (match l with [] => t ++ t' | _ => t end) (l ++ l').
Proof.
  intros H D M. destruct d as [|ch d]; [destruct M|].
  induction H as [|c0 s t l X0 A1 A2 A3 _ IH|r c0 s t l R _ IH|b s t l F W _ IH|m s t l Mm _ IH|m s t l Mm _ IH|e x s t l El _ IH].
  - exact D.
  - assert (Q : content (c0 :: s ++ ch :: d) (c0 :: match l with [] => t ++ t' | _ => t end) (l ++ l')).
    { apply co_char; [exact X0|exact A1|exact A2| |exact IH]. intros r E. change (lit "]]>" ++ r) with (93%N :: 93%N :: 62%N :: r) in E. apply cons_inj in E. destruct E as (-> & E).
      destruct s as [|e1 s]; [apply cons_inj in E; destruct E as (-> & _); destruct M; discriminate|]. apply cons_inj in E. destruct E as (-> & E).
      destruct s as [|e2 s]; [apply cons_inj in E; destruct E as (-> & _); destruct M; discriminate|]. apply cons_inj in E. destruct E as (-> & E). exact (A3 s eq_refl). }
    cbn [app]. destruct l; exact Q.
  - rewrite <- app_assoc. assert (Q := co_ref r c0 _ _ _ R IH). destruct l; exact Q.
  - rewrite <- !app_assoc. assert (Q := co_cdata b _ _ _ F W IH). destruct l; exact Q.
  - rewrite <- app_assoc. exact (co_comment m _ _ _ Mm IH).
  - rewrite <- app_assoc. exact (co_instruction m _ _ _ Mm IH).
  - rewrite <- app_assoc. exact (co_child e x _ _ _ El IH).
Qed.
Lemma misc_app a b : misc a -> misc b -> misc (a ++ b).
Proof. intros H K. induction H as [|c s S1 _ IH|m s M _ IH|m s M _ IH]; [exact K|apply (mi_space c _ S1 IH)|rewrite <- app_assoc; apply (mi_comment m _ M IH)|rewrite <- app_assoc; apply (mi_instruction m _ M IH)]. Qed.
Lemma valued_app q a v b w : valued q a v -> valued q b w -> valued q (a ++ b) (v ++ w).
Proof.
  intros H K. induction H as [|c s v X A1 A2 A3 A4 _ IH|c s v S1 _ IH|r c s v R _ IH]; [exact K|apply va_char; assumption|apply va_space; assumption|rewrite <- app_assoc; apply va_ref; assumption].
Qed.
Lemma attributed_app s a s' a' : attributed s a -> attributed s' a' -> attributed (s ++ s') (a ++ a').
Proof.
  intros H K. induction H as [|g k b b' q r v s a G W B B' Q V _ IH]; [exact K|]. rewrite <- !app_assoc. apply at_cons; assumption.
Qed.
Lemma blank_snoc b c : blank b -> is_ws c = true -> blank (b ++ [c]).
Proof. intros B W. apply Forall_app. split; [exact B|]. constructor; [apply space_ws; exact W|constructor]. Qed.

(* ---- references ---- *)
Lemma numeral_of base digit : (forall c d, digit c = Some d -> digit_of base c d) -> forall s acc n, digits_value base digit acc s = Some n ->
  forall p, numeral base p acc -> numeral base (p ++ s) n.
Proof.
  intros D. induction s as [|c s IH]; intros acc n H p P; cbn [digits_value] in H.
  - apply Some_inj in H. subst. rewrite app_nil_r. exact P.
  - destruct (digit c) as [d|] eqn:E; [|discriminate H]. replace (p ++ c :: s) with ((p ++ [c]) ++ s) by (rewrite <- app_assoc; reflexivity). apply (IH _ _ H). apply nu_more; [exact P|exact (D c d E)].
Qed.
Lemma numeral_all base digit s n : (forall c d, digit c = Some d -> digit_of base c d) -> s <> [] -> digits_value base digit 0 s = Some n -> numeral base s n.
Proof.
  intros D Ne H. destruct s as [|c s]; [contradiction|]. cbn [digits_value] in H. destruct (digit c) as [d|] eqn:E; [|discriminate H]. rewrite N.mul_0_l, N.add_0_l in H.
  exact (numeral_of base digit D s d n H [c] (nu_one base c d (D c d E))).
Qed.
Lemma dec_digit c d : dec_value c = Some d -> digit_of 10 c d.
Proof. unfold dec_value, is_digit, digit_of. destruct (N.leb 48 c && N.leb c 57)%bool eqn:E; [|discriminate]. intros H. apply Some_inj in H. subst. left. lia. Qed.
Lemma hex_digit c d : hex_value c = Some d -> digit_of 16 c d.
Proof.
  unfold hex_value, digit_of. destruct (N.leb 48 c && N.leb c 57)%bool eqn:E1; [intros H; apply Some_inj in H; subst; left; lia|].
  destruct (N.leb 65 c && N.leb c 70)%bool eqn:E2; [intros H; apply Some_inj in H; subst; right; split; [reflexivity|right; lia]|].
  destruct (N.leb 97 c && N.leb c 102)%bool eqn:E3; [intros H; apply Some_inj in H; subst; right; split; [reflexivity|left; lia]|discriminate].
Qed.
Lemma checked_some n c : checked n = Some c -> n = Some c /\ xml_char c.
Proof. unfold checked. destruct n as [m|]; [|discriminate]. destruct (is_char m) eqn:E; [|discriminate]. intros H. apply Some_inj in H. subst. split; [reflexivity|apply is_char_spec; exact E]. Qed.
Lemma deref_refers r c : deref r = Some c -> refers (38%N :: r ++ [59%N]) c.
Proof.
  unfold deref. intros H. destruct (str_eqb r (lit "amp")) eqn:E; [apply str_eqb_spec in E; apply Some_inj in H; subst; exact re_amp|]. clear E.
  destruct (str_eqb r (lit "lt")) eqn:E; [apply str_eqb_spec in E; apply Some_inj in H; subst; exact re_lt|]. clear E.
  destruct (str_eqb r (lit "gt")) eqn:E; [apply str_eqb_spec in E; apply Some_inj in H; subst; exact re_gt|]. clear E.
  destruct (str_eqb r (lit "quot")) eqn:E; [apply str_eqb_spec in E; apply Some_inj in H; subst; exact re_quot|]. clear E.
  destruct (str_eqb r (lit "apos")) eqn:E; [apply str_eqb_spec in E; apply Some_inj in H; subst; exact re_apos|]. clear E.
  destruct r as [|c0 r]; [discriminate H|]. destruct (N.eqb_spec c0 35) as [->|]; [|discriminate H]. unfold char_number in H. destruct r as [|c1 h]; [discriminate H|].
  destruct (N.eqb_spec c1 120) as [->|N1].
  - destruct h as [|c2 h]; [discriminate H|]. apply checked_some in H. destruct H as (H & X). apply (re_hex (c2 :: h)); [|exact X]. apply (numeral_all 16 hex_value); [exact hex_digit|discriminate|exact H].
  - apply checked_some in H. destruct H as (H & X). apply (re_dec (c1 :: h)); [|exact X]. apply (numeral_all 10 dec_value); [exact dec_digit|discriminate|exact H].
Qed.
