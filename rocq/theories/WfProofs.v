(* What the serializer writes is well-formed. *)
From Verif Require Import Base BaseProofs Lit NumModel NumProofs TextModel TextSpec TextProofs Utf8Model MsgModel MsgSpec XmlModel SerModel SerProofs XtModel XtSpec XtProofs XtProofs3 ClsSpec WfSpec.
Require Import Lia ZifyBool ZifyNat ZifyN.
Local Open Scope list_scope.

(* ---- texts ---- *)
(* printable ASCII *)
Definition visible (c : N) : Prop := (32 <= c <= 126)%N.
Lemma visible_raw s : Forall visible s -> raw s.
Proof.
  intros H. split.
  - eapply Forall_impl; [|exact H]. unfold visible, xml_char. intros c K. lia.
  - intros K. rewrite Forall_forall in H. specialize (H _ K). unfold visible in H. lia.
Qed.
Lemma raw_app a b : raw a -> raw b -> raw (a ++ b).
Proof.
  intros (A1 & A2) (B1 & B2). split; [apply Forall_app; split; assumption|]. intros K. apply in_app_iff in K. tauto.
Qed.
Lemma raw_said s : raw s -> said s.
Proof. intros (A & _). eapply Forall_impl; [|exact A]. unfold xml_char, scalar. intros c K. lia. Qed.
Lemma raw_one s c : raw s -> In c s -> raw [c].
Proof.
  intros (A & B) H. rewrite Forall_forall in A. split; [constructor; [apply A; exact H|constructor]|]. intros [K|[]]. subst c. exact (B H).
Qed.
Lemma raw_cons c s : xml_char c -> c <> 13%N -> raw s -> raw (c :: s).
Proof. intros A B (C & D). split; [constructor; assumption|]. intros [K|K]; [exact (B K)|exact (D K)]. Qed.
Lemma raw_nil : raw []. Proof. split; [constructor|intros []]. Qed.
(* the hexadecimal digits of an escape *)
Lemma hex_visible d : (d < 16)%N -> visible (hex_digit d).
Proof. intros H. unfold hex_digit, visible. destruct (N.ltb_spec d 10); lia. Qed.
Lemma unit_visible u : (u < 65536)%N -> Forall visible (escape_unit u).
Proof.
  intros H. unfold escape_unit, unit_be, hexlify_upper, hex_of_byte. cbn [flat_map app].
  assert (u / 256 < 256)%N by (apply N.div_lt_upper_bound; lia). assert (u mod 256 < 256)%N by (apply N.mod_lt; lia).
  repeat constructor; try (apply hex_visible; first [apply N.div_lt_upper_bound; lia|apply N.mod_lt; lia]); unfold visible; lia.
Qed.
Lemma char_visible c : needs_escape c = true -> Forall visible (escape_char c).
Proof.
  intros H. unfold escape_char, utf16_units_of. unfold needs_escape in H. unfold is_surrogate.
  destruct (N.leb 55296 c && N.leb c 57343)%bool eqn:E; [lia|]. destruct (N.ltb_spec c 65536).
  - cbn [flat_map]. rewrite app_nil_r. apply unit_visible. lia.
  - cbn [flat_map]. rewrite app_nil_r. apply Forall_app.
    assert ((c - 65536) / 1024 < 1024)%N by (apply N.div_lt_upper_bound; lia). assert ((c - 65536) mod 1024 < 1024)%N by (apply N.mod_lt; lia).
    split; apply unit_visible; lia.
Qed.
Lemma special_raw s : Forall (fun c => scalar c /\ c <> 65534 /\ c <> 65535)%N s -> raw (sub_special s).
Proof.
  unfold sub_special. induction 1 as [|c s (H1 & H2 & H3) _ IH]; [apply raw_nil|]. cbn [flat_map]. apply raw_app; [|exact IH].
  destruct (needs_escape c) eqn:E; [apply visible_raw, char_visible; exact E|]. unfold needs_escape in E. unfold scalar in H1.
  apply raw_cons; [unfold xml_char; lia|lia|apply raw_nil].
Qed.
Lemma underscore_said : forall n s, (length s <= n)%nat -> said s -> said (sub_underscore s).
Proof.
  induction n as [|n IH]; intros [|c s] L H; cbn [length] in L; try apply Forall_nil; [inversion L|].
  pose proof (Forall_inv H) as Hc. pose proof (Forall_inv_tail H) as Hs. cbn [sub_underscore]. destruct (N.eqb c 95).
  - destruct s as [|d s]; [exact H|]. destruct (is_x d).
    + apply Forall_app. split; [unfold esc_underscore, scalar; repeat (apply Forall_cons; [lia|]); apply Forall_nil|].
      apply Forall_cons; [exact (Forall_inv Hs)|]. apply IH; [cbn [length] in L; lia|exact (Forall_inv_tail Hs)].
    + apply Forall_cons; [exact Hc|]. apply IH; [lia|exact Hs].
  - apply Forall_cons; [exact Hc|]. apply IH; [lia|exact Hs].
Qed.
Lemma string_raw s : said s -> raw (serialize_string s).
Proof. intros H. apply special_raw. exact (underscore_said _ s (le_n _) H). Qed.
Lemma dec_raw n : raw (dec n).
Proof.
  apply visible_raw. destruct (dec_spec n) as (_ & H & _). eapply Forall_impl; [|exact H]. unfold digit, visible. intros c K. lia.
Qed.
Lemma int_raw z : raw (py_str z).
Proof. unfold py_str. destruct (z <? 0)%Z; [apply raw_cons; [unfold xml_char; lia|lia|]|]; apply dec_raw. Qed.
Lemma b64_visible v : visible (b64_char v).
Proof. unfold b64_char, visible. destruct (N.ltb_spec v 26); [lia|]. destruct (N.ltb_spec v 52); [lia|]. destruct (N.ltb_spec v 62); [lia|]. destruct (N.eqb v 62); lia. Qed.
Lemma b64_raw : forall n b, (length b <= n)%nat -> Forall visible (b64encode b).
Proof.
  assert (P : visible 61%N) by (unfold visible; lia).
  induction n as [|n IH]; intros [|x [|y [|z b]]] L; cbn [length] in L; try (inversion L; fail); cbn [b64encode app];
    repeat (apply Forall_cons; [first [apply b64_visible|exact P]|]); try apply Forall_nil. apply IH. lia.
Qed.
Lemma hexlify_visible b : bytes_ok b -> Forall visible (hexlify b).
Proof.
  unfold hexlify. induction 1 as [|x b H _ IH]; [constructor|]. cbn [flat_map app].
  assert (x / 16 < 16)%N by (apply N.div_lt_upper_bound; lia). assert (x mod 16 < 16)%N by (apply N.mod_lt; lia).
  repeat (apply Forall_cons; [unfold hex_digit_lower, visible; match goal with |- context [N.ltb ?a ?b] => destruct (N.ltb_spec a b) end; lia|]). exact IH.
Qed.
Lemma guid_raw g : is_guid g -> raw (guid_str g).
Proof.
  intros (_ & H). apply visible_raw. unfold guid_str.
  assert (D : Forall visible [45%N]) by (constructor; [unfold visible; lia|constructor]).
  assert (P : forall n, bytes_ok (firstn n g) /\ bytes_ok (skipn n g)).
  { intros n. rewrite <- (firstn_skipn n g) in H. apply Forall_app in H. exact H. }
  assert (Q : forall n k, bytes_ok (firstn n (skipn k g))).
  { intros n k. destruct (P k) as (_ & K). unfold bytes_ok in *. rewrite <- (firstn_skipn n (skipn k g)) in K. apply Forall_app in K. apply K. }
  repeat (apply Forall_app; split); try exact D; apply hexlify_visible; first [apply Q|apply P].
Qed.
Lemma lower_raw s : raw s -> raw (ascii_lower s).
Proof.
  intros (A & B). unfold ascii_lower. split.
  - apply Forall_map. eapply Forall_impl; [|exact A]. intros c. unfold xml_char. destruct (N.leb 65 c && N.leb c 90)%bool eqn:E; lia.
  - intros K. apply in_map_iff in K. destruct K as (c & E & K). destruct (N.leb 65 c && N.leb c 90)%bool eqn:F; [lia|]. subst c. exact (B K).
Qed.

(* ---- trees ---- *)
Definition safe (x : xml) : Prop := writable x /\ unreturned x.
Lemma safe_elem t a txt kids : nc_name t -> NoDup (map fst a) ->
  Forall (fun kv => nc_name (fst kv) /\ fst kv <> lit "xmlns" /\ Forall xml_char (snd kv)) a ->
  (forall s, txt = Some s -> raw s) -> Forall safe kids -> safe (Elem t a txt kids).
Proof.
  intros A B C D E. split.
  - cbn [writable]. split; [left; exact A|]. split; [exact B|]. split; [eapply Forall_impl; [|exact C]; intros kv (K1 & K2); split; [left; exact K1|exact K2]|].
    split; [intros s K; apply (D s K)|]. induction E as [|y l (K & _) _ IH]; [exact I|]. split; assumption.
  - cbn [unreturned]. split; [intros s K; apply (D s K)|]. induction E as [|y l (_ & K) _ IH]; [exact I|]. split; assumption.
Qed.
Lemma nc s : ncname s = true -> nc_name s. Proof. apply ncname_nc. Qed.
Lemma dict_set_keys (k v : list N) a : NoDup (map fst a) -> NoDup (map fst (dict_set str_eqb k v a)) /\ forall x, In x (dict_set str_eqb k v a) -> x = (k, v) \/ In x a.
Proof.
  induction a as [|[k' v'] a IH]; intros H; cbn [dict_set].
  - split; [constructor; [intros []|constructor]|]. intros x [<- |[]]. left. reflexivity.
  - cbn [map fst] in H. apply NoDup_cons_iff in H. destruct H as (H1 & H2). destruct (str_eqb k k') eqn:E.
    + apply str_eqb_spec in E. subst k'. split; [cbn [map fst]; apply NoDup_cons_iff; split; assumption|]. intros x [<- |K]; [left; reflexivity|right; right; exact K].
    + destruct (IH H2) as (I1 & I2). split.
      * cbn [map fst]. apply NoDup_cons_iff. split; [|exact I1]. intros K. apply in_map_iff in K. destruct K as (x & Ex & K). destruct (I2 x K) as [-> |K'].
        -- cbn [fst] in Ex. subst k'. rewrite str_eqb_refl in E. discriminate E.
        -- apply H1. rewrite <- Ex. apply in_map. exact K'.
      * intros x [<- |K]; [right; left; reflexivity|]. destruct (I2 x K); [left|right; right]; assumption.
Qed.
Lemma safe_set k v x : nc_name k -> k <> lit "xmlns" -> Forall xml_char v -> safe x -> safe (set_attr k v x).
Proof.
  destruct x as [t a txt kids]. intros Hk Hx Hv (W & U). cbn [set_attr]. split; [|exact U]. cbn [writable] in *. destruct W as (A & B & C & D).
  destruct (dict_set_keys k v a B) as (E & F). split; [exact A|]. split; [exact E|]. split; [|exact D].
  apply Forall_forall. intros y Hy. rewrite Forall_forall in C. destruct (F y Hy) as [-> |K]; [|exact (C y K)]. split; [left; exact Hk|]. split; assumption.
Qed.
Lemma tidy_name m : tidy m -> forall n, m_name m = Some n -> Forall xml_char n.
Proof. destruct m as [k t n o c]. intros H. inversion H; subst. assumption. Qed.
Lemma safe_named m x : tidy m -> safe x -> safe (named m x).
Proof.
  intros T H. unfold named. destruct (m_name m) as [n|] eqn:E; [|exact H]. apply safe_set; [apply nc; reflexivity|discriminate|exact (tidy_name m T n E)|exact H].
Qed.
Lemma safe_id t id kids : ncname t = true -> Forall safe kids -> safe (Elem t [(refid, dec id)] None kids).
Proof.
  intros T K. apply safe_elem; [apply nc; exact T|constructor; [intros []|constructor]| |discriminate|exact K].
  constructor; [|constructor]. split; [apply nc; reflexivity|]. split; [discriminate|]. apply dec_raw.
Qed.
Lemma safe_box t kids : ncname t = true -> Forall safe kids -> safe (Elem t [] None kids).
Proof. intros T K. apply safe_elem; [apply nc; exact T|constructor|constructor|discriminate|exact K]. Qed.
Lemma safe_text t s : ncname t = true -> raw s -> safe (Elem t [] (Some s) []).
Proof.
  intros T K. apply safe_elem; [apply nc; exact T|constructor|constructor| |constructor]. intros s' E. apply Some_inj in E. subst s'. exact K.
Qed.
Lemma tn_safe ts st x st' : Forall raw ts -> create_tn ts st = Ok (x, st') -> safe x.
Proof.
  destruct ts as [|t ts]; [discriminate|]. intros F H. unfold create_tn in H. destruct (dict_get str_eqb t (s_tn st)) as [id|]; apply Ok_pair_inj in H; destruct H as (<- & _).
  - apply safe_id; [reflexivity|constructor].
  - apply safe_id; [reflexivity|]. apply Forall_map. eapply Forall_impl; [|exact F]. intros u. apply safe_text. reflexivity.
Qed.
Lemma tn_if_safe ts st xs st' : Forall raw ts -> create_tn_if ts st = Ok (xs, st') -> Forall safe xs.
Proof.
  intros F H. destruct ts as [|t ts].
  - cbn [create_tn_if] in H. apply Ok_pair_inj in H. destruct H as (<- & _). constructor.
  - unfold create_tn_if in H. apply bind_ok in H. destruct H as ([x st1] & H & K). apply Ok_pair_inj in K. destruct K as (<- & _).
    constructor; [exact (tn_safe _ _ _ _ F H)|constructor].
Qed.
Lemma to_string_safe t xs : fair t -> to_string_elem t = Ok xs -> Forall safe xs.
Proof.
  intros F H. unfold to_string_elem in H. destruct t; cbn [unicode_of] in H; try discriminate H.
  - apply Ok_inj in H. subst xs. constructor.
  - cbn [bind] in H. apply Ok_inj in H. subst xs. constructor; [|constructor]. apply safe_text; [reflexivity|]. apply string_raw. exact F.
  - apply bind_ok in H. destruct H as (s & E & H). apply Ok_inj in H. subst xs. constructor; [|constructor]. apply safe_text; [reflexivity|]. apply string_raw. exact (F s E).
Qed.

(* ---- metadata ---- *)
(* what a serialization leaves of the metadata of a list or dictionary *)
Inductive simk : mkind -> mkind -> Prop :=
| sk_plain : simk KPlain KPlain
| sk_list : forall e e' ts, m_tag e = m_tag e' -> simk (m_kind e) (m_kind e') -> simk (KList e ts) (KList e' ts)
| sk_stack : forall e e' ts, simk (KStack e ts) (KStack e' ts)
| sk_queue : forall e e' ts, simk (KQueue e ts) (KQueue e' ts)
| sk_dict : forall k k' e e' ts, m_tag k = m_tag k' -> simk (m_kind k) (m_kind k') -> m_tag e = m_tag e' -> simk (m_kind e) (m_kind e') ->
    simk (KDict k e ts) (KDict k' e' ts).
Fixpoint simk_refl (m : meta) : simk (m_kind m) (m_kind m) :=
  match m as m0 return simk (m_kind m0) (m_kind m0) with
  | Meta k _ _ _ _ =>
      match k as k0 return simk k0 k0 with
      | KPlain => sk_plain
      | KList e ts => sk_list e e ts eq_refl (simk_refl e)
      | KStack e ts => sk_stack e e ts
      | KQueue e ts => sk_queue e e ts
      | KDict a b ts => sk_dict a a b b ts eq_refl (simk_refl a) eq_refl (simk_refl b)
      end
  end.
Lemma simk_trans a b : simk a b -> forall c, simk b c -> simk a c.
Proof.
  induction 1 as [|e e' ts T S IH|e e' ts|e e' ts|k k' e e' ts T1 S1 I1 T2 S2 I2]; intros c H; inversion H; subst.
  - constructor.
  - constructor; [congruence|auto].
  - constructor.
  - constructor.
  - constructor; try congruence; auto.
Qed.
Lemma tidy_kind_of m : tidy m -> tidy_kind (m_kind m).
Proof. destruct m. intros H. inversion H; subst. assumption. Qed.
Lemma tidy_set k m : tidy m -> tidy_kind k -> simk (m_kind m) k -> tidy (set_kind k m).
Proof. destruct m as [k0 t n o c]. cbn [m_kind set_kind]. intros H K S. inversion H; subst. constructor; [assumption| |assumption]. destruct S; assumption || exact I. Qed.
Lemma tidy_tag t m : tidy m -> m_tag m = t \/ m_tag m = star -> tidy (set_tag t m).
Proof.
  destruct m as [k t0 n o c]. cbn [m_tag set_tag]. intros H [-> | ->]; [exact H|]. inversion H as [k' t' n' o' c' H1 H2 H3]; subst. constructor; [assumption| |assumption].
  destruct k; try exact I. destruct H2 as [H2|[H2|[]]]; discriminate H2.
Qed.
Lemma tidy_list_tag m e ts : tidy m -> m_kind m = KList e ts -> In (m_tag m) (map lit ["LST"; "IE"]%string).
Proof. destruct m as [k t n o c]. cbn [m_tag m_kind]. intros H ->. inversion H; subst. assumption. Qed.
Lemma m_kind_set k m : m_kind (set_kind k m) = k. Proof. destruct m. reflexivity. Qed.
Lemma m_tag_set_kind k m : m_tag (set_kind k m) = m_tag m. Proof. destruct m. reflexivity. Qed.
Lemma m_kind_set_tag t m : m_kind (set_tag t m) = m_kind m. Proof. destruct m. reflexivity. Qed.
Lemma m_tag_set_tag t m : m_tag (set_tag t m) = t. Proof. destruct m. reflexivity. Qed.
Lemma set_set_kind k k' m : set_kind k (set_kind k' m) = set_kind k m. Proof. destruct m. reflexivity. Qed.

Section Loose.
  Context (show : value -> list N) (R : nat -> Prop).
  Notation strict := (strict show R).
  Notation loose := (loose show R).
  Lemma loose_sim m v : loose m v -> forall m', m_tag m = m_tag m' -> simk (m_kind m) (m_kind m') -> loose m' v.
  Proof.
    induction 1 as [m v S|m s S T|m s T|m b T|m t v T L IH|m e l T M L IH|m km vm d T M L1 I1 L2 I2|m n T Rn]; intros m' E K.
    - apply lo_strict. exact S.
    - apply lo_str; [exact S|]. rewrite <- E. exact T.
    - apply lo_hidden. rewrite <- E. exact T.
    - apply lo_bytes. rewrite <- E. exact T.
    - apply lo_tagged; [rewrite <- E; exact T|]. apply IH; [rewrite !m_tag_set_tag; reflexivity|rewrite !m_kind_set_tag; exact K].
    - unfold member_meta in M. destruct (m_kind m) as [|e0 ts|e0 ts|e0 ts|a0 b0 ts] eqn:Km; inversion K; subst; try contradiction.
      + apply (lo_list _ _ m' any_meta); [rewrite <- E; exact T| |exact L]. unfold member_meta. rewrite <- H. reflexivity.
      + apply (lo_list _ _ m' e'); [rewrite <- E; exact T| |].
        * unfold member_meta. rewrite <- H1. reflexivity.
        * intros v Hv. apply (IH v Hv); assumption.
      + apply (lo_list _ _ m' any_meta); [rewrite <- E; exact T| |exact L]. unfold member_meta. rewrite <- H2. reflexivity.
    - unfold pair_meta in M. destruct (m_kind m) as [|e0 ts|e0 ts|e0 ts|a0 b0 ts] eqn:Km.
      5: { destruct M as (-> & ->). inversion K as [| | | |a1 a' b1 b' ts1 T1 S1 T2 S2 Q1 Q2]; subst. apply (lo_dict _ _ m' a' b'); [rewrite <- E; exact T| | |].
           - unfold pair_meta. rewrite <- Q2. split; reflexivity.
           - intros k v Hi. apply (I1 k v Hi); assumption.
           - intros k v Hi. apply (I2 k v Hi); assumption. }
      all: apply (lo_dict _ _ m' km vm); [rewrite <- E; exact T| |exact L1|exact L2]; unfold pair_meta; inversion K; exact M.
    - apply lo_obj; [rewrite <- E; exact T|exact Rn].
  Qed.
  Lemma loose_other key v : loose any_meta v -> loose (object_meta star key) v.
  Proof. intros H. apply (loose_sim _ _ H); [reflexivity|constructor]. Qed.
End Loose.
