(* The bytes of WSMan requests are read as what was asked. *)
From Verif Require Import Base BaseProofs Lit NumModel NumProofs TextModel TextSpec TextProofs Utf8Model XmlModel XtModel XtSpec XtProofs XtProofs3
  WfSpec WfProofs WsmanModel WsmanSpec ShellModel ShellSpec EnvModel EnvSpec.
From Verif Require WsmanProofs.
Require Import Lia ZifyBool ZifyNat ZifyN.
Local Open Scope list_scope.

(* ---- elements that arrive ---- *)
Lemma ar_tag x y : XtSpec.arrives x y -> x_tag y = x_tag x.
Proof. intros []. reflexivity. Qed.
Lemma ar_attr x y k : XtSpec.arrives x y -> attr k (Some y) = attr k (Some x).
Proof. intros []. reflexivity. Qed.
Lemma ar_kids x y : XtSpec.arrives x y -> Forall2 XtSpec.arrives (x_children x) (x_children y).
Proof. intros [t a txt txt' kids kids' _ K]. exact K. Qed.
Lemma ar_words x y : XtSpec.arrives x y -> line_fed (words x) (words y).
Proof.
  intros [t a txt txt' kids kids' H _]. unfold words. cbn [text_of]. destruct txt as [s|].
  - destruct H as (s' & F & [(-> & ->)|(_ & ->)]); exact F.
  - subst txt'. constructor.
Qed.
Lemma ar_avoid tag l l' : Forall2 XtSpec.arrives l l' -> Forall (fun d => x_tag d <> tag) l -> Forall (fun d => x_tag d <> tag) l'.
Proof.
  induction 1 as [|x y l l' A _ IH]; intros F; [constructor|]. constructor; [rewrite (ar_tag _ _ A); exact (Forall_inv F)|apply IH, (Forall_inv_tail F)].
Qed.
Lemma ar_sole tag x y c : XtSpec.arrives x y -> sole tag x c -> exists c', sole tag y c' /\ XtSpec.arrives c c'.
Proof.
  intros A (before & after & E & T & F). apply ar_kids in A. rewrite E in A. apply Forall2_app_inv_l in A. destruct A as (b' & r & B & R & E').
  inversion R as [|c0 c' a0 a' C D E1 E2]. subst. exists c'. split; [|exact C]. exists b', a'. split; [exact E'|]. split; [rewrite (ar_tag _ _ C); reflexivity|].
  apply Forall_app in F. destruct F as [F1 F2]. apply Forall_app. split; eapply ar_avoid; eassumption.
Qed.
Lemma ar_lacks tag x y : XtSpec.arrives x y -> lacks tag x -> lacks tag y.
Proof. intros A L. exact (ar_avoid _ _ _ (ar_kids _ _ A) L). Qed.
Lemma ar_field tag x y c text : XtSpec.arrives x y -> sole tag x c -> words c = text -> field y tag text.
Proof.
  intros A S W. destruct (ar_sole _ _ _ _ A S) as (c' & S' & C). exists c'. split; [exact S'|]. rewrite <- W. exact (ar_words _ _ C).
Qed.
Lemma ar_leaf tag attributes text y : XtSpec.arrives (Elem tag attributes (Some text) []) y -> leaf tag attributes text y.
Proof.
  intros A. split; [exact (ar_tag _ _ A)|]. assert (K := ar_kids _ _ A). cbn [x_children] in K. inversion K. split; [reflexivity|].
  split; [exact (ar_words _ _ A)|]. intros k. rewrite (ar_attr _ _ k A). reflexivity.
Qed.
Lemma ar_leaves {B} tag (f : B -> list (list N * list N)) (g : B -> list N) l ys :
  Forall2 XtSpec.arrives (map (fun b => Elem tag (f b) (Some (g b)) []) l) ys -> Forall2 (fun b y => leaf tag (f b) (g b) y) l ys.
Proof.
  revert ys. induction l as [|b l IH]; intros ys H; cbn [map] in H; inversion H; subst; constructor; [apply ar_leaf; assumption|apply IH; assumption].
Qed.

(* ---- the only child with a tag ---- *)
Definition alone (tag : list N) (ds : list xml) : bool := forallb (fun d => negb (str_eqb (x_tag d) tag)) ds.
Lemma alone_ok tag ds : alone tag ds = true -> Forall (fun d => x_tag d <> tag) ds.
Proof.
  intros H. apply Forall_forall. intros d Hd E. unfold alone in H. rewrite forallb_forall in H. specialize (H d Hd). rewrite E, str_eqb_refl in H. discriminate.
Qed.
Lemma nth_split (n : nat) (l : list xml) c : nth_error l n = Some c -> l = firstn n l ++ c :: skipn (S n) l.
Proof.
  revert l. induction n as [|n IH]; intros [|d l] H; cbn [nth_error] in H; try discriminate.
  - apply Some_inj in H. subst d. reflexivity.
  - cbn [firstn skipn app]. f_equal. exact (IH l H).
Qed.
Lemma sole_at n x c tag : nth_error (x_children x) n = Some c -> x_tag c = tag ->
  alone tag (firstn n (x_children x) ++ skipn (S n) (x_children x)) = true -> sole tag x c.
Proof.
  intros E T A. exists (firstn n (x_children x)), (skipn (S n) (x_children x)). split; [apply nth_split, E|]. split; [exact T|]. apply alone_ok, A.
Qed.

Lemma ar_at n tag x y c : XtSpec.arrives x y -> nth_error (x_children x) n = Some c -> x_tag c = tag ->
  alone tag (firstn n (x_children x) ++ skipn (S n) (x_children x)) = true -> exists c', sole tag y c' /\ XtSpec.arrives c c'.
Proof. intros A E T K. exact (ar_sole _ _ _ _ A (sole_at n x c tag E T K)). Qed.

(* ---- elements that can be written ---- *)
Lemma writable_elem t a txt kids : xml_name t -> NoDup (map fst a) ->
  Forall (fun kv => xml_name (fst kv) /\ fst kv <> lit "xmlns" /\ Forall xml_char (snd kv)) a ->
  (forall s, txt = Some s -> fit s) -> Forall writable kids -> writable (Elem t a txt kids).
Proof.
  intros A B C D E. cbn [writable]. split; [exact A|]. split; [exact B|]. split; [exact C|]. split; [exact D|].
  induction E as [|y l K _ IH]; [exact I|]. split; assumption.
Qed.
Definition ns_okb (u : list N) : bool :=
  (negb (str_eqb u []) && forallb is_char u && negb (existsb (N.eqb 125) u) && negb (str_eqb u (lit "http://www.w3.org/2000/xmlns/")))%bool.
Lemma name_ok u l : ns_okb u = true -> ncname l = true -> xml_name (qname u l).
Proof.
  intros H L. right. exists u, l. split; [reflexivity|]. split; [|apply ncname_nc, L].
  unfold ns_okb in H. apply andb_true_iff in H. destruct H as [H H4]. apply andb_true_iff in H. destruct H as [H H3]. apply andb_true_iff in H. destruct H as [H1 H2].
  split; [intros ->; discriminate|]. split; [apply lit_chars_ascii, H2|]. split.
  - intros F. assert (existsb (N.eqb 125) u = true) by (apply existsb_exists; exists 125%N; split; [exact F|reflexivity]). rewrite H in H3. discriminate.
  - intros ->. rewrite str_eqb_refl in H4. discriminate.
Qed.
Lemma fit_lit s : forallb is_char s = true -> fit s.
Proof. apply lit_chars_ascii. Qed.
Lemma fit_app a b : fit a -> fit b -> fit (a ++ b).
Proof. intros A B. apply Forall_app. split; assumption. Qed.
Lemma fit_int z : fit (py_str z).
Proof. apply (int_raw z). Qed.
Lemma fit_upper s : fit s -> fit (upper_text s).
Proof.
  intros H. apply Forall_map. eapply Forall_impl; [|exact H]. intros c. unfold upper_ascii, xml_char. destruct (N.leb 97 c && N.leb c 122)%bool eqn:E; lia.
Qed.
Lemma fit_b64 d : fit (b64encode d).
Proof. apply (visible_raw (b64encode d) (b64_raw (length d) d (le_n _))). Qed.

(* text proofs for closed names *)
Ltac nm := apply name_ok; vm_compute; reflexivity.
Ltac txt := let s := fresh "s" in let E := fresh "E" in intros s E; first [discriminate E | apply Some_inj in E; rewrite <- E].

Lemma must_ok : Forall (fun kv => xml_name (fst kv) /\ fst kv <> lit "xmlns" /\ Forall xml_char (snd kv)) [must_understand].
Proof. constructor; [|constructor]. split; [nm|]. split; [discriminate|apply fit_lit; vm_compute; reflexivity]. Qed.
Lemma one_nodup (kv : list N * list N) : NoDup (map fst [kv]).
Proof. constructor; [intros []|constructor]. Qed.
Lemma lang_ok l : fit l -> NoDup (map fst [must_not_understand; (qname ns_xml (lit "lang"), l)]) /\
  Forall (fun kv => xml_name (fst kv) /\ fst kv <> lit "xmlns" /\ Forall xml_char (snd kv)) [must_not_understand; (qname ns_xml (lit "lang"), l)].
Proof.
  intros H. split; [apply nodupb_ok; vm_compute; reflexivity|].
  constructor; [split; [nm|split; [discriminate|apply fit_lit; vm_compute; reflexivity]]|].
  constructor; [split; [nm|split; [discriminate|exact H]]|constructor].
Qed.
Lemma must_not_ok : Forall (fun kv => xml_name (fst kv) /\ fst kv <> lit "xmlns" /\ Forall xml_char (snd kv)) [must_not_understand].
Proof. constructor; [|constructor]. split; [nm|]. split; [discriminate|apply fit_lit; vm_compute; reflexivity]. Qed.

(* ---- sets ---- *)
Lemma packed s es : pack_set (built s es) = Elem (qname ns_wsman (ws_element s)) (if ws_must s then [must_understand] else []) None
  (map (fun e => Elem (qname ns_wsman (ws_child s)) (dict_set str_eqb (lit "Name") (fst (fst e)) (snd e)) (Some (snd (fst e))) []) (ws_values s ++ es)).
Proof.
  unfold built, pack_set. destruct (WsmanProofs.add_options_values s es) as (E1 & E2 & E3 & E4). rewrite E1, E2, E4. f_equal.
  apply map_ext. intros [[k v] a]. cbn [pack_entry fst snd]. rewrite E3. reflexivity.
Qed.
Lemma entry_writable tag e : xml_name tag -> fit_entry e ->
  writable (Elem tag (dict_set str_eqb (lit "Name") (fst (fst e)) (snd e)) (Some (snd (fst e))) []).
Proof.
  intros T (K & V & D & A). destruct (dict_set_keys (lit "Name") (fst (fst e)) (snd e) D) as (D' & I). apply writable_elem.
  - exact T.
  - exact D'.
  - apply Forall_forall. intros x Hx. apply I in Hx. destruct Hx as [-> |Hx]; [|rewrite Forall_forall in A; exact (A x Hx)].
    cbn [fst snd]. split; [left; apply ncname_nc; vm_compute; reflexivity|]. split; [discriminate|exact K].
  - txt. exact V.
  - constructor.
Qed.
Lemma entries_read tag es ys :
  Forall2 XtSpec.arrives (map (fun e : entry => Elem tag (dict_set str_eqb (lit "Name") (fst (fst e)) (snd e)) (Some (snd (fst e))) []) es) ys ->
  Forall2 (entry_read tag) es ys.
Proof.
  revert ys. induction es as [|e es IH]; intros ys H; cbn [map] in H; inversion H as [|x0 y l l' A B E1 E2]; subst; constructor; [|apply IH, B].
  destruct (ar_leaf _ _ _ _ A) as (L1 & L2 & L3 & L4). split; [exact L1|]. split; [exact L2|]. split; [exact L3|]. split.
  - rewrite L4. apply WsmanProofs.dict_get_set_same.
  - intros k Hk. rewrite L4. apply WsmanProofs.dict_get_set_other, Hk.
Qed.
Lemma set_writable s es : (s = option_set \/ s = selector_set) -> Forall fit_entry es -> writable (pack_set (built s es)).
Proof.
  intros S F. rewrite packed.
  assert (F' : Forall fit_entry (ws_values s ++ es)) by (destruct S as [-> | ->]; exact F).
  apply writable_elem.
  - destruct S as [-> | ->]; nm.
  - destruct S as [-> | ->]; [apply one_nodup|constructor].
  - destruct S as [-> | ->]; [apply must_ok|constructor].
  - txt.
  - apply Forall_map. eapply Forall_impl; [|exact F']. intros e. apply entry_writable. destruct S as [-> | ->]; nm.
Qed.

(* ---- envelopes ---- *)
Definition sets (s : wset) (es : option (list entry)) : option wset := option_map (built s) es.
Definition packs (s : wset) (es : option (list entry)) : list xml := match sets s es with Some p => [pack_set p] | None => [] end.
Lemma packs_writable s es : (s = option_set \/ s = selector_set) -> fit_set es -> Forall writable (packs s es).
Proof. intros S F. unfold packs, sets. destruct es as [es|]; cbn [option_map]; [|constructor]. constructor; [apply set_writable; assumption|constructor]. Qed.

Ltac fields t := first [apply Forall_nil | apply Forall_cons; [t | fields t]].
Lemma header_writable w uuid action uri oes ses timeout : fit_wsman w -> fit uuid -> fit action -> fit uri -> fit_set oes -> fit_set ses ->
  writable (create_header w uuid action uri (sets option_set oes) (sets selector_set ses) timeout).
Proof.
  intros (W1 & W2 & W3 & W4) U A R O S. unfold create_header. apply writable_elem; [nm|constructor|constructor|txt|].
  apply Forall_app. split; [|apply Forall_app; split; [apply packs_writable; auto|apply (packs_writable selector_set); auto]].
  destruct (lang_ok _ W2) as (L1 & L2). destruct (lang_ok _ W3) as (L3 & L4).
  fields ltac:(apply writable_elem; [nm|first [exact L1|exact L3|apply one_nodup|apply NoDup_nil]|
    first [exact L2|exact L4|apply must_ok|apply must_not_ok|apply Forall_nil]|txt|try apply Forall_nil]).
  - exact A.
  - apply fit_int.
  - apply fit_app; [apply fit_lit; vm_compute; reflexivity|]. apply fit_upper, U.
  - apply fit_app; [apply fit_lit; reflexivity|]. apply fit_app; [apply fit_int|apply fit_lit; reflexivity].
  - apply Forall_cons; [|apply Forall_nil]. apply writable_elem; [nm|apply one_nodup|apply must_ok|txt|constructor]. apply fit_lit. vm_compute. reflexivity.
  - exact R.
  - apply fit_app; [apply fit_lit; vm_compute; reflexivity|]. apply fit_upper, W1.
  - exact W4.
Qed.
Lemma action_fit o : fit (op_action o).
Proof. destruct o; apply fit_lit; vm_compute; reflexivity. Qed.
Lemma action_standard o : op_action o = standard_action o.
Proof. destruct o; reflexivity. Qed.

Definition the_request (a : asked) (body : option xml) : sreq :=
  {| q_op := a_op a; q_uri := Some (a_uri a); q_body := body; q_options := sets option_set (a_options a);
     q_selectors := sets selector_set (a_selectors a); q_timeout := a_timeout a |}.
Definition fit_asked (a : asked) : Prop := fit (a_uri a) /\ fit_set (a_options a) /\ fit_set (a_selectors a).

Lemma set_header w uuid action uri oes ses timeout y :
  XtSpec.arrives (create_header w uuid action uri (sets option_set oes) (sets selector_set ses) timeout) y ->
  set_read (dmtf (lit "OptionSet")) (dmtf (lit "Option")) oes y /\ set_read (dmtf (lit "SelectorSet")) (dmtf (lit "Selector")) ses y.
Proof.
  intros A. assert (P : forall s es, pack_set (built s es) = Elem (qname ns_wsman (ws_element s)) (if ws_must s then [must_understand] else []) None
     (map (fun e => Elem (qname ns_wsman (ws_child s)) (dict_set str_eqb (lit "Name") (fst (fst e)) (snd e)) (Some (snd (fst e))) []) (ws_values s ++ es))) by apply packed.
  unfold create_header, sets in A.
  destruct oes as [oes|], ses as [ses|]; cbn [option_map app] in A; rewrite ?P in A; split; cbn [set_read];
    first [ eapply ar_lacks; [exact A|apply alone_ok; vm_compute; reflexivity] | idtac ].
  - destruct (ar_at 10 (dmtf (lit "OptionSet")) _ _ _ A eq_refl eq_refl eq_refl) as (c & S & C).
    exists c. split; [exact S|]. apply entries_read. exact (ar_kids _ _ C).
  - destruct (ar_at 11 (dmtf (lit "SelectorSet")) _ _ _ A eq_refl eq_refl eq_refl) as (c & S & C).
    exists c. split; [exact S|]. apply entries_read. exact (ar_kids _ _ C).
  - destruct (ar_at 10 (dmtf (lit "OptionSet")) _ _ _ A eq_refl eq_refl eq_refl) as (c & S & C).
    exists c. split; [exact S|]. apply entries_read. exact (ar_kids _ _ C).
  - destruct (ar_at 10 (dmtf (lit "SelectorSet")) _ _ _ A eq_refl eq_refl eq_refl) as (c & S & C).
    exists c. split; [exact S|]. apply entries_read. exact (ar_kids _ _ C).
Qed.

Lemma alone_packs tag oes ses : str_eqb (qname ns_wsman (lit "OptionSet")) tag = false -> str_eqb (qname ns_wsman (lit "SelectorSet")) tag = false ->
  alone tag (packs option_set oes ++ packs selector_set ses) = true.
Proof.
  intros E1 E2. unfold packs, sets, alone. destruct oes as [oes|], ses as [ses|]; cbn [option_map app]; rewrite ?packed; cbn [forallb x_tag];
    change (ws_element option_set) with (lit "OptionSet"); change (ws_element selector_set) with (lit "SelectorSet"); rewrite ?E1, ?E2; reflexivity.
Qed.
(* the fixed fields of the header *)
Lemma header_sole n tag w uuid action uri oes ses timeout c :
  let hd := create_header w uuid action uri (sets option_set oes) (sets selector_set ses) timeout in
  (n < 10)%nat -> nth_error (x_children hd) n = Some c -> x_tag c = tag ->
  str_eqb (qname ns_wsman (lit "OptionSet")) tag = false -> str_eqb (qname ns_wsman (lit "SelectorSet")) tag = false ->
  alone tag (firstn n (x_children hd) ++ firstn (9 - n) (skipn (S n) (x_children hd))) = true -> sole tag hd c.
Proof.
  intros hd L E T E1 E2 A. apply (sole_at n); [exact E|exact T|].
  unfold alone in *. rewrite forallb_app in *. apply andb_prop in A. destruct A as [A1 A2]. rewrite A1. cbn [andb].
  rewrite <- (firstn_skipn (9 - n) (skipn (S n) (x_children hd))), forallb_app, A2. cbn [andb].
  replace (skipn (9 - n) (skipn (S n) (x_children hd))) with (packs option_set oes ++ packs selector_set ses); [apply alone_packs; assumption|].
  clear - L. do 10 (destruct n as [|n]; [reflexivity|]). lia.
Qed.
Ltac sole_n n := eapply (header_sole n); [lia|reflexivity|reflexivity|reflexivity|reflexivity|reflexivity].

Theorem request_received w uuid a body : fit_wsman w -> fit uuid -> fit_asked a -> (forall x, body = Some x -> writable x) ->
  exists b, request_bytes w uuid (the_request a body) = Ok b /\
    received b (fun y => exists bd, asks w uuid a y bd /\ Forall2 XtSpec.arrives (match body with Some x => [x] | None => [] end) (x_children bd)).
Proof.
  intros W U (R & O & S) B. unfold request_bytes, the_request. cbn [q_op q_uri q_body q_options q_selectors q_timeout].
  set (hd := create_header w uuid (op_action (a_op a)) (a_uri a) (sets option_set (a_options a)) (sets selector_set (a_selectors a)) (a_timeout a)).
  set (bd := Elem (qname ns_s (lit "Body")) [] None (match body with Some r => [r] | None => [] end)).
  change (envelope w uuid (op_action (a_op a)) (a_uri a) body (sets option_set (a_options a)) (sets selector_set (a_selectors a)) (a_timeout a))
    with (Elem (qname ns_s (lit "Envelope")) [] None [hd; bd]).
  assert (HW : writable hd) by (apply header_writable; auto; apply action_fit).
  assert (BW : writable bd).
  { apply writable_elem; [nm|constructor|constructor|txt|]. destruct body as [x|]; [constructor; [apply B; reflexivity|constructor]|constructor]. }
  assert (EW : writable (Elem (qname ns_s (lit "Envelope")) [] None [hd; bd])).
  { apply writable_elem; [nm|constructor|constructor|txt|]. constructor; [exact HW|]. constructor; [exact BW|constructor]. }
  destruct (carried library_registry _ library_usable EW) as (b & s & y & E & K & D & P & A).
  exists b. split; [exact E|]. split; [exact K|]. exists s, y. split; [exact D|]. split; [exact P|].
  destruct (ar_sole (soap (lit "Body")) _ _ bd A) as (bd' & SB & AB); [apply (sole_at 1); reflexivity|].
  destruct (ar_sole (soap (lit "Header")) _ _ hd A) as (hd' & SH & AH); [apply (sole_at 0); reflexivity|].
  exists bd'. split; [|exact (ar_kids _ _ AB)]. split; [exact (ar_tag _ _ A)|]. split; [exact SB|]. exists hd'. split; [exact SH|].
  split; [eapply ar_field; [exact AH|sole_n 0%nat|cbn [words text_of]; apply action_standard]|].
  split; [eapply ar_field; [exact AH|sole_n 7%nat|reflexivity]|].
  split; [eapply ar_field; [exact AH|sole_n 9%nat|reflexivity]|].
  split; [eapply ar_field; [exact AH|sole_n 4%nat|reflexivity]|].
  split; [eapply ar_field; [exact AH|sole_n 8%nat|reflexivity]|].
  split; [eapply ar_field; [exact AH|sole_n 3%nat|reflexivity]|].
  split; [eapply ar_field; [exact AH|sole_n 5%nat|reflexivity]|].
  split; [destruct (ar_sole (dmtf (lit "Locale")) _ _ _ AH (header_sole 2 _ _ _ _ _ _ _ _ _ ltac:(lia) eq_refl eq_refl eq_refl eq_refl eq_refl)) as (c & SC & AC); exists c; split; [exact SC|rewrite (ar_attr _ _ _ AC); reflexivity]|].
  split; [destruct (ar_sole (microsoft (lit "DataLocale")) _ _ _ AH (header_sole 1 _ _ _ _ _ _ _ _ _ ltac:(lia) eq_refl eq_refl eq_refl eq_refl eq_refl)) as (c & SC & AC); exists c; split; [exact SC|rewrite (ar_attr _ _ _ AC); reflexivity]|].
  exact (set_header _ _ _ _ _ _ _ _ AH).
Qed.

(* ---- the shell's requests ---- *)
Lemma id_attr_ok k (id : option (list N)) : nc_name k -> k <> lit "xmlns" -> fit_opt id ->
  NoDup (map fst (match id with Some i => [(k, i)] | None => [] end)) /\
  Forall (fun kv => xml_name (fst kv) /\ fst kv <> lit "xmlns" /\ Forall xml_char (snd kv)) (match id with Some i => [(k, i)] | None => [] end).
Proof.
  intros A B F. destruct id as [i|]; [|split; constructor]. split; [apply one_nodup|]. constructor; [|constructor]. split; [left; exact A|]. split; [exact B|exact F].
Qed.
Lemma leaf_writable tag text : xml_name tag -> fit text -> writable (text_elem tag text).
Proof. intros A B. apply writable_elem; [exact A|constructor|constructor|txt; exact B|constructor]. Qed.
Ltac nc1 := apply ncname_nc; vm_compute; reflexivity.

Lemma command_writable x a id : fit x -> Forall fit (match a with Some l => l | None => [] end) -> fit_opt id -> writable (command_line x a id).
Proof.
  intros X A I. destruct (id_attr_ok (lit "CommandId") id) as (D1 & D2); [nc1|discriminate|exact I|].
  apply writable_elem; [nm|exact D1|exact D2|txt|]. constructor; [apply leaf_writable; [nm|exact X]|].
  apply Forall_map. eapply Forall_impl; [|exact A]. intros s. apply leaf_writable. nm.
Qed.
Lemma command_runs x a id bd : Forall2 XtSpec.arrives [command_line x a id] (x_children bd) ->
  runs x (match a with Some l => l | None => [] end) id bd.
Proof.
  intros F. inversion F as [|c0 c l l' A B E1 E2]. subst. inversion B. subst. assert (K := ar_kids _ _ A). cbn [command_line x_children] in K.
  inversion K as [|d0 d m m' D G E3 E4]. subst. exists c, d, m'. split; [symmetry; assumption|]. split; [exact (ar_tag _ _ A)|].
  split; [rewrite (ar_attr _ _ _ A); destruct id; reflexivity|]. split; [symmetry; assumption|]. split; [exact (ar_leaf _ _ _ _ D)|].
  exact (ar_leaves (rshell (lit "Arguments")) (fun _ => []) (fun s => s) _ _ G).
Qed.
Lemma fed_same s t : ~ In 13%N s -> line_fed s t -> t = s.
Proof.
  intros H F. induction F as [|c s t Hc F IH|s t F IH|s t _ F IH]; [reflexivity| | |].
  - f_equal. apply IH. intros K. apply H. right. exact K.
  - exfalso. apply H. left. reflexivity.
  - exfalso. apply H. left. reflexivity.
Qed.
Lemma send_writable st d id e : fit st -> fit_opt id -> writable (send_body st d id e).
Proof.
  intros S I. apply writable_elem; [nm|constructor|constructor|txt|]. constructor; [|constructor].
  apply writable_elem; [nm| | |txt; apply fit_b64|constructor].
  - destruct e as [e|], id as [i|]; apply nodupb_ok; vm_compute; reflexivity.
  - assert (P : forall k v, ncname k = true -> str_eqb k (lit "xmlns") = false -> fit v -> xml_name k /\ k <> lit "xmlns" /\ Forall xml_char v).
    { intros k v N1 N2 V. split; [left; apply ncname_nc, N1|]. split; [intros ->; rewrite str_eqb_refl in N2; discriminate|exact V]. }
    constructor; [apply P; [reflexivity|reflexivity|exact S]|]. apply Forall_app. split.
    + destruct e as [[|]|]; [| |constructor]; (constructor; [|constructor]); (apply P; [reflexivity|reflexivity|apply fit_lit; reflexivity]).
    + destruct id as [i|]; [|constructor]. constructor; [|constructor]. apply P; [reflexivity|reflexivity|exact I].
Qed.
Lemma send_feeds st d id e bd : bytes_ok d -> Forall2 XtSpec.arrives [send_body st d id e] (x_children bd) -> feeds st d id e bd.
Proof.
  intros K F. inversion F as [|c0 c l l' A B E1 E2]. subst. inversion B. subst. assert (C := ar_kids _ _ A). cbn [send_body x_children] in C.
  inversion C as [|d0 y m m' D G E3 E4]. subst. inversion G. subst. exists c, y. split; [symmetry; assumption|]. split; [exact (ar_tag _ _ A)|].
  split; [symmetry; assumption|]. destruct (ar_leaf _ _ _ _ D) as (L1 & L2 & L3 & L4). split; [exact L1|]. split; [exact L2|].
  split; [rewrite L4; reflexivity|]. split; [rewrite L4; destruct e as [e|], id as [i|]; reflexivity|].
  split; [rewrite L4; destruct e as [[|]|], id as [i|]; reflexivity|].
  assert (V := visible_raw _ (b64_raw (length d) d (le_n _))). rewrite (fed_same _ _ (proj2 V) L3). apply b64_roundtrip, K.
Qed.
Lemma receive_writable st id : fit st -> fit_opt id -> writable (receive_body st id).
Proof.
  intros S I. destruct (id_attr_ok (lit "CommandId") id) as (D1 & D2); [nc1|discriminate|exact I|].
  apply writable_elem; [nm|constructor|constructor|txt|]. constructor; [|constructor]. apply writable_elem; [nm|exact D1|exact D2|txt; exact S|constructor].
Qed.
Lemma receive_polls st id bd : Forall2 XtSpec.arrives [receive_body st id] (x_children bd) -> polls st id bd.
Proof.
  intros F. inversion F as [|c0 c l l' A B E1 E2]. subst. inversion B. subst. assert (C := ar_kids _ _ A). cbn [receive_body x_children] in C.
  inversion C as [|d0 y m m' D G E3 E4]. subst. inversion G. subst. exists c, y. split; [symmetry; assumption|]. split; [exact (ar_tag _ _ A)|].
  split; [symmetry; assumption|]. exact (ar_leaf _ _ _ _ D).
Qed.
Lemma signal_writable code id : fit code -> fit id -> writable (signal_body code id).
Proof.
  intros S I. destruct (id_attr_ok (lit "CommandId") (Some id)) as (D1 & D2); [nc1|discriminate|exact I|].
  apply writable_elem; [nm|exact D1|exact D2|txt|]. constructor; [|constructor]. apply leaf_writable; [nm|exact S].
Qed.
Lemma signal_signals code id bd : Forall2 XtSpec.arrives [signal_body code id] (x_children bd) -> signals code id bd.
Proof.
  intros F. inversion F as [|c0 c l l' A B E1 E2]. subst. inversion B. subst. assert (C := ar_kids _ _ A). cbn [signal_body x_children] in C.
  inversion C as [|d0 y m m' D G E3 E4]. subst. inversion G. subst. exists c, y. split; [symmetry; assumption|]. split; [exact (ar_tag _ _ A)|].
  split; [rewrite (ar_attr _ _ _ A); reflexivity|]. split; [symmetry; assumption|]. exact (ar_leaf _ _ _ _ D).
Qed.

(* ---- a shell to create ---- *)
Lemma alone_app tag a b : alone tag a = true -> alone tag b = true -> alone tag (a ++ b) = true.
Proof. intros A B. unfold alone in *. rewrite forallb_app, A, B. reflexivity. Qed.
Lemma alone_one tag d : str_eqb (x_tag d) tag = false -> alone tag [d] = true.
Proof. intros E. unfold alone. cbn [forallb]. rewrite E. reflexivity. Qed.
Lemma seg_sole {B} tag x y before after (f : B -> xml) (o : option B) : XtSpec.arrives x y ->
  x_children x = before ++ match o with Some a => [f a] | None => [] end ++ after ->
  (forall a, x_tag (f a) = tag) -> alone tag before = true -> alone tag after = true ->
  match o with Some a => exists c, sole tag y c /\ XtSpec.arrives (f a) c | None => lacks tag y end.
Proof.
  intros A E T B1 B2. destruct o as [a|].
  - apply (ar_sole tag x); [exact A|]. exists before, after. split; [exact E|]. split; [apply T|]. apply alone_ok, alone_app; assumption.
  - apply (ar_lacks tag x); [exact A|]. unfold lacks. rewrite E. apply alone_ok. cbn [app]. apply alone_app; assumption.
Qed.
Lemma seg_field {B} tag x y before after (f : B -> list N) (o : option B) : XtSpec.arrives x y ->
  x_children x = before ++ match o with Some a => [text_elem tag (f a)] | None => [] end ++ after ->
  alone tag before = true -> alone tag after = true -> field_if y tag (option_map f o).
Proof.
  intros A E B1 B2. assert (K := seg_sole tag x y before after (fun a => text_elem tag (f a)) o A E (fun _ => eq_refl) B1 B2).
  destruct o as [a|]; cbn [option_map field_if]; [|exact K]. destruct K as (c & S & C). exists c. split; [exact S|]. exact (ar_words _ _ C).
Qed.
Lemma content_alone (content : option xml) name : fit_content content ->
  In name [lit "InputStreams"; lit "OutputStreams"; lit "Environment"; lit "IdleTimeOut"; lit "Lifetime"; lit "Name"; lit "WorkingDirectory"] ->
  alone (rshell name) (match content with Some x => [x] | None => [] end) = true.
Proof.
  intros F I. destruct content as [x|]; [|reflexivity]. destruct (F x eq_refl) as (_ & K). rewrite Forall_forall in K. specialize (K name I).
  unfold alone. cbn [forallb]. rewrite (str_eqb_neq _ _ K). reflexivity.
Qed.
Lemma content_other (content : option xml) x name : fit_content content -> content = Some x ->
  In name [lit "InputStreams"; lit "OutputStreams"; lit "Environment"; lit "IdleTimeOut"; lit "Lifetime"; lit "Name"; lit "WorkingDirectory"] ->
  str_eqb (rshell name) (x_tag x) = false.
Proof.
  intros F E I. destruct (F x E) as (_ & K). rewrite Forall_forall in K. apply str_eqb_neq. intros G. exact (K name I (eq_sym G)).
Qed.
Lemma opt_writable {B} (f : B -> xml) (o : option B) : (forall a, o = Some a -> writable (f a)) -> Forall writable (match o with Some a => [f a] | None => [] end).
Proof. intros H. destruct o as [a|]; [constructor; [apply H; reflexivity|constructor]|constructor]. Qed.
Lemma shell_writable s content : fit_shell s -> fit_content content -> writable (shell_content s content).
Proof.
  intros (I & _ & A & B & C & D & E & F) X. destruct (id_attr_ok (lit "ShellId") (sh_id s)) as (D1 & D2); [nc1|discriminate|exact I|].
  apply writable_elem; [nm|exact D1|exact D2|txt|]. repeat (apply Forall_app; split).
  - constructor; [apply leaf_writable; [nm|exact A]|]. constructor; [|constructor]. apply writable_elem; [nm|constructor|constructor| |constructor].
    intros t K. rewrite K in B. exact B.
  - apply opt_writable. intros env K. rewrite K in F. apply writable_elem; [nm|constructor|constructor|txt|]. apply Forall_map.
    eapply Forall_impl; [|exact F]. intros [k v] (K1 & K2). apply writable_elem; [nm|apply one_nodup| |txt; exact K2|constructor].
    constructor; [|constructor]. split; [left; nc1|]. split; [discriminate|exact K1].
  - apply opt_writable. intros t K. rewrite K in C. apply leaf_writable; [nm|]. apply fit_app; [apply fit_lit; reflexivity|]. apply fit_app; [exact C|apply fit_lit; reflexivity].
  - apply opt_writable. intros t K. apply leaf_writable; [nm|]. apply fit_app; [apply fit_lit; reflexivity|]. apply fit_app; [apply fit_int|apply fit_lit; reflexivity].
  - apply opt_writable. intros t K. rewrite K in D. apply leaf_writable; [nm|exact D].
  - apply opt_writable. intros t K. rewrite K in E. apply leaf_writable; [nm|exact E].
  - apply (opt_writable (fun x => x)). intros x K. apply (X x K).
Qed.
Ltac al F := repeat apply alone_app; first [ reflexivity | apply content_alone; [exact F|cbn [In]; tauto] | match goal with |- alone _ (match ?o with _ => _ end) = true => destruct o; reflexivity end ].
Lemma map_opt {B} (o : option B) : option_map (fun t => t) o = o.
Proof. destruct o; reflexivity. Qed.
Lemma shell_settles s content bd : fit_content content -> Forall2 XtSpec.arrives [shell_content s content] (x_children bd) -> settles s content bd.
Proof.
  intros X F. inversion F as [|c0 c l l' A B E1 E2]. subst. inversion B. subst. exists c. split; [symmetry; assumption|].
  split; [exact (ar_tag _ _ A)|]. split; [rewrite (ar_attr _ _ _ A); unfold shell_content; destruct (sh_id s); reflexivity|].
  unfold shell_content in A.
  match type of A with XtSpec.arrives (Elem _ _ _ ([?i; ?o] ++ ?env ++ ?idle ++ ?life ++ ?nam ++ ?dir ++ ?con)) _ =>
    set (p1 := i) in A; set (p2 := o) in A; set (x := Elem _ _ _ _) in A;
    assert (P1 : x_children x = [] ++ match Some tt with Some _ => [p1] | None => [] end ++ ([p2] ++ env ++ idle ++ life ++ nam ++ dir ++ con)) by reflexivity;
    assert (P2 : x_children x = [p1] ++ match Some tt with Some _ => [p2] | None => [] end ++ (env ++ idle ++ life ++ nam ++ dir ++ con)) by reflexivity;
    assert (P3 : x_children x = [p1; p2] ++ env ++ (idle ++ life ++ nam ++ dir ++ con)) by reflexivity;
    assert (P4 : x_children x = ([p1; p2] ++ env) ++ idle ++ (life ++ nam ++ dir ++ con)) by (rewrite <- ?app_assoc; reflexivity);
    assert (P5 : x_children x = ([p1; p2] ++ env ++ idle) ++ life ++ (nam ++ dir ++ con)) by (rewrite <- ?app_assoc; reflexivity);
    assert (P6 : x_children x = ([p1; p2] ++ env ++ idle ++ life) ++ nam ++ (dir ++ con)) by (rewrite <- ?app_assoc; reflexivity);
    assert (P7 : x_children x = ([p1; p2] ++ env ++ idle ++ life ++ nam) ++ dir ++ con) by (rewrite <- ?app_assoc; reflexivity);
    assert (P8 : x_children x = ([p1; p2] ++ env ++ idle ++ life ++ nam ++ dir) ++ con ++ []) by (rewrite <- ?app_assoc, app_nil_r; reflexivity)
  end.
  assert (Q1 := seg_sole (rshell (lit "InputStreams")) x c _ _ (fun _ => p1) (Some tt) A P1 (fun _ => eq_refl)).
  assert (Q2 := seg_sole (rshell (lit "OutputStreams")) x c _ _ (fun _ => p2) (Some tt) A P2 (fun _ => eq_refl)).
  cbv beta iota in Q1, Q2.
  split; [destruct Q1 as (d & S1 & D1); [reflexivity|al X|]; exists d; split; [exact S1|exact (ar_words _ _ D1)]|].
  split; [destruct Q2 as (d & S2 & D2); [reflexivity|al X|]; exists d; split; [exact S2|]; assert (W := ar_words _ _ D2); exact W|].
  split; [assert (Q := seg_sole (rshell (lit "Environment")) x c _ _ (fun env : list (list N * list N) => Elem (rsp (lit "Environment")) [] None
      (map (fun kv => Elem (rsp (lit "Variable")) [(lit "Name", fst kv)] (Some (snd kv)) []) env)) (sh_env s) A P3 (fun _ => eq_refl)); destruct (sh_env s) as [env|] eqn:Ee|].
  { destruct Q as (d & S3 & D3); [reflexivity|al X|]. exists d. split; [exact S3|].
    exact (ar_leaves (rshell (lit "Variable")) (fun kv : list N * list N => [(lit "Name", fst kv)]) (fun kv => snd kv) _ _ (ar_kids _ _ D3)). }
  { apply Q; [reflexivity|al X]. }
  split; [apply (seg_field (rshell (lit "IdleTimeOut")) x c _ _ (fun t => lit "PT" ++ t ++ lit "S") (sh_idle s) A P4); al X|].
  split; [apply (seg_field (rshell (lit "Lifetime")) x c _ _ seconds (sh_lifetime s) A P5); al X|].
  split; [rewrite <- (map_opt (sh_name s)); apply (seg_field (rshell (lit "Name")) x c _ _ (fun t => t) (sh_name s) A P6); al X|].
  split; [rewrite <- (map_opt (sh_dir s)); apply (seg_field (rshell (lit "WorkingDirectory")) x c _ _ (fun t => t) (sh_dir s) A P7); al X|].
  intros z Hz.
  assert (O : forall name, In name [lit "InputStreams"; lit "OutputStreams"; lit "Environment"; lit "IdleTimeOut"; lit "Lifetime"; lit "Name"; lit "WorkingDirectory"] ->
    str_eqb (rshell name) (x_tag z) = false) by (intros name; apply (content_other content z name X Hz)).
  apply (ar_sole (x_tag z) x c z A). eexists. exists []. split; [rewrite P8, Hz; reflexivity|]. split; [reflexivity|]. rewrite app_nil_r. apply alone_ok.
  pose proof (O (lit "Environment") ltac:(cbn [In]; tauto)) as O3. pose proof (O (lit "IdleTimeOut") ltac:(cbn [In]; tauto)) as O4.
  pose proof (O (lit "Lifetime") ltac:(cbn [In]; tauto)) as O5. pose proof (O (lit "Name") ltac:(cbn [In]; tauto)) as O6.
  pose proof (O (lit "WorkingDirectory") ltac:(cbn [In]; tauto)) as O7.
  repeat apply alone_app.
  1: { unfold alone. cbn [forallb]. change (x_tag p1) with (rshell (lit "InputStreams")). change (x_tag p2) with (rshell (lit "OutputStreams")).
    rewrite !O by (cbn [In]; tauto). reflexivity. }
  all: match goal with |- alone _ (match ?o with _ => _ end) = true => destruct o; [|reflexivity] end.
  all: apply alone_one.
  - exact O3.
  - exact O4.
  - exact O5.
  - exact O6.
  - exact O7.
Qed.

(* the options of a shell *)
Lemma shell_built s base : shell_options s (sets option_set base) = built option_set (settings s base).
Proof.
  unfold shell_options, settings, sets. assert (A : forall es e, add_option (built option_set es) (fst (fst e)) (snd (fst e)) (snd e) = built option_set (es ++ [e])).
  { intros es e. unfold built. rewrite fold_left_app. reflexivity. }
  assert (Z : option_set = built option_set []) by reflexivity.
  assert (P : match option_map (built option_set) base with Some o => o | None => option_set end = built option_set (match base with Some l => l | None => [] end)) by (destruct base; reflexivity).
  rewrite P. destruct (sh_no_profile s); cbn [app].
  - rewrite (A _ (lit "WINRS_NOPROFILE", lit "TRUE", [(lit "MustComply", lit "true")])). destruct (sh_codepage s) as [z|].
    + rewrite (A _ (lit "WINRS_CODEPAGE", py_str z, [])), <- app_assoc. reflexivity.
    + reflexivity.
  - destruct (sh_codepage s) as [z|]; [|rewrite app_nil_r; reflexivity]. rewrite (A _ (lit "WINRS_CODEPAGE", py_str z, [])). reflexivity.
Qed.
Lemma built_values s es : ws_values (built s es) = ws_values s ++ es.
Proof. apply (WsmanProofs.add_options_values s es). Qed.
Lemma settings_fit s base : fit_set base -> Forall fit_entry (settings s base).
Proof.
  intros B. unfold settings. repeat (apply Forall_app; split).
  - destruct base; [exact B|constructor].
  - destruct (sh_no_profile s); [|constructor]. constructor; [|constructor]. split; [apply fit_lit; reflexivity|]. split; [apply fit_lit; reflexivity|].
    split; [apply one_nodup|]. constructor; [|constructor]. split; [left; nc1|]. split; [discriminate|apply fit_lit; reflexivity].
  - destruct (sh_codepage s) as [z|]; [|constructor]. constructor; [|constructor]. split; [apply fit_lit; reflexivity|]. split; [apply fit_int|]. split; constructor.
Qed.
Definition some_if (es : list entry) : option (list entry) := match es with [] => None | l => Some l end.
Lemma create_the_request s base content uri : sh_uri s = Some uri ->
  create_request s (sets option_set base) content =
  the_request {| a_op := OpCreate; a_uri := uri; a_options := some_if (settings s base); a_selectors := None; a_timeout := None |} (Some (shell_content s content)).
Proof.
  intros U. unfold create_request, the_request. cbn [a_op a_uri a_options a_selectors a_timeout sets option_map]. rewrite shell_built, U, built_values.
  change (ws_values option_set) with (@nil entry). cbn [app]. destruct (settings s base); reflexivity.
Qed.
