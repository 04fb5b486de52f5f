(* Proofs about WSMan requests, responses and faults. *)
From Coq Require Import Lia ZifyBool ZifyNat ZifyN.
From Verif Require Import Base BaseProofs Lit NumModel NumProofs XmlModel TransModel WsmanModel WsmanSpec.
Ltac Zify.zify_post_hook ::= Z.div_mod_to_equations.

Lemma find_all_reaches path : forall x y, In y (find_all path x) <-> reaches path x y.
Proof.
  induction path as [|t path IH]; intros x y; cbn [find_all reaches].
  - cbn [In]. intuition.
  - rewrite in_flat_map. split.
    + intros (c & Hc & Hy). apply filter_In in Hc. destruct Hc as [Hc E]. apply str_eqb_spec in E.
      exists c. split; [exact Hc|]. split; [exact E|]. now apply IH.
    + intros (c & Hc & E & Hy). exists c. split; [|now apply IH]. apply filter_In. split; [exact Hc|].
      rewrite E. apply str_eqb_refl.
Qed.

Lemma find_first_lookup path x : lookup path x (find_first path x).
Proof.
  unfold find_first. destruct (find_all path x) as [|y l] eqn:E; cbn [lookup].
  - intros y Hy. apply find_all_reaches in Hy. rewrite E in Hy. contradiction.
  - revert x y l E. induction path as [|t path IH]; intros x y l E; cbn [first_at find_all] in *.
    + congruence.
    + assert (G : forall cs, flat_map (find_all path) (filter (fun c => str_eqb (x_tag c) t) cs) = y :: l ->
        exists before c after, cs = before ++ c :: after /\ x_tag c = t /\ first_at path c y /\
          (forall c', In c' before -> x_tag c' = t -> forall z, ~ reaches path c' z)).
      { clear E. induction cs as [|c cs IHc]; intros E; cbn [filter flat_map] in E; [discriminate|].
        destruct (str_eqb (x_tag c) t) eqn:Et.
        - cbn [flat_map] in E. destruct (find_all path c) as [|z zs] eqn:Ez.
          + destruct (IHc E) as (b & c0 & a & -> & H1 & H2 & H3). exists (c :: b), c0, a.
            split; [reflexivity|]. split; [exact H1|]. split; [exact H2|]. intros c' [<-|Hc'] Ht z Hz.
            * apply find_all_reaches in Hz. rewrite Ez in Hz. contradiction.
            * now apply (H3 c' Hc' Ht z).
          + cbn [app] in E. apply cons_inj in E. destruct E as [-> E].
            apply str_eqb_spec in Et. exists [], c, cs. split; [reflexivity|]. split; [exact Et|].
            split; [exact (IH c y zs Ez)|]. intros c' [].
        - destruct (IHc E) as (b & c0 & a & -> & H1 & H2 & H3). exists (c :: b), c0, a.
          split; [reflexivity|]. split; [exact H1|]. split; [exact H2|]. intros c' [<-|Hc'] Ht z.
          + rewrite Ht, str_eqb_refl in Et. discriminate.
          + now apply H3. }
      exact (G _ E).
Qed.

Lemma first_at_reaches path : forall x y, first_at path x y -> reaches path x y.
Proof.
  induction path as [|t path IH]; intros x y; cbn [first_at reaches]; [auto|].
  intros (b & c & a & E & Ht & Hf & _). exists c. split; [rewrite E; apply in_or_app; right; now left|]. auto.
Qed.

Lemma first_at_unique path : forall x y z, first_at path x y -> first_at path x z -> y = z.
Proof.
  induction path as [|t path IH]; intros x y z; cbn [first_at]; [congruence|].
  intros (b & c & a & E & Ht & Hf & Hn) (b' & c' & a' & E' & Ht' & Hf' & Hn').
  rewrite E in E'. clear E. revert b' E' Hn'. induction b as [|h b IHb]; intros b' E' Hn'.
  - destruct b' as [|h' b']; cbn [app] in E'.
    + apply cons_inj in E'. destruct E' as [<- _]. now apply (IH c).
    + apply cons_inj in E'. destruct E' as [<- _]. exfalso. apply (Hn' c ltac:(now left) Ht y).
      now apply first_at_reaches.
  - destruct b' as [|h' b']; cbn [app] in E'.
    + apply cons_inj in E'. destruct E' as [-> _]. exfalso. apply (Hn c' ltac:(now left) Ht' z).
      now apply first_at_reaches.
    + apply cons_inj in E'. destruct E' as [<- E']. apply (IHb) with b'.
      * intros c0 H0. apply Hn. now right.
      * exact E'.
      * intros c0 H0. apply Hn'. now right.
Qed.

Lemma lookup_unique path x o o' : lookup path x o -> lookup path x o' -> o = o'.
Proof.
  destruct o as [y|], o' as [z|]; cbn [lookup]; intros H H'.
  - f_equal. exact (first_at_unique _ _ _ _ H H').
  - exfalso. apply (H' y). now apply first_at_reaches.
  - exfalso. apply (H z). now apply first_at_reaches.
  - reflexivity.
Qed.

Lemma find_first_iff path x o : find_first path x = o <-> lookup path x o.
Proof.
  split; [intros <-; apply find_first_lookup|]. intros H. apply (lookup_unique path x); [apply find_first_lookup|exact H].
Qed.

Lemma attr_attr k x : attr_get k x = attr k (Some x).
Proof. destruct x. reflexivity. Qed.
Lemma text_text x : x_text x = text_of (Some x).
Proof. destruct x. reflexivity. Qed.

(* ---- faults ---- *)
Lemma code_reads c :
  code_read c (match py_int (match c with Some c => c | None => [] end) with
    | Ok z => CInt z
    | Err _ => match c with Some c => CText c | None => CNone end
    end).
Proof.
  destruct c as [s|]; cbn [code_read].
  - destruct (py_int s) as [z|e]; [left; eauto|right]. split; [discriminate|reflexivity].
  - reflexivity.
Qed.

Lemma text_reads t : text_read t (strip_text t).
Proof. destruct t as [[|c s]|]; reflexivity. Qed.

Lemma parse_fault_said x : fault_said x (parse_fault x).
Proof.
  unfold parse_fault, fault_said. exists (find_first p_fault x). split; [apply (find_first_lookup p_fault)|].
  destruct (find_first p_fault x) as [fl|]; [|reflexivity].
  exists (find_first p_subcode fl), (find_first p_code fl), (find_first p_reason fl), (find_first p_detail fl).
  assert (L1 := find_first_lookup p_subcode fl). assert (L2 := find_first_lookup p_code fl).
  assert (L3 := find_first_lookup p_reason fl). assert (L4 := find_first_lookup p_detail fl).
  destruct (find_first p_detail fl) as [d|].
  - exists (find_first p_message d), (find_first p_provider d).
    split; [exact L1|]. split; [exact L2|]. split; [exact L3|]. split; [exact L4|].
    split; [split; [apply (find_first_lookup p_message)|apply (find_first_lookup p_provider)]|].
    rewrite !attr_attr. unfold text_at.
    set (code := match attr (lit "Code") (Some d) with Some c => Some c | None => _ end).
    set (reason := match find_first p_message d with Some m => _ | None => _ end).
    assert (HC : forall c, c = code ->
      (forall c0, attr (lit "Code") (Some d) = Some c0 -> c = Some c0) /\
      (attr (lit "Code") (Some d) = None -> find_first p_subcode fl <> None -> c = text_of (find_first p_subcode fl)) /\
      (attr (lit "Code") (Some d) = None -> find_first p_subcode fl = None -> c = text_of (find_first p_code fl))).
    { intros c ->. unfold code. destruct (attr (lit "Code") (Some d)).
      - split; [auto|]. split; discriminate.
      - split; [discriminate|]. destruct (find_first p_subcode fl) as [y|].
        + split; [intros; apply text_text|intros _ X; discriminate].
        + split; [intros _ X; contradiction|]. intros _ _. destruct (find_first p_code fl); [apply text_text|reflexivity]. }
    assert (HR : forall c, c = reason ->
      (forall a s, text_of (find_first p_message d) = Some (a :: s) -> c = text_of (find_first p_message d)) /\
      ((forall a s, text_of (find_first p_message d) <> Some (a :: s)) -> c = text_of (find_first p_reason fl))).
    { intros c ->. unfold reason. assert (X : (match find_first p_reason fl with Some y => x_text y | None => None end) = text_of (find_first p_reason fl))
        by (destruct (find_first p_reason fl); [apply text_text|reflexivity]).
      rewrite X. destruct (find_first p_message d) as [m|]; [|split; [discriminate|reflexivity]].
      rewrite (text_text m). destruct (text_of (Some m)) as [[|a s]|]; cbn [nonempty_text].
      - split; [discriminate|reflexivity].
      - split; [reflexivity|]. intros H. now contradiction (H a s).
      - split; [discriminate|reflexivity]. }
    specialize (HC code eq_refl). specialize (HR reason eq_refl). destruct HC as (HC1 & HC2 & HC3). destruct HR as [HR1 HR2].
    clearbody code reason.
    assert (P : (forall c, attr (lit "Code") (Some d) = Some c -> code_read (Some c) (match py_int (match code with Some c => c | None => [] end) with Ok z => CInt z | Err _ => match code with Some c => CText c | None => CNone end end)) /\
      (attr (lit "Code") (Some d) = None -> find_first p_subcode fl <> None -> code_read (text_of (find_first p_subcode fl)) (match py_int (match code with Some c => c | None => [] end) with Ok z => CInt z | Err _ => match code with Some c => CText c | None => CNone end end)) /\
      (attr (lit "Code") (Some d) = None -> find_first p_subcode fl = None -> code_read (text_of (find_first p_code fl)) (match py_int (match code with Some c => c | None => [] end) with Ok z => CInt z | Err _ => match code with Some c => CText c | None => CNone end end)) /\
      (forall c s, text_of (find_first p_message d) = Some (c :: s) -> text_read (text_of (find_first p_message d)) (strip_text reason)) /\
      ((forall c s, text_of (find_first p_message d) <> Some (c :: s)) -> text_read (text_of (find_first p_reason fl)) (strip_text reason))).
    { split; [intros c E; rewrite <- (HC1 c E); apply code_reads|].
      split; [intros E1 E2; rewrite <- (HC2 E1 E2); apply code_reads|].
      split; [intros E1 E2; rewrite <- (HC3 E1 E2); apply code_reads|].
      split; [intros c s E; rewrite <- (HR1 c s E); apply text_reads|].
      intros E; rewrite <- (HR2 E); apply text_reads. }
    destruct P as (P1 & P2 & P3 & P4 & P5).
    destruct (find_first p_provider d) as [p|]; cbn [f_code f_machine f_reason f_provider f_path f_pfault];
      (split; [exact P1|]; split; [exact P2|]; split; [exact P3|]; split; [exact P4|]; split; [exact P5|]).
    + rewrite !attr_attr, text_text. split; [reflexivity|]. split; [reflexivity|]. split; [reflexivity|]. apply text_reads.
    + split; [reflexivity|]. split; [reflexivity|]. split; [reflexivity|]. reflexivity.
  - exists None, None.
    split; [exact L1|]. split; [exact L2|]. split; [exact L3|]. split; [exact L4|]. split; [auto|].
    cbn [f_code f_machine f_reason f_provider f_path f_pfault attr text_of].
    split; [discriminate|]. unfold text_at.
    split; [intros _ H; destruct (find_first p_subcode fl) as [y|]; [rewrite text_text; apply code_reads|contradiction]|].
    split; [intros _ H; rewrite H; destruct (find_first p_code fl) as [y|]; [rewrite text_text; apply code_reads|reflexivity]|].
    split; [discriminate|].
    split; [intros _; destruct (find_first p_reason fl) as [y|]; [rewrite text_text; apply text_reads|reflexivity]|].
    split; [reflexivity|]. split; [reflexivity|]. split; [reflexivity|]. reflexivity.
Qed.

(* the spec determines the fault *)
Lemma code_read_fun t c c' : code_read t c -> code_read t c' -> c = c'.
Proof.
  destruct t as [s|]; cbn [code_read]; [|congruence].
  intros [(z & E & ->)|[N ->]] [(z' & E' & ->)|[N' ->]]; try congruence.
Qed.
Lemma text_read_fun t r r' : text_read t r -> text_read t r' -> r = r'.
Proof. destruct t as [[|c s]|]; cbn [text_read]; congruence. Qed.

Lemma fault_said_fun x f f' : fault_said x f -> fault_said x f' -> f = f'.
Proof.
  intros (fl & L & H) (fl' & L' & H'). assert (E := lookup_unique _ _ _ _ L L'). subst fl'.
  destruct fl as [fl|]; [|congruence].
  destruct H as (sub & base & rea & det & msg & prov & A1 & A2 & A3 & A4 & A5 & B1 & B2 & B3 & B4 & B5 & B6 & B7 & B8 & B9).
  destruct H' as (sub' & base' & rea' & det' & msg' & prov' & A1' & A2' & A3' & A4' & A5' & B1' & B2' & B3' & B4' & B5' & B6' & B7' & B8' & B9').
  assert (sub = sub') by (eapply lookup_unique; eassumption). subst sub'.
  assert (base = base') by (eapply lookup_unique; eassumption). subst base'.
  assert (rea = rea') by (eapply lookup_unique; eassumption). subst rea'.
  assert (det = det') by (eapply lookup_unique; eassumption). subst det'.
  assert (X : msg = msg' /\ prov = prov').
  { destruct det as [d|]; [|intuition congruence]. destruct A5 as [M P], A5' as [M' P'].
    split; eapply lookup_unique; eassumption. }
  destruct X as [<- <-].
  assert (f_code f = f_code f').
  { destruct (attr (lit "Code") det) as [c|] eqn:E.
    - eapply code_read_fun; [apply (B1 c eq_refl)|apply (B1' c eq_refl)].
    - destruct sub as [s|].
      + eapply code_read_fun; [apply (B2 eq_refl ltac:(discriminate))|apply (B2' eq_refl ltac:(discriminate))].
      + eapply code_read_fun; [apply (B3 eq_refl eq_refl)|apply (B3' eq_refl eq_refl)]. }
  assert (f_reason f = f_reason f').
  { destruct (text_of msg) as [[|c s]|] eqn:E.
    - eapply text_read_fun; [apply B5; discriminate|apply B5'; discriminate].
    - eapply text_read_fun; [apply (B4 c s eq_refl)|apply (B4' c s eq_refl)].
    - eapply text_read_fun; [apply B5; discriminate|apply B5'; discriminate]. }
  assert (f_pfault f = f_pfault f') by (eapply text_read_fun; eassumption).
  destruct f, f'; cbn in *; congruence.
Qed.

(* ---- invoke ---- *)
Section Invoke.
  Context {S : Type} (send : S -> xml -> nat -> option Z -> reply * S).
  Context (parse_body : list N -> option xml) (parse_text : list N -> option xml).

  Lemma invoke_cases w uuid action uri resource options selectors timeout retries st :
    let request := envelope w uuid action uri resource options selectors timeout in
    let r := fst (send st request retries (http_timeout timeout)) in
    let i := fst (invoke send parse_body parse_text w uuid action uri resource options selectors timeout retries st) in
    snd (invoke send parse_body parse_text w uuid action uri resource options selectors timeout retries st)
      = snd (send st request retries (http_timeout timeout)) /\
    match r with
    | RBody b => match parse_body b with
                 | None => i = IExn OtherError
                 | Some x => (relates_to x (message_id uuid) /\ i = IOk x) \/
                             (~ relates_to x (message_id uuid) /\ i = IExn WinRMError)
                 end
    | RHttp code text => match parse_text text with
                         | Some x => exists f, fault_said x f /\ i = IFault f
                         | None => i = IHttp code text
                         end
    | RExn e => i = IExn e
    end.
  Proof.
    intros request r i. unfold i, r, invoke. fold request.
    destruct (send st request retries (http_timeout timeout)) as [r0 st']. cbn [fst snd]. split; [reflexivity|].
    destruct r0 as [b|code text|e]; [| |reflexivity].
    - destruct (parse_body b) as [x|]; [|reflexivity].
      assert (L := find_first_lookup p_relates x).
      destruct (find_first p_relates x) as [y|].
      + destruct (x_text y) as [t|] eqn:Et.
        * destruct (str_eqb (message_id uuid) t) eqn:E.
          -- apply str_eqb_spec in E. left. split; [|reflexivity]. exists y. split; [exact L|]. congruence.
          -- right. split; [|reflexivity]. intros (y' & L' & Ht). 
             assert (y = y') by (eapply first_at_unique; [exact L|exact L']). subst y'.
             assert (t = message_id uuid) by congruence. subst t. rewrite str_eqb_refl in E. discriminate.
        * right. split; [|reflexivity]. intros (y' & L' & Ht).
          assert (y = y') by (eapply first_at_unique; [exact L|exact L']). subst y'. congruence.
      + assert (E : str_eqb (message_id uuid) [] = false) by reflexivity. rewrite E.
        right. split; [|reflexivity]. intros (y' & L' & Ht). apply (L y'). now apply first_at_reaches.
    - destruct (parse_text text) as [x|]; [|reflexivity]. exists (parse_fault x). split; [apply parse_fault_said|reflexivity].
  Qed.
End Invoke.

(* ---- requests ---- *)
Definition set_tags (o : option wset) : Prop :=
  match o with Some s => ws_element s = lit "OptionSet" \/ ws_element s = lit "SelectorSet" | None => True end.

Lemma header_children w uuid action uri resource options selectors timeout :
  first_at [soap (lit "Header")] (envelope w uuid action uri resource options selectors timeout)
    (create_header w uuid action uri options selectors timeout).
Proof.
  exists [], (create_header w uuid action uri options selectors timeout). eexists. split; [reflexivity|].
  split; [reflexivity|]. split; [reflexivity|]. intros c' [].
Qed.

Fixpoint index_of (tag : list N) (cs : list xml) : option nat :=
  match cs with [] => None | c :: cs' => if str_eqb (x_tag c) tag then Some 0 else option_map S (index_of tag cs') end.

Lemma field_by request header tag text before c after :
  first_at [soap (lit "Header")] request header -> x_children header = before ++ c :: after ->
  x_tag c = tag -> x_text c = Some text ->
  forallb (fun c' => negb (str_eqb (x_tag c') tag)) (before ++ after) = true -> header_field request tag text.
Proof.
  intros H1 H2 H3 H4 H5. exists header, before, c, after. split; [exact H1|]. split; [exact H2|]. split; [exact H3|].
  split; [exact H4|]. intros c' Hc E. rewrite forallb_forall in H5. specialize (H5 c' Hc). rewrite E, str_eqb_refl in H5. discriminate.
Qed.

Lemma header_fields w uuid action uri resource options selectors timeout :
  set_tags options -> set_tags selectors ->
  let request := envelope w uuid action uri resource options selectors timeout in
  header_field request (addressing (lit "Action")) action /\
  header_field request (dmtf (lit "MaxEnvelopeSize")) (py_str (w_max_envelope w)) /\
  header_field request (addressing (lit "MessageID")) (message_id uuid) /\
  header_field request (dmtf (lit "OperationTimeout"))
    (lit "PT" ++ py_str (or_default timeout (w_operation_timeout w)) ++ lit "S") /\
  header_field request (dmtf (lit "ResourceURI")) uri /\
  header_field request (microsoft (lit "SessionId")) (lit "uuid:" ++ upper_text (w_session_id w)) /\
  header_field request (addressing (lit "To")) (w_endpoint w).
Proof.
  intros Ho Hs request. assert (HC := header_children w uuid action uri resource options selectors timeout). fold request in HC.
  set (hd := create_header w uuid action uri options selectors timeout) in *.
  set (tail := match options with Some s => [pack_set s] | None => [] end ++ match selectors with Some s => [pack_set s] | None => [] end).
  assert (TT : forall tag, str_eqb (qname ns_wsman (lit "OptionSet")) tag = false -> str_eqb (qname ns_wsman (lit "SelectorSet")) tag = false ->
    forallb (fun c' => negb (str_eqb (x_tag c') tag)) tail = true).
  { intros tag E1 E2. unfold tail. rewrite forallb_app. apply andb_true_intro. split.
    - destruct options as [s|]; [|reflexivity]. cbn [forallb pack_set x_tag]. destruct Ho as [-> | ->]; rewrite ?E1, ?E2; reflexivity.
    - destruct selectors as [s|]; [|reflexivity]. cbn [forallb pack_set x_tag]. destruct Hs as [-> | ->]; rewrite ?E1, ?E2; reflexivity. }
  assert (SPLIT : forall n, n < 10 -> exists c, x_children hd = firstn n (x_children hd) ++ c :: skipn (S n) (x_children hd) /\ nth_error (x_children hd) n = Some c).
  { intros n Hn. do 10 (destruct n as [|n]; [eexists; split; reflexivity|]). lia. }
  assert (F : forall n tag text, n < 10 -> option_map x_tag (nth_error (x_children hd) n) = Some tag -> option_map x_text (nth_error (x_children hd) n) = Some (Some text) ->
     str_eqb (qname ns_wsman (lit "OptionSet")) tag = false -> str_eqb (qname ns_wsman (lit "SelectorSet")) tag = false ->
     forallb (fun c' => negb (str_eqb (x_tag c') tag)) (firstn n (x_children hd) ++ firstn (9 - n) (skipn (S n) (x_children hd))) = true ->
     header_field request tag text).
  { intros n tag text Hn Ht Hx E1 E2 HB. destruct (SPLIT n Hn) as (c & Es & En). rewrite En in Ht, Hx. cbn [option_map] in Ht, Hx.
    apply Some_inj in Ht. apply Some_inj in Hx.
    eapply field_by; [exact HC|exact Es|exact Ht|exact Hx|].
    rewrite forallb_app in *. apply andb_prop in HB. destruct HB as [HB1 HB2]. rewrite HB1. cbn [andb].
    rewrite <- (firstn_skipn (9 - n) (skipn (S n) (x_children hd))), forallb_app, HB2. cbn [andb].
    replace (skipn (9 - n) (skipn (S n) (x_children hd))) with tail; [now apply TT|].
    clear - Hn. do 10 (destruct n as [|n]; [reflexivity|]). lia. }
  repeat split.
  - apply (F 0); [lia|reflexivity..].
  - apply (F 3); [lia|reflexivity..].
  - apply (F 4); [lia|reflexivity..].
  - apply (F 5); [lia|reflexivity..].
  - apply (F 7); [lia|reflexivity..].
  - apply (F 8); [lia|reflexivity..].
  - apply (F 9); [lia|reflexivity..].
Qed.

(* ---- sets ---- *)
Lemma dict_get_set_same (k v : list N) d : dict_get str_eqb k (dict_set str_eqb k v d) = Some v.
Proof.
  induction d as [|[k' v'] d IH]; cbn [dict_set dict_get].
  - now rewrite str_eqb_refl.
  - destruct (str_eqb k k') eqn:E; cbn [dict_get]; rewrite E; [reflexivity|exact IH].
Qed.
Lemma dict_get_set_other (k k0 v : list N) d : k0 <> k -> dict_get str_eqb k0 (dict_set str_eqb k v d) = dict_get str_eqb k0 d.
Proof.
  intros Hn. induction d as [|[k' v'] d IH]; cbn [dict_set dict_get].
  - now rewrite (str_eqb_neq k0 k Hn).
  - destruct (str_eqb k k') eqn:E; cbn [dict_get].
    + apply str_eqb_spec in E. subst k'. now rewrite (str_eqb_neq k0 k Hn).
    + now rewrite IH.
Qed.

Lemma add_options_values s es :
  ws_values (fold_left (fun s e => add_option s (fst (fst e)) (snd (fst e)) (snd e)) es s) = ws_values s ++ es /\
  ws_element (fold_left (fun s e => add_option s (fst (fst e)) (snd (fst e)) (snd e)) es s) = ws_element s /\
  ws_child (fold_left (fun s e => add_option s (fst (fst e)) (snd (fst e)) (snd e)) es s) = ws_child s /\
  ws_must (fold_left (fun s e => add_option s (fst (fst e)) (snd (fst e)) (snd e)) es s) = ws_must s.
Proof.
  revert s. induction es as [|[[k v] a] es IH]; intros s; cbn [fold_left fst snd].
  - rewrite app_nil_r. auto.
  - destruct (IH (add_option s k v a)) as (-> & -> & -> & ->). cbn [add_option ws_values ws_element ws_child ws_must].
    rewrite <- app_assoc. auto.
Qed.

Lemma pack_children s : Forall2 (fun (e : list N * list N * list (list N * list N)) c =>
    x_tag c = qname ns_wsman (ws_child s) /\ x_text c = Some (snd (fst e)) /\ x_children c = [] /\
    attr_get (lit "Name") c = Some (fst (fst e)) /\
    (forall k, k <> lit "Name" -> attr_get k c = dict_get str_eqb k (snd e)))
  (ws_values s) (x_children (pack_set s)).
Proof.
  unfold pack_set. cbn [x_children]. induction (ws_values s) as [|[[k v] a] vs IH]; cbn [map]; constructor; [|exact IH].
  cbn [pack_entry x_tag x_text x_children fst snd]. unfold attr_get. cbn [x_attrib].
  split; [reflexivity|]. split; [reflexivity|]. split; [reflexivity|]. split; [apply dict_get_set_same|].
  intros k' Hk. now apply dict_get_set_other.
Qed.

(* ---- messages ---- *)
Lemma detail_supplied label t : supplied label t (detail label t).
Proof. destruct t as [[|c s]|]; reflexivity. Qed.

Lemma py_str_nonempty z : exists c s, py_str z = c :: s.
Proof.
  unfold py_str. destruct (Z.ltb z 0); [eexists; eexists; reflexivity|].
  destruct (dec (Z.to_N z)) as [|c s] eqn:E; [|eauto]. exfalso. exact (proj1 (dec_spec _) E).
Qed.
