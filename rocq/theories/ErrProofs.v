(* Proofs about what the errors say. *)
From Verif Require Import Base BaseProofs Lit NumModel NumProofs TextModel XmlModel WsmanModel ShellModel FragModel MsgModel UtilModel UtilSpec UtilProofs TransModel PoolModel PoolSpec PoolProofs3 PoolProofs4 PoolProofs8 PoolProofs10 PoolProofs11 ErrModel ErrSpec.
Require Import Lia ZifyBool ZifyNat ZifyN.

(* ---- transport errors ---- *)
Lemma split_head (sep : N) p s q s' : ~ In sep p -> ~ In sep q -> p ++ sep :: s = q ++ sep :: s' -> p = q /\ s = s'.
Proof.
  revert q. induction p as [|c p IH]; intros q P Q H; destruct q as [|d q]; cbn [app] in H; apply cons_inj in H; destruct H as (H1 & H2).
  - split; [reflexivity|exact H2].
  - exfalso. apply Q. left. symmetry. exact H1.
  - exfalso. apply P. left. exact H1.
  - subst d. destruct (IH q) as (-> & ->); [intros C; apply P; right; exact C|intros C; apply Q; right; exact C|exact H2|]. split; reflexivity.
Qed.
Lemma py_str_comma z : ~ In 44%N (py_str z).
Proof.
  assert (D : forall n, ~ In 44%N (dec n)).
  { intros n C. destruct (dec_spec n) as (_ & F & _). apply (proj1 (Forall_forall _ _) F) in C. unfold digit in C. lia. }
  unfold py_str. destruct (Z.ltb z 0); [|apply D]. intros [C|C]; [discriminate C|exact (D _ C)].
Qed.
Lemma transport_told c t c' t' : transport_message c t = transport_message c' t' -> c = c' /\ t = t'.
Proof.
  unfold transport_message. intros H. apply app_inv_head in H.
  change (lit ", Content: '") with (44%N :: lit " Content: '") in H. cbn [app] in H.
  destruct (split_head 44 _ _ _ _ (py_str_comma c) (py_str_comma c') H) as (H1 & H2).
  split.
  - assert (Q := f_equal py_int H1). rewrite !py_int_str in Q. exact (Ok_inj _ _ Q).
  - apply app_inv_head in H2. apply app_inv_tail in H2. exact H2.
Qed.

(* ---- faults ---- *)
Definition entries (f : fault) : list (list N) := match fault_details f with [] => [lit "No details returned by the server"] | ds => ds end.
Lemma join_within sep l t : In t l -> within t (join sep l).
Proof.
  induction l as [|p l IH]; [intros []|]. intros [->|H].
  - destruct l as [|q l]; [exists [], []; cbn [join app]; symmetry; apply app_nil_r|]. exists [], (sep ++ join sep (q :: l)). reflexivity.
  - destruct (IH H) as (a & b & E). destruct l as [|q l]; [destruct H|]. exists (p ++ sep ++ a), b. change (join sep (p :: q :: l)) with (p ++ sep ++ join sep (q :: l)). rewrite E, <- !app_assoc. reflexivity.
Qed.
Lemma within_wrap t s a b : within t s -> within t (a ++ s ++ b).
Proof. intros (x & y & ->). exists (a ++ x), (y ++ b). rewrite <- !app_assoc. reflexivity. Qed.
Lemma detail_in label t x : given t = Some x -> In (label ++ x) (detail label t).
Proof. destruct t as [[|c s]|]; cbn [given]; intros H; try discriminate H. apply Some_inj in H. subst x. left. reflexivity. Qed.
Lemma fault_tells f label t x : In (label, t) (told_by f) -> given t = Some x -> within (label ++ x) (fault_message f).
Proof.
  intros H G. unfold fault_message. apply within_wrap. fold (entries f). apply join_within. 
  assert (D : In (label ++ x) (fault_details f)).
  { unfold told_by in H. cbn [In] in H. unfold fault_details. rewrite !in_app_iff.
    repeat (destruct H as [H|H]; [apply pair_inj in H; destruct H as (<- & <-); assert (Q := fun l => detail_in l _ x G); auto 10|]). destruct H. }
  unfold entries. destruct (fault_details f); [destruct D|exact D].
Qed.
Lemma fault_empty f : (forall label t, In (label, t) (told_by f) -> given t = None) -> fault_message f = lit "Received a WSManFault message. (No details returned by the server)".
Proof.
  intros H. assert (Q : forall label t, given t = None -> detail label t = []) by (intros label [[|c s]|] G; try discriminate G; reflexivity).
  unfold fault_message, fault_details. unfold told_by in H. cbn [In] in H.
  repeat (rewrite Q; [|eapply H; tauto]). reflexivity.
Qed.
(* a list of texts without commas is read back from what joins them *)
Lemma join_comma l : Forall (fun t => ~ In 44%N t) l -> split_on 44 (join (lit ", ") l) = match l with [] => [[]] | t :: l => t :: map (cons 32%N) l end.
Proof.
  induction l as [|t l IH]; intros F; [reflexivity|]. assert (F1 := Forall_inv F). assert (F2 := Forall_inv_tail F). destruct l as [|u l]; [cbn [join map]; exact (split_on_free 44 t F1)|].
  change (join (lit ", ") (t :: u :: l)) with (t ++ 44%N :: 32%N :: join (lit ", ") (u :: l)). rewrite (split_on_app 44 t _ F1).
  f_equal. specialize (IH F2). cbn [split_on]. change (N.eqb 32 44) with false. cbv iota. rewrite IH. reflexivity.
Qed.
Lemma join_read l l' : Forall (fun t => ~ In 44%N t /\ t <> []) l -> Forall (fun t => ~ In 44%N t /\ t <> []) l' -> join (lit ", ") l = join (lit ", ") l' -> l = l'.
Proof.
  intros F F' H. assert (C : forall l, Forall (fun t : list N => ~ In 44%N t /\ t <> []) l -> Forall (fun t => ~ In 44%N t) l) by (intros x; apply Forall_impl; intros t (P & _); exact P).
  assert (Q := f_equal (split_on 44) H). rewrite (join_comma l (C l F)), (join_comma l' (C l' F')) in Q.
  destruct l as [|t l], l' as [|t' l'].
  - reflexivity.
  - exfalso. apply cons_inj in Q. destruct Q as (Q & _). destruct (Forall_inv F') as (_ & K). apply K. symmetry. exact Q.
  - exfalso. apply cons_inj in Q. destruct Q as (Q & _). destruct (Forall_inv F) as (_ & K). apply K. exact Q.
  - apply cons_inj in Q. destruct Q as (-> & Q). f_equal. revert l' Q F F' C H. clear. induction l as [|u l IH]; intros [|u' l'] Q F F' C H; try discriminate Q; [reflexivity|].
    cbn [map] in Q. apply cons_inj in Q. destruct Q as (Q1 & Q2). apply cons_inj in Q1. destruct Q1 as (_ & ->). f_equal. apply (IH l' Q2).
    + constructor; [exact (Forall_inv F)|exact (Forall_inv_tail (Forall_inv_tail F))].
    + constructor; [exact (Forall_inv F')|exact (Forall_inv_tail (Forall_inv_tail F'))].
    + exact C.
    + assert (EE : l = l') by (clear - Q2; revert l' Q2; induction l as [|a l IH]; intros [|b l'] Q; try discriminate Q; [reflexivity|]; cbn [map] in Q; apply cons_inj in Q; destruct Q as (Q1 & Q2); apply cons_inj in Q1; destruct Q1 as (_ & ->); f_equal; exact (IH l' Q2)).
      rewrite EE. reflexivity.
Qed.
Lemma detail_ok label t : ~ In 44%N label -> label <> [] -> (forall x, t = Some x -> ~ In 44%N x) -> Forall (fun d => ~ In 44%N d /\ d <> []) (detail label t).
Proof.
  intros L Le T. destruct t as [[|c s]|]; cbn [detail nonempty_text]; constructor; [|constructor].
  split; [rewrite in_app_iff; intros [C|C]; [exact (L C)|exact (T _ eq_refl C)]|]. destruct label; [congruence|discriminate].
Qed.
Definition comma_free (f : fault) : Prop := forall label x, In (label, Some x) (told_by f) -> ~ In 44%N x.
Lemma details_ok f : comma_free f -> Forall (fun d => ~ In 44%N d /\ d <> []) (entries f).
Proof.
  intros C. assert (F : Forall (fun d => ~ In 44%N d /\ d <> []) (fault_details f)).
  { unfold fault_details. rewrite !Forall_app. unfold comma_free, told_by in C. cbn [In] in C.
    assert (L : forall s, existsb (N.eqb 44) (lit s) = false -> ~ In 44%N (lit s)) by (intros s E K; assert (existsb (N.eqb 44) (lit s) = true) by (apply existsb_exists; exists 44%N; split; [exact K|reflexivity]); congruence).
    repeat split; (apply detail_ok; [apply L; vm_compute; reflexivity|discriminate|intros x E]); eapply C; rewrite E; tauto. }
  unfold entries. destruct (fault_details f) eqn:E; [|exact F]. constructor; [|constructor]. split; [vm_compute; intuition discriminate|discriminate].
Qed.
(* the text after a label *)
Fixpoint reading_of (label : list N) (l : list (list N)) : option (list N) :=
  match l with [] => None | d :: l => if starts_with label d then Some (skipn (length label) d) else reading_of label l end.
Lemma detail_given label t : detail label t = match given t with Some x => [label ++ x] | None => [] end.
Proof. destruct t as [[|c x]|]; reflexivity. Qed.
Lemma read_given f label t : In (label, t) (told_by f) -> reading_of label (entries f) = given t.
Proof.
  unfold told_by, entries, fault_details. rewrite !detail_given. intros H. cbn [In] in H.
  repeat (destruct H as [H|H]; [apply pair_inj in H; destruct H as (<- & <-)|]); [..|destruct H];
    generalize (given (code_text (f_code f))), (given (f_machine f)), (given (f_reason f)), (given (f_provider f)), (given (f_path f)), (given (f_pfault f));
    intros [a|] [b|] [c|] [d|] [e|] [g|]; reflexivity.
Qed.
Lemma fault_determined f f' : comma_free f -> comma_free f' -> fault_message f = fault_message f' ->
  map (fun p => (fst p, given (snd p))) (told_by f) = map (fun p => (fst p, given (snd p))) (told_by f').
Proof.
  intros C C' H. unfold fault_message in H. apply app_inv_head in H. fold (entries f) in H. fold (entries f') in H. apply app_inv_tail in H.
  apply (join_read _ _ (details_ok f C) (details_ok f' C')) in H.
  assert (R : forall label t t', In (label, t) (told_by f) -> In (label, t') (told_by f') -> given t = given t').
  { intros label t t' I1 I2. rewrite <- (read_given f label t I1), <- (read_given f' label t' I2), H. reflexivity. }
  unfold told_by in *. cbn [map fst snd].
  rewrite (R (lit "Code: ") (code_text (f_code f)) (code_text (f_code f'))) by (cbn [In]; tauto).
  rewrite (R (lit "Machine: ") (f_machine f) (f_machine f')) by (cbn [In]; tauto). rewrite (R (lit "Reason: ") (f_reason f) (f_reason f')) by (cbn [In]; tauto).
  rewrite (R (lit "Provider: ") (f_provider f) (f_provider f')) by (cbn [In]; tauto). rewrite (R (lit "Provider Path: ") (f_path f) (f_path f')) by (cbn [In]; tauto).
  rewrite (R (lit "Provider Fault: ") (f_pfault f) (f_pfault f')) by (cbn [In]; tauto). reflexivity.
Qed.

(* ---- states ---- *)
Lemma texts_free texts : texts = pool_texts \/ texts = pipeline_texts -> forall z t, state_text texts z = Ok t -> ~ In 44%N t /\ ~ In 39%N t /\ t <> [].
Proof.
  intros H z t E. unfold state_text in E. destruct (dict_get Z.eqb z texts) as [x|] eqn:D; [|discriminate E]. apply Ok_inj in E. subst x.
  assert (I1 : In t (map snd texts)). { revert D. clear. induction texts as [|[k v] l IH]; cbn [dict_get]; [discriminate|]. destruct (Z.eqb z k); [intros D; apply Some_inj in D; left; exact D|right; auto]. }
  assert (G : forallb (fun t => negb (existsb (N.eqb 44) t) && negb (existsb (N.eqb 39) t) && match t with [] => false | _ => true end)%bool (map snd texts) = true) by (destruct H as [-> | ->]; vm_compute; reflexivity).
  apply (proj1 (forallb_forall _ _) G) in I1. rewrite !Bool.andb_true_iff, !Bool.negb_true_iff in I1. destruct I1 as ((A & B) & C).
  repeat split; [intros K|intros K|intros ->; discriminate C].
  - assert (existsb (N.eqb 44) t = true) by (apply existsb_exists; exists 44%N; split; [exact K|reflexivity]). congruence.
  - assert (existsb (N.eqb 39) t = true) by (apply existsb_exists; exists 39%N; split; [exact K|reflexivity]). congruence.
Qed.
Lemma texts_told texts : texts = pool_texts \/ texts = pipeline_texts -> forall z z' t, state_text texts z = Ok t -> state_text texts z' = Ok t -> z = z'.
Proof.
  intros H z z' t E E'. unfold state_text in E, E'. destruct (dict_get Z.eqb z texts) as [x|] eqn:D; [|discriminate E]. destruct (dict_get Z.eqb z' texts) as [x'|] eqn:D'; [|discriminate E'].
  apply Ok_inj in E. apply Ok_inj in E'. subst x x'.
  assert (P : forall z, dict_get Z.eqb z texts = Some t -> In (z, t) texts).
  { clear. induction texts as [|[k v] l IH]; intros z; cbn [dict_get]; [discriminate|]. destruct (Z.eqb_spec z k) as [->|]; [intros D; apply Some_inj in D; subst; left; reflexivity|right; auto]. }
  apply P in D. apply P in D'.
  assert (G : forallb (fun p => forallb (fun q => negb (str_eqb (snd p) (snd q)) || Z.eqb (fst p) (fst q))%bool texts) texts = true) by (destruct H as [-> | ->]; vm_compute; reflexivity).
  apply (proj1 (forallb_forall _ _) G) in D. apply (proj1 (forallb_forall _ _) D) in D'. cbn [fst snd] in D'. rewrite str_eqb_refl in D'. cbn [negb orb] in D'. apply Z.eqb_eq. exact D'.
Qed.
Lemma mapM_read {B} (f : Z -> res B) : (forall z z' t, f z = Ok t -> f z' = Ok t -> z = z') -> forall l l' ts, mapM f l = Ok ts -> mapM f l' = Ok ts -> l = l'.
Proof.
  intros F. induction l as [|z l IH]; intros l' ts E E'.
  - cbn [mapM] in E. apply Ok_inj in E. subst ts. destruct l' as [|z' l']; [reflexivity|]. cbn [mapM] in E'. destruct (f z'); [|discriminate E']. cbn [bind] in E'. destruct (mapM f l'); discriminate E'.
  - cbn [mapM] in E. destruct (f z) as [t|] eqn:T; [|discriminate E]. cbn [bind] in E. destruct (mapM f l) as [us|] eqn:U; [|discriminate E]. cbn [bind] in E. apply Ok_inj in E. subst ts.
    destruct l' as [|z' l']; [discriminate E'|]. cbn [mapM] in E'. destruct (f z') as [t'|] eqn:T'; [|discriminate E']. cbn [bind] in E'. destruct (mapM f l') as [us'|] eqn:U'; [|discriminate E']. cbn [bind] in E'. apply Ok_inj in E'. apply cons_inj in E'. destruct E' as (-> & ->).
    rewrite (F z z' t T T'). f_equal. exact (IH l' us eq_refl U').
Qed.
Lemma mapM_all {B} (f : Z -> res B) (P : B -> Prop) : (forall z t, f z = Ok t -> P t) -> forall l ts, mapM f l = Ok ts -> Forall P ts.
Proof.
  intros F. induction l as [|z l IH]; intros ts E; cbn [mapM] in E; [apply Ok_inj in E; subst; constructor|].
  destruct (f z) as [t|] eqn:T; [|discriminate E]. cbn [bind] in E. destruct (mapM f l) as [us|] eqn:U; [|discriminate E]. cbn [bind] in E. apply Ok_inj in E. subst ts.
  constructor; [exact (F z t T)|exact (IH us eq_refl)].
Qed.
Lemma state_told texts c e a c' e' a' m : texts = pool_texts \/ texts = pipeline_texts -> ~ In 39%N a -> ~ In 39%N a' ->
  state_message texts c e a = Ok m -> state_message texts c' e' a' = Ok m -> c = c' /\ e = e' /\ a = a'.
Proof.
  intros T A A' H H'. unfold state_message in H, H'.
  destruct (state_text texts c) as [t|] eqn:C; [|discriminate H]. cbn [bind] in H. destruct (mapM (state_text texts) e) as [es|] eqn:Es; [|discriminate H]. cbn [bind] in H. apply Ok_inj in H.
  destruct (state_text texts c') as [t'|] eqn:C'; [|discriminate H']. cbn [bind] in H'. destruct (mapM (state_text texts) e') as [es'|] eqn:Es'; [|discriminate H']. cbn [bind] in H'. apply Ok_inj in H'.
  rewrite <- H' in H. clear H' m. apply app_inv_head in H.
  change (lit "' on the current state '") with (39%N :: lit " on the current state '") in H. cbn [app] in H.
  destruct (split_head 39 _ _ _ _ A A' H) as (-> & H1). apply app_inv_head in H1.
  change (lit "', expecting state(s): '") with (39%N :: lit ", expecting state(s): '") in H1. cbn [app] in H1.
  destruct (texts_free texts T _ _ C) as (_ & Q & _). destruct (texts_free texts T _ _ C') as (_ & Q' & _).
  destruct (split_head 39 _ _ _ _ Q Q' H1) as (<- & H2). apply app_inv_head in H2. apply app_inv_tail in H2.
  assert (P : forall z t, state_text texts z = Ok t -> ~ In 44%N t /\ t <> []) by (intros z u U; destruct (texts_free texts T z u U) as (U1 & _ & U3); split; assumption).
  apply (join_read es es' (mapM_all _ _ P e es Es) (mapM_all _ _ P e' es' Es')) in H2. subst es'.
  split; [exact (texts_told texts T c c' t C C')|]. split; [exact (mapM_read _ (texts_told texts T) e e' es Es Es')|reflexivity].
Qed.

(* ---- refusals ---- *)
Section Refusals.
  Context {Obj Cmd HS RK : Type} (E : env Obj Cmd HS RK).
  Lemma unless_some b e a x : unless b e a = Some x -> b = false /\ x = (e, a).
  Proof. unfold unless. destruct b; [discriminate|]. intros H. apply Some_inj in H. split; [reflexivity|symmetry; exact H]. Qed.
  Lemma not_in_states z l : in_states z l = false -> ~ In z l.
  Proof. intros H C. apply in_states_iff in C. congruence. Qed.
  Lemma refusal_refused k r (w : world Obj Cmd HS RK) x : refusal k (current k r w) = Some x -> refused E k r w.
  Proof.
    intros H. destruct k; cbn [refusal current] in H; apply unless_some in H; destruct H as (H & _); try (apply not_in_states in H; cbn [In] in H); cbn [refused].
    - intros fuel a. apply open_wrong; intuition congruence.
    - apply connect_wrong; intuition congruence.
    - apply disconnect_wrong; intuition congruence.
    - intros fuel. rewrite reset_wrong by intuition congruence. destruct (Z.eqb_spec (rp_state (w_pool w)) rs_before_open) as [Q|Q]; [exfalso; intuition congruence|reflexivity].
    - intros fuel id a. apply metadata_wrong. intros C. rewrite C in H. discriminate H.
    - intros a. apply begin_wrong. cbn [In]. exact H.
    - apply stop_wrong. cbn [In]. exact H.
    - apply close_wrong. cbn [In]. exact H.
    - apply reconnect_wrong. intros C. rewrite C in H. discriminate H.
    - intros id. apply nested_wrong. intros C. rewrite C in H. discriminate H.
  Qed.
  (* the expected states are none that it is refused in *)
  Lemma expected_accepted k st e a : refusal k st = Some (e, a) -> ~ In st e /\ forall s, In s e -> refusal k s = None.
  Proof.
    intros H. assert (X : forall s, In s e -> refusal k s = None).
    { intros s I1. destruct k; cbn [refusal] in H; apply unless_some in H; destruct H as (_ & H); apply pair_inj in H; destruct H as (-> & _); cbn [In] in I1;
        repeat (destruct I1 as [I1|I1]; [subst s; reflexivity|]); destruct I1. }
    split; [|exact X]. intros C. rewrite (X st C) in H. discriminate H.
  Qed.
  Lemma action_plain k st e a : refusal k st = Some (e, a) -> ~ In 39%N a.
  Proof.
    intros H. assert (G : existsb (N.eqb 39) a = false).
    { destruct k; cbn [refusal] in H; apply unless_some in H; destruct H as (_ & H); apply pair_inj in H; destruct H as (_ & ->); vm_compute; reflexivity. }
    intros C. assert (existsb (N.eqb 39) a = true) by (apply existsb_exists; exists 39%N; split; [exact C|reflexivity]). congruence.
  Qed.
  Lemma expected_known k st e a : refusal k st = Some (e, a) -> exists es, mapM (state_text (texts_of k)) e = Ok es.
  Proof. intros H. destruct k; cbn [refusal] in H; apply unless_some in H; destruct H as (_ & H); apply pair_inj in H; destruct H as (-> & _); eexists; vm_compute; reflexivity. Qed.
  Lemma within_here a t b : within t (a ++ t ++ b).
  Proof. exists a, b. reflexivity. Qed.
  Lemma refusal_message k st e a name : refusal k st = Some (e, a) -> state_text (texts_of k) st = Ok name ->
    exists m, state_message (texts_of k) st e a = Ok m /\ within (quoted a) m /\ within (quoted name) m /\
      forall s t, In s e -> state_text (texts_of k) s = Ok t -> within t m.
  Proof.
    intros H N1. destruct (expected_known k st e a H) as (es & Es). unfold state_message. rewrite N1. cbn [bind]. rewrite Es. cbn [bind].
    eexists. split; [reflexivity|]. split; [|split].
    - exists (lit "Cannot "), (lit " on the current state '" ++ name ++ lit "', expecting state(s): '" ++ join (lit ", ") es ++ lit "'"). unfold quoted.
      change (lit "Cannot '") with (lit "Cannot " ++ lit "'"). change (lit "' on the current state '") with (lit "'" ++ lit " on the current state '"). rewrite <- !app_assoc. reflexivity.
    - exists (lit "Cannot '" ++ a ++ lit "' on the current state "), (lit ", expecting state(s): '" ++ join (lit ", ") es ++ lit "'"). unfold quoted.
      change (lit "' on the current state '") with (lit "' on the current state " ++ lit "'"). change (lit "', expecting state(s): '") with (lit "'" ++ lit ", expecting state(s): '"). rewrite <- !app_assoc. reflexivity.
    - intros s t I1 T.
      assert (J : In t es). { revert es Es I1. clear - T. induction e as [|z e IH]; intros es Es I1; [destruct I1|]. cbn [mapM] in Es. destruct (state_text (texts_of k) z) as [u|] eqn:U; [|discriminate Es]. cbn [bind] in Es. destruct (mapM (state_text (texts_of k)) e) as [us|] eqn:Us; [|discriminate Es]. cbn [bind] in Es. apply Ok_inj in Es. subst es. destruct I1 as [->|I1]; [rewrite T in U; apply Ok_inj in U; left; symmetry; exact U|right; exact (IH us eq_refl I1)]. }
      apply (join_within (lit ", ")) in J. destruct J as (x & y & J). rewrite J.
      exists (lit "Cannot '" ++ a ++ lit "' on the current state '" ++ name ++ lit "', expecting state(s): '" ++ x), (y ++ lit "'"). rewrite <- !app_assoc. reflexivity.
  Qed.
End Refusals.

Lemma names_told z :
  state_text pool_texts z = match z with Zneg _ => Err KeyError | _ => match nth_error pool_state_names (Z.to_nat z) with Some s => Ok (lit s) | None => Err KeyError end end /\
  state_text pipeline_texts z = match z with Zneg _ => Err KeyError | _ => match nth_error pipeline_state_names (Z.to_nat z) with Some s => Ok (lit s) | None => Err KeyError end end.
Proof.
  destruct (Z_lt_dec z 0) as [N1|N1]; [destruct z; [lia|lia|split; reflexivity]|].
  destruct (Z_lt_dec z 10) as [H|H].
  - assert (K : (z = 0 \/ z = 1 \/ z = 2 \/ z = 3 \/ z = 4 \/ z = 5 \/ z = 6 \/ z = 7 \/ z = 8 \/ z = 9)%Z) by lia.
    repeat (destruct K as [K|K]; [subst z; split; vm_compute; reflexivity|]). subst z. split; vm_compute; reflexivity.
  - assert (A : forall (l : list (Z * list N)), Forall (fun p => (fst p < 10)%Z) l -> state_text l z = Err KeyError).
    { intros l F. unfold state_text. induction F as [|[k v] l F _ IH]; [reflexivity|]. cbn [dict_get fst] in *. destruct (Z.eqb_spec z k) as [Q|Q]; [exfalso; lia|]. exact IH. }
    assert (B : forall (l : list String.string), length l <= 10 -> nth_error l (Z.to_nat z) = None) by (intros l L; apply nth_error_None; lia).
    rewrite !A by (repeat constructor). rewrite !B by (vm_compute; lia). destruct z; split; reflexivity.
Qed.
Lemma accepted {Obj Cmd HS RK} (E : env Obj Cmd HS RK) r (w : world Obj Cmd HS RK) k :
  In k [KOpen; KConnect; KDisconnect; KReset; KStop; KClose] -> refusal k (current k r w) = None ->
  (exists e a st, refusal k st = Some (e, a) /\ In (current k r w) e) \/
  match k with
  | KOpen => forall fuel a, pool_open E fuel a w = (Ret tt, w)
  | KConnect => pool_connect E w = (Ret tt, w)
  | KDisconnect => pool_disconnect E w = (Ret tt, w)
  | KStop => ps_stop E r w = (Ret tt, w)
  | KClose => ps_close E r w = (Ret tt, w)
  | _ => False
  end.
Proof.
  intros I1 H. assert (U : forall st l e a, unless (in_states st l) e a = None -> In st l) by (intros st l e a Q; unfold unless in Q; destruct (in_states st l) eqn:S; [apply in_states_iff; exact S|discriminate Q]).
  cbn [In] in I1.
  destruct I1 as [<- | [<- | [<- | [<- | [<- | [<- | []]]]]]]; cbn [refusal current] in H; apply U in H; cbn [In] in H; cbn [current].
  - destruct H as [H|[H|[]]]; [right; intros fuel a; apply open_again; symmetry; exact H|left; exists [rs_before_open], (lit "open a new Runspace Pool"), rs_closed; split; [vm_compute; reflexivity|left; exact H]].
  - destruct H as [H|[H|[]]]; [right; apply connect_again; symmetry; exact H|left; exists [rs_disconnected], (lit "connect to a disconnected Runspace Pool"), rs_closed; split; [vm_compute; reflexivity|left; exact H]].
  - destruct H as [H|[H|[]]]; [right; apply disconnect_again; symmetry; exact H|left; exists [rs_opened], (lit "disconnect a Runspace Pool"), rs_closed; split; [vm_compute; reflexivity|left; exact H]].
  - left. exists [rs_before_open; rs_opened], (lit "reset RunspacePool state"), rs_closed. split; [vm_compute; reflexivity|exact H].
  - destruct H as [H|[H|[H|[]]]]; [right; apply stop_again; left; exact H|right; apply stop_again; right; left; exact H|left; exists [pl_running], (lit "stop a running pipeline"), pl_completed; split; [vm_compute; reflexivity|left; exact H]].
  - destruct H as [H|[H|[H|[H|[]]]]]; [right; apply close_new; symmetry; exact H| | |]; left; exists [pl_completed; pl_stopped; pl_failed], (lit "close a PowerShell pipeline"), pl_running; (split; [vm_compute; reflexivity|cbn [In]; tauto]).
Qed.
