(* C70: the classes of the library are those of the protocol. *)
From Verif Require Import Base BaseProofs Lit NumModel TextModel MsgModel XmlModel SerModel SerClasses SendClasses ClsProofs3 FormSpec FormProofs2.
From Verif Require StartProofs2.
Local Open Scope list_scope.

Definition plainb (m : meta) : bool := match m_kind m with KPlain => true | _ => false end.
Definition calledb (n : option (list N)) (m : meta) : bool := match n, m_name m with None, None => true | Some a, Some b => str_eqb a b | _, _ => false end.
Definition emptyb {A} (l : list A) : bool := match l with [] => true | _ => false end.
Fixpoint matchesb (f : form) (m : meta) : bool :=
  match f with
  | FText tag => plainb m && str_eqb (m_tag m) (lit tag)
  | FClass c => plainb m && (str_eqb (m_tag m) (lit "Obj") || str_eqb (m_tag m) star)
  | FAny => plainb m && negb (m_optional m)
  | FList ts f => match m_kind m with
      | KList e l => str_eqb (m_tag m) (lit "LST") && negb (emptyb ts) && names_eqb l (map lit ts) && plainb e && calledb None e && negb (m_optional e) && matchesb f e
      | _ => false end
  | FDict ts k f => match m_kind m with
      | KDict km vm l => str_eqb (m_tag m) (lit "DCT") && negb (emptyb ts) && names_eqb l (map lit ts) &&
          plainb km && calledb (Some (lit "Key")) km && negb (m_optional km) && matchesb k km &&
          plainb vm && calledb (Some (lit "Value")) vm && negb (m_optional vm) && matchesb f vm
      | _ => false end
  end.
Lemma plainb_ok m : plainb m = true -> m_kind m = KPlain.
Proof. unfold plainb. destruct (m_kind m); intros H; try discriminate H. reflexivity. Qed.
Lemma calledb_ok n m : calledb n m = true -> m_name m = n.
Proof. unfold calledb. destruct n, (m_name m); intros H; try discriminate H; [|reflexivity]. apply str_eqb_spec in H. subst. reflexivity. Qed.
Lemma emptyb_ok {A} (l : list A) : negb (emptyb l) = true -> l <> [].
Proof. destruct l; intros H; [discriminate H|discriminate]. Qed.
Lemma matchesb_ok f : forall m, matchesb f m = true -> matches f m.
Proof.
  induction f as [tag|c|ts f IH|ts k IHk f IH|]; intros m H; cbn [matchesb matches] in *.
  - apply andb_true_iff in H. destruct H as (H1 & H2). split; [apply plainb_ok; exact H1|apply str_eqb_spec; exact H2].
  - apply andb_true_iff in H. destruct H as (H1 & H2). split; [apply plainb_ok; exact H1|]. apply orb_true_iff in H2. destruct H2 as [H2|H2]; [left|right]; apply str_eqb_spec; exact H2.
  - destruct (m_kind m) as [|e l|e l|e l|a e l] eqn:K; try discriminate H. repeat rewrite andb_true_iff in H. destruct H as ((((((H1 & H2) & H3) & H4) & H5) & H6) & H7).
    split; [apply str_eqb_spec; exact H1|]. split; [apply emptyb_ok; exact H2|]. exists e. apply names_eqb_eq in H3. subst l. split; [reflexivity|]. split; [apply plainb_ok; exact H4|].
    split; [apply calledb_ok; exact H5|]. split; [apply negb_true_iff; exact H6|]. apply IH. exact H7.
  - destruct (m_kind m) as [|e l|e l|e l|a e l] eqn:K; try discriminate H. repeat rewrite andb_true_iff in H. destruct H as ((((((((((H1 & H2) & H3) & H4) & H5) & H6) & H7) & H8) & H9) & H10) & H11).
    split; [apply str_eqb_spec; exact H1|]. split; [apply emptyb_ok; exact H2|]. exists a, e. apply names_eqb_eq in H3. subst l. split; [reflexivity|].
    split; [apply plainb_ok; exact H4|]. split; [apply calledb_ok; exact H5|]. split; [apply negb_true_iff; exact H6|]. split; [apply IHk; exact H7|].
    split; [apply plainb_ok; exact H8|]. split; [apply calledb_ok; exact H9|]. split; [apply negb_true_iff; exact H10|]. apply IH. exact H11.
  - apply andb_true_iff in H. destruct H as (H1 & H2). split; [apply plainb_ok; exact H1|apply negb_true_iff; exact H2].
Qed.
Definition rowb (r : row) (e : list N * meta) : bool :=
  match r with Row a f name o => str_eqb (fst e) (lit a) && calledb (Some (lit name)) (snd e) && Bool.eqb (m_optional (snd e)) o && matchesb f (snd e) end.
Lemma rowb_ok r e : rowb r e = true -> row_matches r e.
Proof.
  destruct r as [a f name o]. unfold rowb, row_matches. intros H. repeat rewrite andb_true_iff in H. destruct H as (((H1 & H2) & H3) & H4).
  split; [apply str_eqb_spec; exact H1|]. split; [apply calledb_ok; exact H2|]. split; [apply Bool.eqb_prop; exact H3|apply matchesb_ok; exact H4].
Qed.
Fixpoint rowsb (rs : list row) (es : list (list N * meta)) : bool :=
  match rs, es with [], [] => true | r :: rs', e :: es' => rowb r e && rowsb rs' es' | _, _ => false end.
Lemma rowsb_ok rs : forall es, rowsb rs es = true -> Forall2 row_matches rs es.
Proof.
  induction rs as [|r rs IH]; intros [|e es] H; try discriminate H; [constructor|]. cbn [rowsb] in H. apply andb_true_iff in H. destruct H as (H1 & H2). constructor; [apply rowb_ok; exact H1|apply IH; exact H2].
Qed.

(* ---- objects ---- *)
Definition objectb (e : String.string * layout) : bool :=
  match snd e with
  | LObject ts ad ex => match sending (lit (fst e)) with
      | Some d => names_eqb (cd_types d) (map lit ts) && emptyb (cd_sets d) && rowsb ad (cd_adapted d) && rowsb ex (cd_extended d)
      | None => false end
  | LEnum _ _ => true
  end.
Lemma objectb_ok c ts ad ex : objectb (c, LObject ts ad ex) = true -> exists d, sending (lit c) = Some d /\ described_as (LObject ts ad ex) d.
Proof.
  unfold objectb. cbn [fst snd]. destruct (sending (lit c)) as [d|]; intros H; [|discriminate H]. exists d. split; [reflexivity|]. repeat rewrite andb_true_iff in H. destruct H as (((H1 & H2) & H3) & H4).
  unfold described_as. split; [apply names_eqb_eq; exact H1|]. split; [destruct (cd_sets d); [reflexivity|discriminate H2]|]. split; apply rowsb_ok; assumption.
Qed.
Lemma objects_ok : forallb objectb forms = true.
Proof. vm_compute. reflexivity. Qed.

(* ---- enumerations ---- *)
Definition enum_of (c : String.string) (type : String.string) (text : list (list N * value) -> res value) : Prop := sending (lit c) = Some (enum_desc type text).
Lemma enum_described names type text : (forall attrs z v, dict_get str_eqb (lit "value") attrs = Some (VInt z) -> text attrs = Ok v -> exists s, v = VStr s /\ called names z (serialize_string s)) ->
  described_as (LEnum type names) (enum_desc type text).
Proof. intros H. unfold described_as, enum_desc. cbn [cd_types cd_sets cd_adapted cd_extended cd_text]. split; [reflexivity|]. split; [reflexivity|]. split; [reflexivity|]. split; [reflexivity|]. exact H. Qed.
Definition plain_text (s : String.string) : bool := str_eqb (serialize_string (lit s)) (lit s).
Definition pair_in (names : list (Z * String.string)) (e : Z * String.string) : bool := existsb (fun x => (Z.eqb (fst x) (fst e) && String.eqb (snd x) (snd e))%bool) names.
Lemma zget_in z l s : zget z l = Some s -> In (z, s) l.
Proof.
  induction l as [|(k, t) l IH]; cbn [zget]; [discriminate|]. destruct (Z.eqb z k) eqn:E; intros H; [|right; apply IH; exact H].
  apply Z.eqb_eq in E. apply Some_inj in H. subst. left. reflexivity.
Qed.
Lemma names_called names map : forallb (fun e => (pair_in names e && plain_text (snd e))%bool) map = true ->
  forall attrs z v, dict_get str_eqb (lit "value") attrs = Some (VInt z) -> enum_text map attrs = Ok v -> exists s, v = VStr s /\ called (Some names) z (serialize_string s).
Proof.
  intros A attrs z v E H. unfold enum_text, enum_number in H. rewrite E in H. cbn [bind] in H. destruct (zget z map) as [s|] eqn:Z1; [|discriminate H]. apply Ok_inj in H. subst v.
  apply zget_in in Z1. rewrite forallb_forall in A. specialize (A _ Z1). apply andb_true_iff in A. destruct A as (A1 & A2). cbn [snd] in A2. unfold plain_text in A2. apply str_eqb_spec in A2.
  exists (lit s). split; [reflexivity|]. cbn [called]. exists s. split; [|exact A2]. unfold pair_in in A1. apply existsb_exists in A1. destruct A1 as ((k & t) & K & A1). cbn [fst snd] in A1.
  apply andb_true_iff in A1. destruct A1 as (B1 & B2). apply Z.eqb_eq in B1. apply String.eqb_eq in B2. subst. exact K.
Qed.
Lemma flags_called all name map : forall attrs z v, dict_get str_eqb (lit "value") attrs = Some (VInt z) -> flags_text all name map attrs = Ok v -> exists s, v = VStr s /\ called None z (serialize_string s).
Proof.
  intros attrs z v E H. unfold flags_text, enum_number in H. rewrite E in H. cbn [bind] in H. apply Ok_inj in H. subst v. eexists. split; [reflexivity|]. exact Logic.I.
Qed.
Lemma result_called : forall attrs z v, dict_get str_eqb (lit "value") attrs = Some (VInt z) -> result_text attrs = Ok v -> exists s, v = VStr s /\ called (Some result_names) z (serialize_string s).
Proof.
  intros attrs z v E H. unfold result_text in H.
  assert (K1 : enum_text result_map attrs = Ok v -> exists s, v = VStr s /\ called (Some result_names) z (serialize_string s)) by (apply names_called; [vm_compute; reflexivity|exact E]).
  destruct (dict_get str_eqb (lit "protocol_version_2") attrs) as [w|]; [|exact (K1 H)]. destruct w as [|b| | | | | | | | | | | |]; try exact (K1 H). destruct b; [|exact (K1 H)].
  revert H. apply names_called; [vm_compute; reflexivity|exact E].
Qed.

Lemma described_enum c type names text : sending (lit c) = Some (enum_desc type text) ->
  (forall attrs z v, dict_get str_eqb (lit "value") attrs = Some (VInt z) -> text attrs = Ok v -> exists s, v = VStr s /\ called names z (serialize_string s)) ->
  exists d, sending (lit c) = Some d /\ described_as (LEnum type names) d.
Proof. intros H K. eexists. split; [exact H|]. apply enum_described. exact K. Qed.
Lemma enums_ok : Forall (fun e => match snd e with LEnum _ _ => exists d, sending (lit (fst e)) = Some d /\ described_as (snd e) d | _ => True end) forms.
Proof.
  unfold forms. repeat (apply Forall_cons; [cbn [fst snd host_answer]; try exact Logic.I|]); [..|apply Forall_nil].
  - apply (described_enum _ _ _ (enum_text color_map)); [reflexivity|]. apply names_called. vm_compute. reflexivity.
  - apply (described_enum _ _ _ (enum_text [(0%Z, "Default"); (1%Z, "UseNewThread"); (2%Z, "ReuseThread"); (3%Z, "UseCurrentThread")]%string)); [reflexivity|]. apply names_called. vm_compute. reflexivity.
  - apply (described_enum _ _ _ (enum_text [(0%Z, "STA"); (1%Z, "MTA"); (2%Z, "UNKNOWN")]%string)); [reflexivity|]. apply names_called. vm_compute. reflexivity.
  - eapply described_enum; [reflexivity|]. apply flags_called.
  - apply (described_enum _ _ _ result_text); [reflexivity|]. apply result_called.
  - apply (described_enum _ _ _ (enum_text method_map)); [reflexivity|]. apply names_called. vm_compute. reflexivity.
  - eapply described_enum; [reflexivity|]. apply flags_called.
Qed.
Lemma sending_table : Forall (fun e => exists d, sending (lit (fst e)) = Some d /\ described_as (snd e) d) forms.
Proof.
  apply Forall_forall. intros (c, l) H. destruct l as [ty names|ts ad ex].
  - pose proof enums_ok as E. rewrite Forall_forall in E. exact (E _ H).
  - pose proof objects_ok as O. rewrite forallb_forall in O. exact (objectb_ok c ts ad ex (O _ H)).
Qed.
