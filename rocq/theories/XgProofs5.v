(* The reader reads only texts the grammar allows: what each state of the reader
   says about the characters read so far. *)
From Coq Require Import Lia ZifyBool ZifyNat ZifyN.
From Verif Require Import Base BaseProofs Lit NumModel TextModel TextSpec XmlModel XtModel XtSpec XtProofs XgSpec XgProofs XgProofs4.
Local Open Scope list_scope.

Inductive stack : list N -> list frame -> Prop :=
| st_nil : forall s, misc s -> stack s []
| st_cons : forall s n r a b c f fs, stack s fs -> word n -> attributed r a -> NoDup (map fst a) -> blank b -> content c (f_text f) (f_kids f) ->
    f_name f = n -> f_attrs f = a -> stack (s ++ [60%N] ++ n ++ r ++ b ++ [62%N] ++ c) (f :: fs).
Definition done (s : list N) (x : xml) : Prop := exists m e m', s = m ++ e ++ m' /\ misc m /\ element e x /\ misc m'.
Definition base (s : list N) (o : option xml) (fs : list frame) : Prop :=
  match o with Some x => fs = [] /\ done s x | None => stack s fs end.
(* at most [k] brackets at the end *)
Definition few (k : nat) (s : list N) : Prop := forall u j, s = u ++ repeat 93%N j -> (j <= k)%nat.
(* in a start tag, behind attributes *)
Definition tagged (s : list N) (fs : list frame) (n : list N) (a : list (list N * list N)) (rest : list N) : Prop :=
  exists s0 r, s = s0 ++ [60%N] ++ n ++ r ++ rest /\ stack s0 fs /\ word n /\ attributed r a /\ NoDup (map fst a).
Definition named (s : list N) (fs : list frame) n a k (rest : list N) : Prop :=
  exists g, tagged s fs n a (g ++ k ++ rest) /\ gap g /\ word k.

Definition inv (s : list N) (st : reader) : Prop :=
  let '(m, fs) := st in
  match m with
  | Before => fs = [] /\ misc s
  | Lt => exists s0, s = s0 ++ [60%N] /\ stack s0 fs
  | OpenName n => exists s0, s = s0 ++ [60%N] ++ n /\ stack s0 fs /\ word n
  | InTag n a w => exists b, tagged s fs n a b /\ blank b /\ (w = true -> b <> [])
  | AttName n a k => named s fs n a k []
  | AttEq n a k => exists b, named s fs n a k b /\ blank b
  | AttQuote n a k => exists b b', named s fs n a k (b ++ [61%N] ++ b') /\ blank b /\ blank b'
  | AttVal n a k q v => exists b b' r, named s fs n a k (b ++ [61%N] ++ b' ++ [q] ++ r) /\ blank b /\ blank b' /\ quote_mark q /\ valued q r v
  | AttRef n a k q v m => exists b b' r, named s fs n a k (b ++ [61%N] ++ b' ++ [q] ++ r ++ [38%N] ++ m) /\ blank b /\ blank b' /\ quote_mark q /\ valued q r v
  | Slash n a => exists b, tagged s fs n a (b ++ [47%N]) /\ blank b
  | CloseName n => exists s0, s = s0 ++ [60%N; 47%N] ++ n /\ stack s0 fs
  | CloseEnd n => exists s0 b, s = s0 ++ [60%N; 47%N] ++ n ++ b /\ stack s0 fs /\ blank b
  | Text k => fs <> [] /\ stack s fs /\ few k s
  | TextRef r => exists s0, s = s0 ++ [38%N] ++ r /\ stack s0 fs /\ fs <> []
  | Bang o d => exists s0, s = s0 ++ [60%N; 33%N] ++ d /\ base s0 o fs
  | Comment o d =>
      exists s0 b, s = s0 ++ lit "<!--" ++ b ++ repeat 45%N d /\ base s0 o fs /\ Forall xml_char b /\
        match d with
        | 0%nat => ~ within [45%N; 45%N] (b ++ [45%N])
        | 1%nat | 2%nat => ~ within [45%N; 45%N] (b ++ [45%N])
        | _ => False
        end
  | CData k =>
      exists s0 b f f0 fs', fs = f :: fs' /\ s = s0 ++ lit "<![CDATA[" ++ b ++ repeat 93%N k /\ stack s0 (f0 :: fs') /\ f = add_text b f0 /\
        Forall xml_char b /\ (k <= 2)%nat /\ ~ within (lit "]]>") (b ++ repeat 93%N k) /\ (k <> 2%nat -> few k (b ++ repeat 93%N k))
  | PiName o n => exists s0, s = s0 ++ [60%N; 63%N] ++ n /\ base s0 o fs /\ (n = [] \/ nc_name n)
  | Pi o q =>
      exists s0 n b, s = s0 ++ [60%N; 63%N] ++ n ++ b ++ (if q then [63%N] else []) /\ base s0 o fs /\ nc_name n /\ ~ xml_reserved n /\
        Forall xml_char b /\ (exists c b', b = c :: b' /\ space c) /\ ~ within (lit "?>") b /\
        (q = false -> ~ exists u, b = u ++ [63%N])
  | PiEnd o => exists s0 n, s = s0 ++ [60%N; 63%N] ++ n ++ [63%N] /\ base s0 o fs /\ nc_name n /\ ~ xml_reserved n
  | AfterLt x => fs = [] /\ exists s0, s = s0 ++ [60%N] /\ done s0 x
  | After x => fs = [] /\ done s x
  | Bad => True
  end.

(* ---- the parts of the stack ---- *)
Lemma stack_char s f fs c : stack s (f :: fs) -> xml_char c -> c <> 60%N -> c <> 38%N -> (c = 62%N -> few 1 s) -> stack (s ++ [c]) (add_text [c] f :: fs).
Proof.
  intros H X N1 N2 B. inversion H as [|s0 n r a b c0 f' fs' S0 W A D Bl C En Ea E1 E2]; subst.
  replace ((s0 ++ [60%N] ++ f_name f ++ r ++ b ++ [62%N] ++ c0) ++ [c]) with (s0 ++ [60%N] ++ f_name f ++ r ++ b ++ [62%N] ++ (c0 ++ [c])) by (rewrite <- !app_assoc; reflexivity).
  assert (K : content (c0 ++ [c]) (match f_kids f with [] => f_text f ++ [c] | _ => f_text f end) (f_kids f)).
  { apply content_char; try assumption. intros -> (u & ->). specialize (B eq_refl (s0 ++ [60%N] ++ f_name f ++ r ++ b ++ [62%N] ++ u) 2%nat). rewrite <- !app_assoc in B. specialize (B eq_refl). lia. }
  apply st_cons with (a := f_attrs f); try assumption; unfold add_text; destruct (f_kids f) eqn:Ek; cbn [f_text f_kids f_name f_attrs]; try rewrite Ek; try exact K; reflexivity.
Qed.
Lemma stack_item s f fs d t l : stack s (f :: fs) -> content d t l -> marked d ->
  stack (s ++ d) ({| f_name := f_name f; f_attrs := f_attrs f; f_text := match f_kids f with [] => f_text f ++ t | _ => f_text f end; f_kids := f_kids f ++ l |} :: fs).
Proof.
  intros H K M. inversion H as [|s0 n r a b c0 f' fs' S0 W A D Bl C En Ea E1 E2]; subst.
  replace ((s0 ++ [60%N] ++ f_name f ++ r ++ b ++ [62%N] ++ c0) ++ d) with (s0 ++ [60%N] ++ f_name f ++ r ++ b ++ [62%N] ++ (c0 ++ d)) by (rewrite <- !app_assoc; reflexivity).
  apply st_cons with (a := f_attrs f); try assumption; try reflexivity. cbn [f_text f_kids]. exact (content_app _ _ _ _ _ _ C K M).
Qed.
Lemma stack_text s f fs d t : stack s (f :: fs) -> content d t [] -> marked d -> stack (s ++ d) (add_text t f :: fs).
Proof.
  intros H K M. assert (Q := stack_item s f fs d t [] H K M). unfold add_text. destruct f as [fn fa ft fk]. cbn [f_name f_attrs f_text f_kids] in *. rewrite app_nil_r in Q. destruct fk; exact Q.
Qed.
Lemma stack_same s f fs d : stack s (f :: fs) -> content d [] [] -> marked d -> stack (s ++ d) (f :: fs).
Proof. intros H K M. rewrite <- (add_text_nil f). exact (stack_text s f fs d [] H K M). Qed.
Lemma stack_empty s : stack s [] -> misc s.
Proof. inversion 1; assumption. Qed.
Lemma few_zero s c : c <> 93%N -> few 0 (s ++ [c]).
Proof.
  intros Nc u j E. destruct j as [|j]; [lia|]. exfalso. change (repeat 93%N (S j)) with (repeat 93%N 1 ++ repeat 93%N j) in E. rewrite <- repeat_app in E. rewrite Nat.add_comm, repeat_app in E.
  rewrite app_assoc in E. apply snoc_inj in E. destruct E as (_ & E). exact (Nc E).
Qed.
Lemma few_more k s : few k s -> few (S k) (s ++ [93%N]).
Proof.
  intros F u j E. destruct j as [|j]; [lia|]. change (repeat 93%N (S j)) with (repeat 93%N 1 ++ repeat 93%N j) in E. rewrite <- repeat_app in E. rewrite Nat.add_comm, repeat_app in E.
  rewrite app_assoc in E. apply snoc_inj in E. destruct E as (E & _). specialize (F _ _ E). lia.
Qed.
Lemma few_weak k k' s : (k <= k')%nat -> few k s -> few k' s.
Proof. intros L F u j E. specialize (F u j E). lia. Qed.

(* an item that ends in its own way *)
Lemma resumed s o fs d c : base s o fs -> content (d ++ [c]) [] [] -> misc (d ++ [c]) -> marked (d ++ [c]) -> c <> 93%N -> inv (s ++ d ++ [c]) (resume o fs).
Proof.
  intros B K Mi Ma Nc. destruct o as [x|]; cbn [base resume] in *.
  - destruct B as (-> & m & e & m' & -> & M1 & El & M2). split; [reflexivity|]. exists m, e, (m' ++ d ++ [c]). split; [rewrite <- !app_assoc; reflexivity|]. split; [exact M1|]. split; [exact El|]. apply misc_app; assumption.
  - destruct fs as [|f fs]; cbn [inv].
    + split; [reflexivity|]. apply misc_app; [apply stack_empty; exact B|exact Mi].
    + split; [discriminate|]. split; [apply stack_same; assumption|]. rewrite app_assoc. apply few_zero. exact Nc.
Qed.
Lemma comment_ok m : comment m -> content m [] [] /\ misc m /\ marked m.
Proof. intros C. split; [|split]; [| |destruct C as (b & -> & _); left; reflexivity]; rewrite <- (app_nil_r m); [apply co_comment|apply mi_comment]; try assumption; constructor. Qed.
Lemma instruction_ok m : instruction m -> content m [] [] /\ misc m /\ marked m.
Proof. intros C. split; [|split]; [| |destruct C as (n & b & -> & _); left; reflexivity]; rewrite <- (app_nil_r m); [apply co_instruction|apply mi_instruction]; try assumption; constructor. Qed.
Lemma kid_added s fs e x c : stack s fs -> element (e ++ [c]) x -> marked (e ++ [c]) -> c <> 93%N -> inv (s ++ e ++ [c]) (add_kid x fs).
Proof.
  intros St El M Nc. destruct fs as [|f fs]; cbn [add_kid inv].
  - split; [reflexivity|]. exists s, (e ++ [c]), []. rewrite app_nil_r. split; [reflexivity|]. split; [apply stack_empty; exact St|]. split; [exact El|constructor].
  - split; [discriminate|]. split; [|rewrite app_assoc; apply few_zero; exact Nc].
    assert (K : content (e ++ [c]) [] [x]) by (rewrite <- (app_nil_r (e ++ [c])); apply (co_child _ x _ [] []); [exact El|constructor]).
    assert (Q := stack_item s f fs _ _ _ St K M). rewrite app_nil_r in Q. destruct (f_kids f); exact Q.
Qed.
Lemma word_snoc n c : word n -> name_char c = true -> word (n ++ [c]).
Proof.
  intros W C. destruct n as [|d n]; [destruct W|]. destruct W as (F & A). split; [exact F|]. apply Forall_app. split; [exact A|]. constructor; [|constructor].
  unfold name_char in C. apply Bool.orb_true_iff in C. destruct C as [C|C]; [left; apply nc_char_spec; exact C|right; apply N.eqb_eq; exact C].
Qed.
Lemma word_one c : name_start c = true -> word [c].
Proof. intros C. split; [apply name_start_spec; exact C|constructor]. Qed.
Lemma nc_snoc n c : nc_name n -> nc_char c = true -> nc_name (n ++ [c]).
Proof. destruct n as [|d n]; [intros []|]. intros (F & A) C. split; [exact F|]. apply Forall_app. split; [exact A|]. constructor; [apply nc_char_spec; exact C|constructor]. Qed.
Lemma reserved_is n : xml_reserved n -> reserved n = true.
Proof. intros (x & m & l & -> & [<-|[<-|[]]] & [<-|[<-|[]]] & [<-|[<-|[]]]); reflexivity. Qed.
Lemma open_inv s fs n a b : tagged s fs n a b -> blank b -> inv (s ++ [62%N]) (open_tag n a fs).
Proof.
  intros (s0 & r & -> & St & W & A & D) B. cbn [open_tag inv]. split; [discriminate|]. split; [|apply few_zero; discriminate].
  replace ((s0 ++ [60%N] ++ n ++ r ++ b) ++ [62%N]) with (s0 ++ [60%N] ++ n ++ r ++ b ++ [62%N] ++ []) by (rewrite <- !app_assoc; reflexivity).
  apply st_cons with (a := a); try assumption; try reflexivity. constructor.
Qed.
Lemma tagged_snoc s fs n a b c : tagged s fs n a b -> tagged (s ++ [c]) fs n a (b ++ [c]).
Proof. intros (s0 & r & -> & K). exists s0, r. split; [rewrite <- !app_assoc; reflexivity|exact K]. Qed.
Lemma tagged_to s fs n a b b' : tagged s fs n a b -> b = b' -> tagged s fs n a b'.
Proof. intros H <-. exact H. Qed.
Lemma named_snoc s fs n a k b c : named s fs n a k b -> named (s ++ [c]) fs n a k (b ++ [c]).
Proof. intros (g & T & G & W). exists g. split; [|split; assumption]. apply (tagged_to _ _ _ _ _ _ (tagged_snoc _ _ _ _ _ c T)). rewrite <- !app_assoc. reflexivity. Qed.
Lemma named_to s fs n a k b b' : named s fs n a k b -> b = b' -> named s fs n a k b'.
Proof. intros H <-. exact H. Qed.
Lemma close_inv s0 n b fs : stack s0 fs -> blank b -> inv ((s0 ++ [60%N; 47%N] ++ n ++ b) ++ [62%N]) (close_tag n fs).
Proof.
  intros St B. unfold close_tag. destruct fs as [|f fs]; [exact I|]. destruct (str_eqb n (f_name f)) eqn:E; [|exact I]. apply str_eqb_spec in E. subst n.
  inversion St as [|s1 n r a b1 c0 f' fs' S0 W A D Bl C En Ea E1 E2]; subst.
  replace (((s1 ++ [60%N] ++ f_name f ++ r ++ b1 ++ [62%N] ++ c0) ++ [60%N; 47%N] ++ f_name f ++ b) ++ [62%N])
    with (s1 ++ ([60%N] ++ f_name f ++ r ++ b1 ++ [62%N] ++ c0 ++ [60%N; 47%N] ++ f_name f ++ b) ++ [62%N]) by (rewrite <- !app_assoc; reflexivity).
  apply kid_added; [exact S0| |left; reflexivity|discriminate]. rewrite <- !app_assoc. exact (el_full _ _ _ _ _ _ _ _ W A D Bl C B).
Qed.
Lemma refers_marked r c : refers r c -> content r [c] [] /\ marked r.
Proof. intros R. split; [rewrite <- (app_nil_r r); exact (co_ref r c [] [] [] R co_nil)|]. destruct (refers_shape r c R) as (m & -> & _). right. reflexivity. Qed.
Lemma dict_get_absent k (a : list (list N * list N)) : dict_get str_eqb k a = None -> ~ In k (map fst a).
Proof.
  induction a as [|(k', v) a IH]; [intros _ []|]. cbn [dict_get map fst In]. destruct (str_eqb k k') eqn:E; [discriminate|]. intros H [->|K]; [rewrite str_eqb_refl in E; discriminate E|exact (IH H K)].
Qed.
