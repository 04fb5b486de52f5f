(* Reading what was written: the markup. *)
From Coq Require Import Lia ZifyBool ZifyNat ZifyN.
From Verif Require Import Base BaseProofs Lit NumModel NumProofs TextModel TextSpec XmlModel SerModel XtModel XtSpec.

Local Open Scope list_scope.

Lemma xml_induction (P : xml -> Prop) : (forall t a s kids, Forall P kids -> P (Elem t a s kids)) -> forall x, P x.
Proof.
  intros H. fix IH 1. intros [t a s kids]. apply H. induction kids as [|y l IHl]; constructor; [apply IH|exact IHl].
Qed.

(* ---- characters ---- *)
Lemma is_char_spec c : is_char c = true <-> xml_char c.
Proof. unfold is_char, xml_char. lia. Qed.
Lemma name_start_spec c : name_start c = true <-> name_first c.
Proof. unfold name_start, is_alpha, name_first. lia. Qed.
Lemma nc_char_spec c : nc_char c = true <-> name_more c.
Proof. unfold nc_char, name_more, name_start, is_alpha, name_first, is_digit. lia. Qed.

Definition run := fold_left step.
Lemma run_app a b st : run (a ++ b) st = run b (run a st).
Proof. apply fold_left_app. Qed.
Lemma run_cons c b st : run (c :: b) st = run b (step st c).
Proof. reflexivity. Qed.

(* a raw name *)
Definition raw_name (s : list N) : Prop := match s with c :: s' => name_start c = true /\ forallb name_char s' = true | [] => False end.

Lemma run_open s : forall n fs, forallb name_char s = true -> run s (OpenName n, fs) = (OpenName (n ++ s), fs).
Proof.
  induction s as [|c s IH]; intros n fs H; [rewrite app_nil_r; reflexivity|].
  cbn [forallb] in H. apply andb_true_iff in H. destruct H as [H1 H2]. rewrite run_cons. cbn [step]. rewrite H1, IH by exact H2.
  rewrite <- app_assoc. reflexivity.
Qed.
Lemma run_attname s : forall n a k fs, forallb name_char s = true -> run s (AttName n a k, fs) = (AttName n a (k ++ s), fs).
Proof.
  induction s as [|c s IH]; intros n a k fs H; [rewrite app_nil_r; reflexivity|].
  cbn [forallb] in H. apply andb_true_iff in H. destruct H as [H1 H2]. rewrite run_cons. cbn [step]. rewrite H1, IH by exact H2.
  rewrite <- app_assoc. reflexivity.
Qed.
Lemma run_close s : forall n fs, forallb name_char s = true -> run s (CloseName n, fs) = (CloseName (n ++ s), fs).
Proof.
  induction s as [|c s IH]; intros n fs H; [rewrite app_nil_r; reflexivity|].
  cbn [forallb] in H. apply andb_true_iff in H. destruct H as [H1 H2]. rewrite run_cons. cbn [step]. rewrite H1, IH by exact H2.
  rewrite <- app_assoc. reflexivity.
Qed.
Lemma raw_all s : raw_name s -> forallb name_char s = true.
Proof.
  destruct s as [|c s]; [intros []|]. intros [A B]. cbn [forallb]. rewrite B, andb_true_r. unfold name_char, nc_char. rewrite A. reflexivity.
Qed.

(* ---- text ---- *)
Lemma run_char c b f fs : xml_char c -> exists b', run (esc_text_char c) (Text b, f :: fs) = (Text b', add_text [c] f :: fs).
Proof.
  intros X. unfold esc_text_char.
  destruct (N.eqb c 38) eqn:E1; [apply N.eqb_eq in E1; subst c; exists O; reflexivity|].
  destruct (N.eqb c 60) eqn:E2; [apply N.eqb_eq in E2; subst c; exists O; reflexivity|].
  destruct (N.eqb c 62) eqn:E3; [apply N.eqb_eq in E3; subst c; exists O; reflexivity|].
  rewrite run_cons. cbn [step]. rewrite E2, E1. destruct (N.eqb c 93) eqn:E4; [eexists; reflexivity|].
  rewrite E3. cbn [andb]. rewrite (proj2 (is_char_spec c) X). eexists. reflexivity.
Qed.
Lemma add_text_app a b f : add_text b (add_text a f) = add_text (a ++ b) f.
Proof. unfold add_text. destruct (f_kids f) eqn:E; cbn [f_kids f_text f_name f_attrs]; [rewrite <- app_assoc; reflexivity|rewrite E; reflexivity]. Qed.
Lemma add_text_nil f : add_text [] f = f.
Proof. unfold add_text. destruct f as [n a t k]. cbn. destruct k; [rewrite app_nil_r|]; reflexivity. Qed.
Lemma run_text s : forall b f fs, Forall xml_char s -> exists b', run (esc_text s) (Text b, f :: fs) = (Text b', add_text s f :: fs).
Proof.
  induction s as [|c s IH]; intros b f fs H.
  - exists b. rewrite add_text_nil. reflexivity.
  - change (esc_text (c :: s)) with (esc_text_char c ++ esc_text s). rewrite run_app.
    destruct (run_char c b f fs (Forall_inv H)) as (b1 & ->). destruct (IH b1 (add_text [c] f) fs (Forall_inv_tail H)) as (b2 & ->).
    exists b2. rewrite add_text_app. reflexivity.
Qed.

(* ---- attributes ---- *)
Lemma run_attchar n a k v fs c : xml_char c -> run (esc_attr_char c) (AttVal n a k 34%N v, fs) = (AttVal n a k 34%N (v ++ [c]), fs).
Proof.
  intros X. unfold esc_attr_char.
  destruct (N.eqb c 38) eqn:E1; [apply N.eqb_eq in E1; subst c; reflexivity|].
  destruct (N.eqb c 60) eqn:E2; [apply N.eqb_eq in E2; subst c; reflexivity|].
  destruct (N.eqb c 62) eqn:E3; [apply N.eqb_eq in E3; subst c; reflexivity|].
  destruct (N.eqb c 34) eqn:E4; [apply N.eqb_eq in E4; subst c; reflexivity|].
  destruct (N.eqb c 13) eqn:E5; [apply N.eqb_eq in E5; subst c; reflexivity|].
  destruct (N.eqb c 10) eqn:E6; [apply N.eqb_eq in E6; subst c; reflexivity|].
  destruct (N.eqb c 9) eqn:E7; [apply N.eqb_eq in E7; subst c; reflexivity|].
  rewrite run_cons. cbn [step]. rewrite E4, E2, E1, (proj2 (is_char_spec c) X).
  unfold is_ws. rewrite E6, E7, !orb_false_r. destruct (N.eqb c 32) eqn:E8; [apply N.eqb_eq in E8; subst c|]; reflexivity.
Qed.
Lemma run_attval n a k fs s : forall v, Forall xml_char s -> run (esc_attr s) (AttVal n a k 34%N v, fs) = (AttVal n a k 34%N (v ++ s), fs).
Proof.
  induction s as [|c s IH]; intros v H; [rewrite app_nil_r; reflexivity|].
  change (esc_attr (c :: s)) with (esc_attr_char c ++ esc_attr s). rewrite run_app, (run_attchar _ _ _ _ _ _ (Forall_inv H)), (IH _ (Forall_inv_tail H)), <- app_assoc. reflexivity.
Qed.
Definition in_tag (m : mode) (n : list N) (a : list (list N * list N)) : Prop :=
  (m = OpenName n /\ a = []) \/ m = InTag n a false.
Lemma run_attr kv m n a fs : in_tag m n a -> raw_name (fst kv) -> Forall xml_char (snd kv) -> dict_get str_eqb (fst kv) a = None ->
  run (show_attr kv) (m, fs) = (InTag n (a ++ [kv]) false, fs).
Proof.
  destruct kv as [[|c k] v]; cbn [fst snd]; intros M R X D; [destruct R|]. destruct R as [R1 R2]. unfold show_attr. cbn [fst snd].
  change (lit " ") with [32%N]. change (lit "=") with [61%N]. unfold quote. cbn [app]. rewrite run_cons.
  assert (S1 : step (m, fs) 32 = (InTag n a true, fs)) by (destruct M as [[-> ->] | ->]; reflexivity). rewrite S1. rewrite run_cons.
  assert (S2 : step (InTag n a true, fs) c = (AttName n a [c], fs)).
  { cbn [step]. assert (is_ws c = false /\ N.eqb c 62 = false /\ N.eqb c 47 = false) as (-> & -> & ->) by (clear - R1; revert R1; unfold name_start, is_alpha, is_ws; lia).
    rewrite R1. reflexivity. }
  rewrite S2, run_app, run_attname by exact R2. cbn [app]. rewrite run_cons. rewrite run_cons. cbn [step].
  change (name_char 61) with false. cbn [step]. change (is_ws 61) with false. change (N.eqb 61 61) with true. cbv iota. cbn [step].
  change (is_ws 34) with false. change (N.eqb 34 34 || N.eqb 34 39)%bool with true. cbv iota.
  rewrite run_app, run_attval by exact X. cbn [app]. rewrite run_cons. cbn [step]. change (N.eqb 34 34) with true. cbv iota. rewrite D. reflexivity.
Qed.
Lemma dict_get_none_app (k : list N) (a : list (list N * list N)) : ~ In k (map fst a) -> dict_get str_eqb k a = None.
Proof.
  induction a as [|[k' v] a IH]; intros H; [reflexivity|]. cbn [dict_get]. rewrite str_eqb_neq; [apply IH; intros F; apply H; right; exact F|].
  intros ->. apply H. left. reflexivity.
Qed.
Lemma run_attrs l : forall m n a fs, in_tag m n a -> Forall (fun kv => raw_name (fst kv) /\ Forall xml_char (snd kv)) l -> NoDup (map fst (a ++ l)) ->
  exists m', run (flat_map show_attr l) (m, fs) = (m', fs) /\ in_tag m' n (a ++ l).
Proof.
  induction l as [|kv l IH]; intros m n a fs M F D.
  - exists m. rewrite app_nil_r. split; [reflexivity|exact M].
  - cbn [flat_map]. rewrite run_app. destruct (Forall_inv F) as [R X]. rewrite (run_attr kv m n a fs M R X).
    + destruct (IH (InTag n (a ++ [kv]) false) n (a ++ [kv]) fs) as (m' & E & I); [right; reflexivity|exact (Forall_inv_tail F)|rewrite <- app_assoc; exact D|].
      exists m'. rewrite <- app_assoc in I. split; [exact E|exact I].
    + apply dict_get_none_app. clear - D. intros H. rewrite map_app in D. cbn [map] in D. apply NoDup_remove_2 in D. apply D, in_or_app. left. exact H.
Qed.

(* ---- trees ---- *)
Fixpoint raw_ok (x : xml) : Prop :=
  match x with
  | Elem t a txt kids =>
      raw_name t /\ NoDup (map fst a) /\ Forall (fun kv => raw_name (fst kv) /\ Forall xml_char (snd kv)) a /\
      (forall s, txt = Some s -> Forall xml_char s) /\
      (fix all (l : list xml) : Prop := match l with [] => True | y :: l' => raw_ok y /\ all l' end) kids
  end.
Lemma all_forall (P : xml -> Prop) l : (fix all (l : list xml) : Prop := match l with [] => True | y :: l' => P y /\ all l' end) l <-> Forall P l.
Proof.
  induction l as [|y l IH]; [split; [constructor|exact (fun _ => I)]|]. split.
  - intros [A B]. constructor; [exact A|]. apply IH. exact B.
  - intros H. split; [exact (Forall_inv H)|]. apply IH. exact (Forall_inv_tail H).
Qed.

(* a start tag, up to what ends it *)
Lemma run_start t a fs : raw_name t -> NoDup (map fst a) -> Forall (fun kv => raw_name (fst kv) /\ Forall xml_char (snd kv)) a ->
  exists m, run (t ++ flat_map show_attr a) (Lt, fs) = (m, fs) /\ in_tag m t a.
Proof.
  intros R D F. rewrite run_app. destruct t as [|c t]; [destruct R|]. pose proof R as [R1 R2]. rewrite run_cons.
  assert (S1 : step (Lt, fs) c = (OpenName [c], fs)).
  { cbn [step]. assert (N.eqb c 47 = false) as -> by (clear - R1; revert R1; unfold name_start, is_alpha; lia). rewrite R1. reflexivity. }
  rewrite S1, run_open by exact R2. cbn [app]. apply (run_attrs a (OpenName (c :: t)) (c :: t) []); [left; split; reflexivity|exact F|exact D].
Qed.

Definition grown (f : frame) (kids : list xml) : frame :=
  {| f_name := f_name f; f_attrs := f_attrs f; f_text := f_text f; f_kids := f_kids f ++ kids |}.
Lemma run_show x : raw_ok x -> forall fs, exists s, show x = 60%N :: s /\ run s (Lt, fs) = add_kid (reparse x) fs.
Proof.
  induction x as [t a txt kids IH] using xml_induction. intros (Rt & Da & Ra & Xt & Rk) fs.
  apply all_forall in Rk. cbn [show]. set (body := match txt with Some s => s | None => [] end).
  assert (Xb : Forall xml_char body) by (unfold body; destruct txt as [s|]; [apply Xt; reflexivity|constructor]).
  destruct (run_start t a fs Rt Da Ra) as (m & E & I).
  assert (Kids : forall l b f, Forall (fun x => raw_ok x -> forall fs, exists s, show x = 60%N :: s /\ run s (Lt, fs) = add_kid (reparse x) fs) l -> Forall raw_ok l ->
    exists b', run (flat_map show l) (Text b, f :: fs) = (Text b', grown f (map reparse l) :: fs)).
  { clear. induction l as [|y l IHl]; intros b f Hl Rl.
    - exists b. unfold grown. cbn [map]. rewrite app_nil_r. destruct f. reflexivity.
    - cbn [flat_map]. rewrite run_app. destruct (Forall_inv Hl (Forall_inv Rl) (f :: fs)) as (s & -> & E). rewrite run_cons.
      change (step (Text b, f :: fs) 60) with (Lt, f :: fs). rewrite E. cbn [add_kid].
      destruct (IHl 0%nat (grown f [reparse y]) (Forall_inv_tail Hl) (Forall_inv_tail Rl)) as (b' & E'). exists b'. 
      unfold grown in E' at 1. rewrite E'. unfold grown. cbn [f_name f_attrs f_text f_kids map]. rewrite <- app_assoc. reflexivity. }
  eexists. split; [reflexivity|]. cbn [app map list_ascii_of_string].
  assert (F : forall rest fs', run (t ++ flat_map show_attr a ++ rest) (Lt, fs') = run rest (run (t ++ flat_map show_attr a) (Lt, fs'))) by (intros; rewrite app_assoc; apply run_app).
  rewrite F, E. clear F E.
  assert (Open : body <> [] \/ kids <> [] -> run (lit ">" ++ esc_text body ++ flat_map show kids ++ lit "</" ++ t ++ lit ">") (m, fs) = add_kid (reparse (Elem t a txt kids)) fs).
  { intros _. change (lit ">") with [62%N]. change (lit "</") with [60%N; 47%N]. cbn [app]. rewrite run_cons.
    assert (step (m, fs) 62 = open_tag t a fs) as -> by (destruct I as [[-> ->] | ->]; reflexivity). unfold open_tag.
    rewrite run_app. destruct (run_text body 0 {| f_name := t; f_attrs := a; f_text := []; f_kids := [] |} fs Xb) as (b1 & ->).
    rewrite run_app. match goal with |- context [(Text b1, ?f :: fs)] => destruct (Kids kids b1 f IH Rk) as (b2 & ->) end.
    rewrite !run_cons. cbn [step]. change (N.eqb 60 60) with true. cbv iota. cbn [step]. change (N.eqb 47 47) with true. cbv iota.
    rewrite run_app, run_close by (apply raw_all; exact Rt). cbn [app]. rewrite run_cons. cbn [step]. change (name_char 62) with false. change (is_ws 62) with false.
    change (N.eqb 62 62) with true. cbv iota. unfold close_tag, add_text, grown. cbn [f_name f_attrs f_text f_kids app]. rewrite str_eqb_refl. cbn [reparse run fold_left].
    f_equal. f_equal. unfold body. destruct txt as [[|c s]|]; reflexivity. }
  destruct body as [|c b] eqn:Eb; [destruct kids as [|y l]|].
  - change (lit " />") with [32%N; 47%N; 62%N]. rewrite !run_cons.
    assert (step (m, fs) 32 = (InTag t a true, fs)) as -> by (destruct I as [[-> ->] | ->]; reflexivity). cbn [step].
    change (is_ws 47) with false. change (N.eqb 47 62) with false. change (N.eqb 47 47) with true. cbv iota. cbn [step]. change (N.eqb 62 62) with true. cbv iota.
    cbn [reparse map run fold_left]. f_equal. f_equal. unfold body in Eb. destruct txt as [[|c s]|]; [reflexivity|discriminate|reflexivity].
  - apply Open. right. discriminate.
  - apply Open. left. discriminate.
Qed.

(* ---- line ends ---- *)
Lemma eol_free a : ~ In 13%N a -> forall b, eol (a ++ b) = a ++ eol b.
Proof.
  induction a as [|c a IH]; intros H b; [reflexivity|]. cbn [app eol]. destruct (N.eqb_spec c 13) as [-> |_]; [exfalso; apply H; left; reflexivity|].
  rewrite IH; [reflexivity|]. intros F. apply H. right. exact F.
Qed.
Lemma eol_id a : ~ In 13%N a -> eol a = a.
Proof. intros H. rewrite <- (app_nil_r a) at 1. rewrite eol_free by exact H. cbn [eol]. apply app_nil_r. Qed.
Lemma esc_text_free s : ~ In 13%N s -> ~ In 13%N (esc_text s).
Proof.
  unfold esc_text. intros H F. apply in_flat_map in F. destruct F as (c & Hc & Hi). unfold esc_text_char in Hi.
  destruct (N.eqb c 38); [cbn in Hi; intuition discriminate|]. destruct (N.eqb c 60); [cbn in Hi; intuition discriminate|]. destruct (N.eqb c 62); [cbn in Hi; intuition discriminate|].
  destruct Hi as [Hi|[]]. subst c. exact (H Hc).
Qed.
Lemma esc_attr_free s : ~ In 13%N (esc_attr s).
Proof.
  unfold esc_attr. intros F. apply in_flat_map in F. destruct F as (c & Hc & Hi). unfold esc_attr_char in Hi.
  destruct (N.eqb c 38); [cbn in Hi; intuition discriminate|]. destruct (N.eqb c 60); [cbn in Hi; intuition discriminate|]. destruct (N.eqb c 62); [cbn in Hi; intuition discriminate|].
  destruct (N.eqb c 34); [cbn in Hi; intuition discriminate|]. destruct (N.eqb c 13) eqn:E; [cbn in Hi; intuition discriminate|]. destruct (N.eqb c 10); [cbn in Hi; intuition discriminate|].
  destruct (N.eqb c 9); [cbn in Hi; intuition discriminate|].
  destruct Hi as [Hi|[]]. subst c. discriminate.
Qed.
Lemma name_free s : forallb name_char s = true -> ~ In 13%N s.
Proof. intros H F. rewrite forallb_forall in H. specialize (H _ F). discriminate. Qed.

(* the text of a line: returns are line feeds *)
Lemma eol_text s : forall rest, match rest with c :: _ => c <> 10%N | [] => True end -> eol (esc_text s ++ rest) = esc_text (eol s) ++ eol rest.
Proof.
  remember (length s) as k eqn:Hk. revert s Hk. induction k as [k IH] using lt_wf_ind. intros [|c s] Hk rest Hr; [reflexivity|].
  change (esc_text (c :: s)) with (esc_text_char c ++ esc_text s). cbn [eol]. cbn [length] in Hk.
  destruct (N.eqb c 13) eqn:E.
  - apply N.eqb_eq in E. subst c. change (esc_text_char 13) with [13%N]. rewrite <- app_assoc. cbn [app eol]. change (N.eqb 13 13) with true. cbv iota.
    destruct s as [|d s'].
    + cbn [esc_text flat_map app]. destruct rest as [|r rest]; [reflexivity|]. destruct (N.eqb_spec r 10) as [-> |_]; [congruence|]. reflexivity.
    + destruct (N.eqb d 10) eqn:Ed.
      * apply N.eqb_eq in Ed. subst d. change (esc_text (10%N :: s')) with (10%N :: esc_text s'). cbn [app]. change (N.eqb 10 10) with true. cbv iota.
        change (esc_text (10%N :: eol s')) with (10%N :: esc_text (eol s')). cbn [app]. f_equal. apply (IH (length s')); [cbn [length] in Hk; lia|reflexivity|exact Hr].
      * assert (Eh : exists x y, esc_text (d :: s') ++ rest = x :: y /\ N.eqb x 10 = false).
        { change (esc_text (d :: s')) with (esc_text_char d ++ esc_text s'). unfold esc_text_char.
          destruct (N.eqb d 38); [eexists; eexists; split; reflexivity|]. destruct (N.eqb d 60); [eexists; eexists; split; reflexivity|].
          destruct (N.eqb d 62); [eexists; eexists; split; reflexivity|]. eexists; eexists; split; [reflexivity|exact Ed]. }
        destruct Eh as (x & y & Exy & Ex).
        change (esc_text (10%N :: eol (d :: s'))) with (10%N :: esc_text (eol (d :: s'))). cbn [app].
        rewrite <- (IH (length (d :: s'))); [|lia|reflexivity|exact Hr]. rewrite Exy, Ex. reflexivity.
  - change (esc_text (c :: eol s)) with (esc_text_char c ++ esc_text (eol s)). rewrite <- !app_assoc. rewrite eol_free.
    + f_equal. apply (IH (length s)); [lia|reflexivity|exact Hr].
    + unfold esc_text_char. destruct (N.eqb c 38); [cbn; intuition discriminate|]. destruct (N.eqb c 60); [cbn; intuition discriminate|].
      destruct (N.eqb c 62); [cbn; intuition discriminate|]. intros [F|[]]. subst c. discriminate.
Qed.
Fixpoint eol_tree (x : xml) : xml :=
  match x with Elem t a txt kids => Elem t a (match txt with Some s => Some (eol s) | None => None end) (map eol_tree kids) end.
Lemma eol_nil s : eol s = [] <-> s = [].
Proof.
  split; [|intros ->; reflexivity]. destruct s as [|c s]; [reflexivity|]. cbn [eol]. destruct (N.eqb c 13); [destruct s as [|d s']; [|destruct (N.eqb d 10)]|]; discriminate.
Qed.
Lemma show_attr_free l : Forall (fun kv => raw_name (fst kv) /\ Forall xml_char (snd kv)) l -> ~ In 13%N (flat_map show_attr l).
Proof.
  intros H F. apply in_flat_map in F. destruct F as (kv & Hk & Hi). rewrite Forall_forall in H. destruct (H kv Hk) as [R _].
  unfold show_attr in Hi. rewrite !in_app_iff in Hi. destruct Hi as [Hi|[Hi|[Hi|[Hi|[Hi|Hi]]]]].
  - cbn in Hi. intuition discriminate.
  - exact (name_free _ (raw_all _ R) Hi).
  - cbn in Hi. intuition discriminate.
  - cbn in Hi. intuition discriminate.
  - exact (esc_attr_free _ Hi).
  - cbn in Hi. intuition discriminate.
Qed.
Lemma show_head x : exists s, show x = 60%N :: s.
Proof. destruct x. eexists. reflexivity. Qed.
Lemma eol_show x : raw_ok x -> forall rest, eol (show x ++ rest) = show (eol_tree x) ++ eol rest.
Proof.
  induction x as [t a txt kids IH] using xml_induction. intros (Rt & Da & Ra & Xt & Rk) rest. apply all_forall in Rk.
  cbn [show eol_tree].
  assert (Kids : forall l r, Forall (fun x => raw_ok x -> forall rest, eol (show x ++ rest) = show (eol_tree x) ++ eol rest) l -> Forall raw_ok l ->
    eol (flat_map show l ++ r) = flat_map show (map eol_tree l) ++ eol r).
  { clear. induction l as [|y l IHl]; intros r Hl Rl; [reflexivity|]. cbn [flat_map map]. rewrite <- !app_assoc, (Forall_inv Hl (Forall_inv Rl)), IHl; [reflexivity|exact (Forall_inv_tail Hl)|exact (Forall_inv_tail Rl)]. }
  rewrite <- !app_assoc. rewrite eol_free by (cbn; intuition discriminate). f_equal. rewrite eol_free by (apply name_free, raw_all, Rt). f_equal.
  rewrite eol_free by (apply show_attr_free, Ra). f_equal.
  set (body := match txt with Some s => s | None => [] end).
  assert (Eb : match match txt with Some s => Some (eol s) | None => None end with Some s => s | None => [] end = eol body) by (unfold body; destruct txt; reflexivity).
  rewrite Eb. 
  assert (Open : eol ((lit ">" ++ esc_text body ++ flat_map show kids ++ lit "</" ++ t ++ lit ">") ++ rest) =
                 (lit ">" ++ esc_text (eol body) ++ flat_map show (map eol_tree kids) ++ lit "</" ++ t ++ lit ">") ++ eol rest).
  { rewrite <- !app_assoc. rewrite eol_free by (cbn; intuition discriminate). f_equal. rewrite eol_text.
    - f_equal. rewrite Kids by assumption. f_equal. rewrite eol_free by (cbn; intuition discriminate). f_equal. rewrite eol_free by (apply name_free, raw_all, Rt). reflexivity.
    - destruct kids as [|y l]; [cbn; discriminate|]. cbn [flat_map]. destruct (show_head y) as (s & ->). cbn. discriminate. }
  destruct body as [|c b]; [destruct kids as [|y l]|].
  - cbn [map]. change (eol []) with (@nil N). cbv iota. apply eol_free. cbn. intuition discriminate.
  - exact Open.
  - destruct (eol (c :: b)) as [|c' b'] eqn:E; [apply (proj1 (eol_nil _)) in E; discriminate E|]. exact Open.
Qed.
Lemma eol_chars s : Forall xml_char s -> Forall xml_char (eol s).
Proof.
  remember (length s) as k eqn:Hk. revert s Hk. induction k as [k IH] using lt_wf_ind. intros [|c s] Hk H; [constructor|]. cbn [eol length] in *.
  assert (X : xml_char 10) by (unfold xml_char; lia).
  destruct (N.eqb c 13).
  - destruct s as [|d s']; [constructor; [exact X|constructor]|]. cbn [length] in Hk. destruct (N.eqb d 10); (constructor; [exact X|]).
    + apply (IH (length s')); [lia|reflexivity|exact (Forall_inv_tail (Forall_inv_tail H))].
    + apply (IH (length (d :: s'))); [cbn [length]; lia|reflexivity|exact (Forall_inv_tail H)].
  - constructor; [exact (Forall_inv H)|]. apply (IH (length s)); [lia|reflexivity|exact (Forall_inv_tail H)].
Qed.
Lemma eol_raw x : raw_ok x -> raw_ok (eol_tree x).
Proof.
  induction x as [t a txt kids IH] using xml_induction. intros (Rt & Da & Ra & Xt & Rk). apply all_forall in Rk. cbn [eol_tree raw_ok].
  split; [exact Rt|]. split; [exact Da|]. split; [exact Ra|]. split.
  - intros s E. destruct txt as [s0|]; [|discriminate]. apply Some_inj in E. subst s. apply eol_chars, Xt. reflexivity.
  - apply all_forall. clear - IH Rk. induction kids as [|y l IHl]; constructor.
    + apply (Forall_inv IH), (Forall_inv Rk).
    + apply IHl; [exact (Forall_inv_tail IH)|exact (Forall_inv_tail Rk)].
Qed.
Lemma shown_undeclared x : raw_ok x -> undeclared (show x) = Some (show x).
Proof.
  destruct x as [[|c t] a txt kids]; cbn [raw_ok raw_name]; [intros ([] & _)|]. intros ((R & _) & _). cbn [show]. change (lit "<") with [60%N]. cbn [app].
  unfold undeclared, after_word. change (lit "<?xml") with [60; 63; 120; 109; 108]%N. cbn [starts_with]. change (N.eqb 60 60) with true. cbn [andb].
  assert (E : N.eqb 63 c = false) by (clear - R; revert R; unfold name_start, is_alpha; lia). rewrite E. reflexivity.
Qed.
(* what was written is read, with its line ends made equal *)
Theorem read_shown x : raw_ok x -> read_markup (show x) = Some (reparse (eol_tree x)).
Proof.
  intros R. unfold read_markup. assert (E : drop_bom (show x) = show x) by (destruct x; reflexivity). rewrite E.
  rewrite <- (app_nil_r (show x)), (eol_show x R). cbn [eol]. rewrite app_nil_r, (shown_undeclared _ (eol_raw x R)).
  destruct (run_show (eol_tree x) (eol_raw x R) []) as (s & -> & E'). fold run. rewrite run_cons. change (step (Before, []) 60) with (Lt, @nil frame).
  rewrite E'. reflexivity.
Qed.
