(* Proofs about sanitise_clixml. *)
From Verif Require Import Base BaseProofs Lit TextModel TextSpec TextProofs XmlModel ClientModel ClientSpec.
From Verif Require TextProofs2.
Require Import Lia ZifyBool ZifyNat ZifyN.

Lemma is_prefix_app p s : is_prefix p (p ++ s) = true.
Proof. induction p as [|x p IH]; [reflexivity|]. cbn [app is_prefix]. rewrite N.eqb_refl. exact IH. Qed.
Lemma is_prefix_iff p s : is_prefix p s = true <-> exists t, s = p ++ t.
Proof.
  revert s. induction p as [|x p IH]; intros s; [split; [exists s; reflexivity|reflexivity]|].
  destruct s as [|y s]; [split; [discriminate|intros [t H]; discriminate H]|]. cbn [is_prefix]. rewrite andb_true_iff, N.eqb_eq, IH.
  split; [intros [-> [t ->]]; exists t; reflexivity|]. intros [t H]. apply cons_inj in H as [-> ->]. split; [reflexivity|exists t; reflexivity].
Qed.
Lemma from_angle_app pre body : ~ In 60%N pre -> from_angle (pre ++ 60%N :: body) = Ok (60%N :: body).
Proof.
  induction pre as [|c pre IH]; intros H; [reflexivity|]. cbn [app from_angle]. destruct (N.eqb_spec c 60) as [->|_]; [exfalso; apply H; left; reflexivity|].
  apply IH. intros K. apply H. right. exact K.
Qed.
Lemma from_angle_none s : ~ In 60%N s -> from_angle s = Err ValueError.
Proof.
  induction s as [|c s IH]; intros H; [reflexivity|]. cbn [from_angle]. destruct (N.eqb_spec c 60) as [->|_]; [exfalso; apply H; left; reflexivity|].
  apply IH. intros K. apply H. right. exact K.
Qed.

(* ---- the namespace ---- *)
Lemma drop_objs_free s rest : (forall a b, s <> a ++ lit "Objs" ++ b) -> drop_objs (s ++ 125%N :: rest) = s ++ 125%N :: drop_objs rest.
Proof.
  induction s as [|c s IH]; intros H.
  - cbn [app drop_objs]. change (is_prefix (lit "Objs") (125%N :: rest)) with false. cbv iota. reflexivity.
  - cbn [app]. assert (P : is_prefix (lit "Objs") (c :: s ++ 125%N :: rest) = false).
    { destruct (is_prefix (lit "Objs") (c :: s ++ 125%N :: rest)) eqn:K; [|reflexivity]. exfalso. apply is_prefix_iff in K as [t K]. change (lit "Objs") with [79; 98; 106; 115]%N in K.
      destruct s as [|c1 [|c2 [|c3 s]]]; cbn [app] in K; repeat (apply cons_inj in K as [? K]); try discriminate.
      subst. apply (H [] s). reflexivity. }
    cbn [drop_objs]. rewrite P. f_equal. apply IH. intros a b K. apply (H (c :: a) b). rewrite K. reflexivity.
Qed.
Lemma namespace ns : (forall a b, ns <> a ++ lit "Objs" ++ b) -> inner (drop_objs (tag_in ns (lit "Objs"))) = ns.
Proof.
  intros H. unfold tag_in. destruct ns as [|c ns]; [reflexivity|].
  change (lit "{" ++ (c :: ns) ++ lit "}" ++ lit "Objs") with ((123%N :: c :: ns) ++ 125%N :: lit "Objs"). rewrite drop_objs_free.
  - change (drop_objs (lit "Objs")) with (@nil N). unfold inner. cbn [app tl]. change (c :: ns ++ [125%N]) with ((c :: ns) ++ [125%N]). apply removelast_last.
  - intros a b K. destruct a as [|x a]; [change (lit "Objs") with (79%N :: lit "bjs") in K; cbn [app] in K; apply cons_inj in K as [K _]; discriminate K|].
    cbn [app] in K. apply cons_inj in K as [_ K]. apply (H a b). exact K.
Qed.

(* ---- the texts ---- *)
Lemma texts_serialized ns l : Forall (other_ok ns) l ->
  concat (map (fun e => match x_text e with Some t => t | None => [] end)
    (filter (fun e => (str_eqb (x_tag e) (path_tag ns (lit "S")) && match attr_get (lit "S") e with Some v => str_eqb v (lit "Error") | None => false end)%bool)
       (map (written ns) l))) = concat (map serialize_string (error_texts l)).
Proof.
  assert (T : path_tag ns (lit "S") = tag_in ns (lit "S")) by (destruct ns; reflexivity). rewrite T. clear T.
  set (tx := fun e => match x_text e with Some t => t | None => [] end). set (fl := fun e => (str_eqb (x_tag e) _ && _)%bool).
  induction l as [|i l IH]; intros F; [reflexivity|]. pose proof (Forall_inv F) as F1. specialize (IH (Forall_inv_tail F)).
  cbn [map filter error_texts flat_map]. fold (error_texts l).
  assert (W : fl (written ns i) = match i with Line st _ => str_eqb st (lit "Error") | Other _ => false end).
  { unfold fl. destruct i as [st t|x]; cbn [written x_tag].
    - rewrite str_eqb_refl. unfold attr_get. cbn [x_attrib dict_get]. rewrite str_eqb_refl. reflexivity.
    - cbn [other_ok] in F1. rewrite (str_eqb_neq _ _ F1). reflexivity. }
  rewrite W. destruct i as [st t|x]; [|exact IH]. destruct (str_eqb st (lit "Error")); [|exact IH].
  cbn [app map concat]. rewrite IH. destruct t; reflexivity.
Qed.

Lemma sub_underscore_app : forall n a b, (length a <= n)%nat -> (ends_underscore a -> ~ starts_with_x b) -> sub_underscore (a ++ b) = sub_underscore a ++ sub_underscore b.
Proof.
  induction n as [|n IH]; intros a b L H; [destruct a; [reflexivity|cbn [length] in L; lia]|].
  destruct a as [|c a]; [reflexivity|]. cbn [length] in L. cbn [app sub_underscore]. destruct (N.eqb_spec c 95) as [->|Nc].
  - destruct a as [|d a].
    + cbn [app]. destruct b as [|d b]; [reflexivity|]. assert (X : is_x d = false).
      { destruct (is_x d) eqn:X; [|reflexivity]. exfalso. apply H; [exists []; reflexivity|]. cbn [starts_with_x]. unfold is_x in X. apply orb_true_iff in X as [X|X]; apply N.eqb_eq in X; auto. }
      rewrite X. cbn [app]. f_equal.
    + cbn [app]. destruct (is_x d).
      * rewrite <- app_assoc. cbn [app]. do 2 f_equal. apply IH; [cbn [length] in L; lia|]. intros [t ->]. apply H. exists (95%N :: d :: t). reflexivity.
      * cbn [app]. f_equal. apply (IH (d :: a)); [exact (le_S_n _ _ L)|]. intros [t K]. apply H. exists (95%N :: t). rewrite K. reflexivity.
  - cbn [app]. f_equal. apply IH; [lia|]. intros [t ->]. apply H. exists (c :: t). reflexivity.
Qed.
Lemma serialize_concat l : separated l -> concat (map serialize_string l) = serialize_string (concat l).
Proof.
  induction l as [|s l IH]; intros H; [reflexivity|]. destruct H as [H1 H2]. cbn [map concat]. rewrite (IH H2).
  unfold serialize_string. rewrite (sub_underscore_app (length s) s (concat l) (le_n _) H1). unfold sub_special. rewrite flat_map_app. reflexivity.
Qed.
Lemma separated_lines l : Forall (fun s => exists t, s = t ++ [10%N]) l -> separated l.
Proof.
  induction l as [|s l IH]; intros F; [exact I|]. split; [|apply IH; exact (Forall_inv_tail F)].
  intros [t K]. destruct (Forall_inv F) as [t' K']. exfalso. rewrite K' in K. apply app_inj_tail in K as [_ K]. discriminate K.
Qed.
Lemma scalars_concat l : Forall scalars l -> scalars (concat l).
Proof. induction l as [|s l IH]; intros F; [constructor|]. cbn [concat]. apply Forall_app. split; [exact (Forall_inv F)|apply IH; exact (Forall_inv_tail F)]. Qed.

Lemma sanitise_reads parse pre body ns attrib text l : ~ In 60%N pre -> (forall a b, ns <> a ++ lit "Objs" ++ b) ->
  parse (60%N :: body) = Ok (Elem (tag_in ns (lit "Objs")) attrib text (map (written ns) l)) -> Forall (other_ok ns) l ->
  sanitise_clixml parse (lit "#< CLIXML" ++ pre ++ 60%N :: body) = deserialize_string (Some (concat (map serialize_string (error_texts l)))).
Proof.
  intros Hp Hn P F. unfold sanitise_clixml. rewrite is_prefix_app. 
  change (skipn 2 (lit "#< CLIXML" ++ pre ++ 60%N :: body)) with (lit " CLIXML" ++ pre ++ 60%N :: body). rewrite app_assoc, from_angle_app.
  - cbn [bind]. rewrite P. cbn [bind x_tag x_children]. rewrite (namespace ns Hn). rewrite (texts_serialized ns l F). reflexivity.
  - intros K. apply in_app_or in K as [K|K]; [|exact (Hp K)]. vm_compute in K. intuition discriminate.
Qed.
Lemma sanitise_exact parse pre body ns attrib text l : ~ In 60%N pre -> (forall a b, ns <> a ++ lit "Objs" ++ b) ->
  parse (60%N :: body) = Ok (Elem (tag_in ns (lit "Objs")) attrib text (map (written ns) l)) -> Forall (other_ok ns) l ->
  separated (error_texts l) -> Forall scalars (error_texts l) ->
  (sanitise_clixml parse (lit "#< CLIXML" ++ pre ++ 60%N :: body) = Ok (concat (error_texts l)) <-> ~ has_straddle (concat (error_texts l))).
Proof.
  intros Hp Hn P F Se Sc. rewrite (sanitise_reads _ _ _ _ _ _ _ Hp Hn P F), (serialize_concat _ Se). apply TextProofs2.string_roundtrip_iff. apply scalars_concat. exact Sc.
Qed.
Lemma sanitise_none parse pre : ~ In 60%N pre -> sanitise_clixml parse (lit "#< CLIXML" ++ pre) = Err ValueError.
Proof.
  intros H. unfold sanitise_clixml. rewrite is_prefix_app. change (skipn 2 (lit "#< CLIXML" ++ pre)) with (lit " CLIXML" ++ pre). rewrite from_angle_none; [reflexivity|].
  intros K. apply in_app_or in K as [K|K]; [|exact (H K)]. vm_compute in K. intuition discriminate.
Qed.
Lemma sanitise_plain parse s : (forall t, s <> lit "#< CLIXML" ++ t) -> sanitise_clixml parse s = Ok s.
Proof.
  intros H. unfold sanitise_clixml. destruct (is_prefix (lit "#< CLIXML") s) eqn:P; [|reflexivity]. apply is_prefix_iff in P as [t K]. exfalso. exact (H t K).
Qed.
