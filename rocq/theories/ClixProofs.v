(* Proofs about sanitise_clixml on characters. *)
From Verif Require Import Base BaseProofs Lit TextModel TextSpec XmlModel XtModel XtSpec ClientModel ClientSpec ClientProofs3 ClixModel.
From Verif Require XgSpec XgProps XgProps2.
Local Open Scope list_scope.

Lemma fromstring_says txt x : XgSpec.says txt x -> fromstring txt = Ok x.
Proof. intros H. unfold fromstring. rewrite (XgProps.C68_read _ _ H). reflexivity. Qed.
Lemma fromstring_nothing txt : (forall x, ~ XgSpec.says txt x) -> fromstring txt = Err OtherError.
Proof. intros H. unfold fromstring. rewrite (proj2 (XgProps2.C68_nothing txt) H). reflexivity. Qed.
Lemma clix_document pre body ns attrib text l : ~ In 60%N pre -> (forall a b, ns <> a ++ lit "Objs" ++ b) ->
  XgSpec.says (60%N :: body) (Elem (tag_in ns (lit "Objs")) attrib text (map (written ns) l)) -> Forall (other_ok ns) l ->
  separated (error_texts l) -> Forall scalars (error_texts l) ->
  (sanitise_clixml_text (lit "#< CLIXML" ++ pre ++ 60%N :: body) = Ok (concat (error_texts l)) <-> ~ has_straddle (concat (error_texts l))).
Proof.
  intros Hp Hn H F Se Sc. exact (sanitise_exact fromstring pre body ns attrib text l Hp Hn (fromstring_says _ _ H) F Se Sc).
Qed.
Lemma clix_malformed pre body : ~ In 60%N pre -> (forall x, ~ XgSpec.says (60%N :: body) x) ->
  sanitise_clixml_text (lit "#< CLIXML" ++ pre ++ 60%N :: body) = Err OtherError.
Proof.
  intros Hp H. unfold sanitise_clixml_text, sanitise_clixml. rewrite is_prefix_app.
  change (skipn 2 (lit "#< CLIXML" ++ pre ++ 60%N :: body)) with (lit " CLIXML" ++ pre ++ 60%N :: body). rewrite app_assoc, from_angle_app.
  - cbn [bind]. rewrite (fromstring_nothing _ H). reflexivity.
  - intros K. apply in_app_or in K as [K|K]; [|exact (Hp K)]. vm_compute in K. intuition discriminate.
Qed.
