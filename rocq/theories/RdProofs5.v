(* What names of generic lists and dictionaries say. *)
From Verif Require Import Base BaseProofs Lit NumModel NumProofs TextModel TextSpec TextProofs Utf8Model MsgModel MsgSpec XmlModel SerModel SerSpec SerSpec2 SerClasses SerProofs3 XtModel WfModel UtilSpec UtilProofs RdSpec RdProofs RdProofs3 RdProofs4.
Require Import Lia ZifyBool ZifyNat ZifyN.
Local Open Scope list_scope.

Lemma slice_between {A} (p q r : list A) : py_slice (p ++ q ++ r) (zlen p) (- zlen r) = match r with [] => [] | _ => q end.
Proof.
  unfold py_slice, slice_index, zlen. rewrite !app_length.
  destruct r as [|c r]; [cbn [length]; replace (- Z.of_nat 0)%Z with 0%Z by lia; replace (0 <? 0)%Z with false by lia; replace (Z.of_nat (length p) <? 0)%Z with false by lia;
    replace (Z.to_nat _) with 0%nat by lia; reflexivity|].
  cbn [length]. replace (- Z.of_nat (S (length r)) <? 0)%Z with true by lia. replace (Z.of_nat (length p) <? 0)%Z with false by lia.
  replace (Z.to_nat (Z.min (Z.of_nat (length p)) (Z.of_nat (length p + (length q + S (length r)))))) with (length p) by lia.
  rewrite skipn_app, skipn_all, Nat.sub_diag. cbn [skipn app].
  match goal with |- firstn ?n _ = _ => replace n with (length q + 0)%nat by lia end. rewrite firstn_app_2. cbn [firstn]. apply app_nil_r.
Qed.
Lemma slice_at {A} (p q r : list A) n k : n = zlen p -> k = (- zlen r)%Z -> r <> [] -> py_slice (p ++ q ++ r) n k = q.
Proof. intros -> -> R. rewrite slice_between. destruct r; [congruence|reflexivity]. Qed.
Lemma no_array_end s : ends_with (lit "[]") (s ++ lit "]]") = false.
Proof.
  destruct (ends_with _ _) eqn:E; [|reflexivity]. exfalso. apply ends_with_spec in E. destruct E as (r & E).
  assert (Q := f_equal (@rev N) E). rewrite !rev_app_distr in Q. cbn in Q. discriminate Q.
Qed.
(* the names of generic lists *)
Definition list_names : list (list N) :=
  map lit ["System.Collections.Generic.List`1[["; "System.Collections.ObjectModel.Collection`1[["; "System.Collections.ObjectModel.ReadOnlyCollection`1[["]%string.
Lemma choose_generic p t r ts : In p list_names -> ~ In 44%N t ->
  choose ((p ++ t ++ [44%N] ++ r ++ lit "]]") :: ts) = match dict_get str_eqb t structures with Some m => Ok (Some (list_meta None false m)) | None => choose ts end.
Proof.
  intros P N1. remember (p ++ t ++ [44%N] ++ r ++ lit "]]") as s eqn:Es. assert (S0 : starts_with p s = true) by (apply starts_with_spec; exists (t ++ [44%N] ++ r ++ lit "]]"); exact Es).
  assert (Ed : ends_with (lit "[]") s = false) by (rewrite Es, !app_assoc; apply no_array_end).
  assert (Sl : forall n, n = zlen p -> py_slice s n (-1) = t ++ 44%N :: r ++ lit "]").
  { intros n En. replace s with (p ++ (t ++ 44%N :: r ++ lit "]") ++ lit "]") by (rewrite Es, <- !app_assoc; cbn [app]; rewrite <- !app_assoc; reflexivity).
    apply slice_at; [exact En|reflexivity|discriminate]. }
  assert (Bc : before_comma (t ++ 44%N :: r ++ lit "]") = t) by (unfold before_comma; rewrite (split_on_app 44 t _ N1); reflexivity).
  assert (Ds : starts_with (lit "Deserialized.System.") s = false).
  { rewrite Es. unfold list_names in P. cbn [map In] in P. destruct P as [<- | [<- | [<- | []]]]; reflexivity. }
  unfold list_names in P. cbn [map In] in P. cbn [choose]. rewrite Ds. cbv iota zeta. rewrite Ed. cbv iota.
  destruct P as [<- | [<- | [<- | []]]].
  - rewrite S0, (Sl 35%Z) by (vm_compute; reflexivity). rewrite Bc. reflexivity.
  - assert (F1 : starts_with (lit "System.Collections.Generic.List`1[[") s = false) by (rewrite Es; reflexivity). rewrite F1, S0, (Sl 45%Z) by (vm_compute; reflexivity). rewrite Bc. reflexivity.
  - assert (F1 : starts_with (lit "System.Collections.Generic.List`1[[") s = false) by (rewrite Es; reflexivity).
    assert (F2 : starts_with (lit "System.Collections.ObjectModel.Collection`1[[") s = false) by (rewrite Es; reflexivity).
    rewrite F1, F2, S0, (Sl 53%Z) by (vm_compute; reflexivity). rewrite Bc. reflexivity.
Qed.
Lemma has_sub_app p a b : has_sub p (a ++ p ++ b) = true.
Proof.
  induction a as [|c a IH]; cbn [app].
  - assert (S0 : starts_with p (p ++ b) = true) by (apply starts_with_spec; eexists; reflexivity). destruct (p ++ b) eqn:E; cbn [has_sub]; rewrite S0; reflexivity.
  - cbn [has_sub]. rewrite IH. apply Bool.orb_true_r.
Qed.
Definition dict_name : list N := lit "System.Collections.Generic.Dictionary`2[[".
Lemma choose_dictionary a b ts : choose ((dict_name ++ a ++ lit "],[" ++ b ++ lit "]]") :: ts) = Ok (Some (dict_meta None false)).
Proof.
  remember (dict_name ++ a ++ lit "],[" ++ b ++ lit "]]") as s eqn:Es.
  assert (Ed : ends_with (lit "[]") s = false) by (rewrite Es, !app_assoc; apply no_array_end).
  assert (Sl : py_slice s 41 (-2) = a ++ lit "],[" ++ b).
  { replace s with (dict_name ++ (a ++ lit "],[" ++ b) ++ lit "]]") by (rewrite Es, <- !app_assoc; reflexivity). apply slice_at; [vm_compute; reflexivity|reflexivity|discriminate]. }
  assert (F0 : starts_with (lit "Deserialized.System.") s = false) by (rewrite Es; reflexivity).
  assert (F1 : starts_with (lit "System.Collections.Generic.List`1[[") s = false) by (rewrite Es; reflexivity).
  assert (F2 : starts_with (lit "System.Collections.ObjectModel.Collection`1[[") s = false) by (rewrite Es; reflexivity).
  assert (F3 : starts_with (lit "System.Collections.ObjectModel.ReadOnlyCollection`1[[") s = false) by (rewrite Es; reflexivity).
  assert (F4 : starts_with (lit "System.Collections.Generic.Dictionary`2[[") s = true) by (rewrite Es; reflexivity).
  cbn [choose]. rewrite F0. cbv iota zeta. rewrite Ed, F1, F2, F3, F4, Sl, has_sub_app. reflexivity.
Qed.
Lemma generic_list_types us p t r ts m : Forall unknown us -> In p list_names -> ~ In 44%N t -> dict_get str_eqb t structures = Some m ->
  by_types (us ++ (p ++ t ++ [44%N] ++ r ++ lit "]]") :: ts) = match as_reading m with Some r => Some (ListOf (strict r)) | None => None end.
Proof.
  intros H P N1 E. unfold by_types. rewrite (choose_unknown us _ H), (choose_generic p t r ts P N1), E.
  cbn [list_meta as_reading]. change (str_eqb (lit "LST") (lit "LST")) with true. cbv iota. destruct (as_reading m) as [rd|]; reflexivity.
Qed.
Lemma dictionary_types us a b ts : Forall unknown us -> by_types (us ++ (dict_name ++ a ++ lit "],[" ++ b ++ lit "]]") :: ts) = Some Dict.
Proof. intros H. unfold by_types. rewrite (choose_unknown us _ H), choose_dictionary. reflexivity. Qed.
(* a list of what has no structure of its own is not read as a list *)
Lemma unknown_list_types us p t r ts : Forall unknown us -> In p list_names -> ~ In 44%N t -> ~ In t (map fst structures) ->
  by_types (us ++ (p ++ t ++ [44%N] ++ r ++ lit "]]") :: ts) = by_types ts.
Proof.
  intros H P N1 K. unfold by_types. rewrite (choose_unknown us _ H), (choose_generic p t r ts P N1).
  destruct (dict_get str_eqb t structures) eqn:E; [exfalso; apply K; exact (get_key _ _ _ E)|reflexivity].
Qed.
