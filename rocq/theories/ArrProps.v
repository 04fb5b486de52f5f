(* C71: arrays of any number of dimensions.  Missing from the partial theorem:
   elements that C59 and C61 exclude, lengths that are no integers, and the arrays
   refuted below. *)
From Verif Require Import Base BaseProofs Lit NumModel TextModel TextSpec MsgModel XmlModel XtModel XtSpec SerModel SerClasses SerSpec SerSpec2 SendClasses ClsSpec WfModel WfSpec StartModel StartSpec ArrModel ArrSpec ArrProofs ArrProofs2.
Local Open Scope list_scope.

(* What is sent of an array: its lengths, and its elements with the last index
   moving first; nothing else and nothing twice. *)
Theorem C71_flattened : forall dims a n, Forall (fun d => 1 <= d) dims -> rectangular dims a -> simple_elements dims a ->
  get_mal n (new_array (Some a)) = Some (Ok (map Z.of_nat dims, new_array (Some a))) /\
  exists mae, get_mae (new_array (Some a)) = Ok mae /\ length mae = size dims /\ forall idx, within idx dims -> nth_error mae (position idx dims) = element idx a.
Proof.
  intros dims a n F R E. split; [unfold get_mal; cbn [get_array new_array a_array]; rewrite (count_rectangular dims a F R E); reflexivity|].
  exists (list_entries a). split; [reflexivity|]. exact (entries_rectangular dims a R E).
Qed.
Print Assumptions C71_flattened.

(* What is had of an array that was received with as many elements as its lengths
   ask for, whatever the elements are: each at its place.  It is built once. *)
Theorem C71_received : forall dims mae n, dims <> [] -> Forall (fun d => 1 <= d) dims -> length mae = size dims -> size dims <= n ->
  exists a o, get_array n (set_mal (map Z.of_nat dims) (set_mae mae (new_array None))) = Some (Ok (a, o)) /\ get_array n o = Some (Ok (a, o)) /\ rectangular dims a /\
    forall idx, within idx dims -> element idx a = nth_error mae (position idx dims).
Proof.
  intros dims mae n Nn F L Lf. destruct (built dims mae n Nn F L Lf) as (a & B & R & E). exists a. eexists. unfold get_array, set_mal, set_mae, new_array. cbn [a_array a_mae a_mal]. rewrite B.
  split; [reflexivity|]. split; [reflexivity|]. split; assumption.
Qed.
Print Assumptions C71_received.

(* Building comes to an end for any elements and any lengths that are positive. *)
Theorem C71_ends : forall mae mal n, Forall (fun z => (0 < z)%Z) mal -> length mae < n -> build_array n mae mal <> None.
Proof. intros mae mal n. exact (build_ends n mae mal). Qed.
Print Assumptions C71_ends.

(* An array written to a text and read from it has copies of the elements at their
   places. *)
Theorem C71_roundtrip_partial : forall ci show xml_text float_of reg heap k n dims a o,
  usable_registry reg -> dims <> [] -> Forall (fun d => 1 <= d) dims -> rectangular dims a -> simple_elements dims a ->
  array_seen n (new_array (Some a)) = Some (Ok o) -> nth_error heap k = Some o ->
  (forall idx v, within idx dims -> element idx a = Some v -> conforms ci float_of with_arrays sending_canon heap said raw any_meta v) ->
  exists f0, forall fuel, f0 <= fuel -> exists t, serialize_text ci show with_arrays reg heap fuel (VObj k) (class_meta (lit "Array")) = Ok (Some t) /\
    forall heap0, exists k' e attrs o', deserialize_text ci xml_text float_of with_arrays heap0 t (class_meta (lit "Array")) = Ok (VObj k', heap0 ++ e) /\
      nth_error (heap0 ++ e) k' = Some (HCls (lit "Array") attrs) /\ array_read attrs = Some o' /\
      forall m, size dims <= m -> exists a' o'', get_array m o' = Some (Ok (a', o'')) /\ rectangular dims a' /\
        forall idx v, within idx dims -> element idx a = Some v -> exists w, element idx a' = Some w /\ copy with_arrays heap (length heap0) (heap0 ++ e) v w.
Proof. intros ci show xml_text float_of reg heap k n dims a o U. exact (array_wire ci show xml_text float_of reg U heap k n dims a o). Qed.
Print Assumptions C71_roundtrip_partial.

(* ---- a case of three dimensions ---- *)
Definition cube : value := VList (map (fun i => VList (map (fun j => VList (map (fun k => VInt (i * 100 + j * 10 + k)) [0; 1]%Z)) [0; 1; 2]%Z)) [0; 1]%Z).
Definition cube_seen : hobj := Eval vm_compute in match array_seen 0 (new_array (Some cube)) with Some (Ok o) => o | _ => HCls [] [] end.
Definition cube_text : list N := Eval vm_compute in match serialize_text None (fun _ => []) with_arrays [] [cube_seen] 9 (VObj 0) (class_meta (lit "Array")) with Ok (Some t) => t | _ => [] end.
Example C71_case : rectangular [2; 3; 2] cube /\ simple_elements [2; 3; 2] cube /\ array_seen 0 (new_array (Some cube)) = Some (Ok cube_seen) /\
  (forall idx v, within idx [2; 3; 2] -> element idx cube = Some v -> conforms None (fun s => Ok s) with_arrays sending_canon [cube_seen] said raw any_meta v) /\
  element [1; 2; 0] cube = Some (VInt 120) /\ position [1; 2; 0] [2; 3; 2] = 10 /\
  match deserialize_text None (fun _ => []) (fun s => Ok s) with_arrays [] cube_text (class_meta (lit "Array")) with
  | Ok (VObj k, h) => match nth_error h k with Some (HCls _ attrs) => match array_read attrs with Some o => match get_array 20 o with Some (Ok (a, _)) => a = cube | _ => False end | None => False end | _ => False end
  | _ => False
  end.
Proof.
  split; [repeat (eexists; split; [reflexivity|split; [reflexivity|]]; repeat apply Forall_cons; try apply Forall_nil; cbn [rectangular]); exact Logic.I|].
  split; [repeat (cbn; repeat apply Forall_cons; try apply Forall_nil); exact Logic.I|]. split; [reflexivity|]. split.
  { intros idx v Hi Hv. assert (Q : exists z, v = VInt z).
    { inversion Hi as [|i ? i2 ? H1 H2]; subst. inversion H2 as [|j ? i3 ? H3 H4]; subst. inversion H4 as [|k ? i4 ? H5 H6]; subst. inversion H6; subst.
      destruct i as [|[|i]]; [| |exfalso; Lia.lia]; (destruct j as [|[|[|j]]]; [| | |exfalso; Lia.lia]); (destruct k as [|[|k]]; [| |exfalso; Lia.lia]); cbn in Hv; apply Some_inj in Hv; eexists; symmetry; exact Hv. }
    destruct Q as (z & ->). apply cf_star. apply be_int. vm_compute. tauto. }
  split; [reflexivity|]. split; [reflexivity|]. vm_compute. reflexivity.
Qed.

(* ---- what does not hold ---- *)
(* An array without elements cannot be sent: complex_objects.py:1519, current_entry[0]. *)
Theorem C71_empty_refuted : exists a b, rectangular [0] a /\ rectangular [2; 0] b /\ (forall n, array_seen n (new_array (Some a)) = Some (Err IndexError)) /\ forall n, array_seen n (new_array (Some b)) = Some (Err IndexError).
Proof.
  exists (VList []), (VList [VList []; VList []]). split; [exists []; repeat split; apply Forall_nil|]. split; [|split; intros n; reflexivity].
  eexists. split; [reflexivity|]. split; [reflexivity|]. repeat apply Forall_cons; try apply Forall_nil; exists []; repeat split; apply Forall_nil.
Qed.
Print Assumptions C71_empty_refuted.
(* A received one of two rows of no elements has one row: complex_objects.py:1492-1493. *)
Theorem C71_rows_refuted : exists mal a o, mal = [2; 0]%Z /\ (forall n, 1 <= n -> get_array n (set_mal mal (set_mae [] (new_array None))) = Some (Ok (a, o))) /\ a = VList [VList []].
Proof. exists [2; 0]%Z. eexists. eexists. split; [reflexivity|]. split; [intros [|n] L; [exfalso; Lia.lia|reflexivity]|reflexivity]. Qed.
Print Assumptions C71_rows_refuted.
(* An array that was received and not yet looked at cannot be sent on:
   complex_objects.py:1467 takes the elements of None; once looked at it can. *)
Theorem C71_unseen_refuted : exists o a o', (forall n, array_seen n o = Some (Err TypeError)) /\ get_array 3 o = Some (Ok (a, o')) /\ exists h, array_seen 3 o' = Some (Ok h).
Proof. exists (set_mal [2]%Z (set_mae [VInt 1; VInt 2] (new_array None))). eexists. eexists. split; [reflexivity|]. split; [vm_compute; reflexivity|]. eexists. vm_compute. reflexivity. Qed.
Print Assumptions C71_unseen_refuted.
(* Lengths and elements that do not go together are not noticed: elements are lost,
   or there are more rows than the first length says. *)
Theorem C71_lengths_refuted : exists o1 o2 a b c d, get_array 9 o1 = Some (Ok (a, c)) /\ a_mae o1 = Some [VInt 1; VInt 2; VInt 3] /\ a = VList [VInt 1] /\
  get_array 9 o2 = Some (Ok (b, d)) /\ a_mal o2 = Some [1; 1]%Z /\ b = VList [VList [VInt 1]; VList [VInt 2]].
Proof.
  exists (set_mal [1]%Z (set_mae [VInt 1; VInt 2; VInt 3] (new_array None))), (set_mal [1; 1]%Z (set_mae [VInt 1; VInt 2] (new_array None))). do 4 eexists.
  repeat split; vm_compute; reflexivity.
Qed.
Print Assumptions C71_lengths_refuted.
(* A last length of zero with elements to place: the loop of complex_objects.py:1486
   never ends. *)
Theorem C71_forever_refuted : exists o, a_mal o = Some [2; 0]%Z /\ a_mae o = Some [VInt 1] /\ forall n, get_array n o = None.
Proof.
  exists (set_mal [2; 0]%Z (set_mae [VInt 1] (new_array None))). split; [reflexivity|]. split; [reflexivity|]. intros n. unfold get_array, set_mal, set_mae, new_array. cbn [a_array a_mae a_mal].
  unfold build_array. cbn [rev app build_rows]. rewrite (rows_stuck 0 ltac:(discriminate) n (VInt 1) []). reflexivity.
Qed.
Print Assumptions C71_forever_refuted.
(* Rows of different lengths arrive as other rows. *)
Theorem C71_ragged_refuted : exists a b, a = VList [VList [VInt 1]; VList [VInt 2; VInt 3]] /\ b <> a /\
  exists mal, list_count a = Ok mal /\ build_array 9 (list_entries a) mal = Some (Ok b).
Proof.
  exists (VList [VList [VInt 1]; VList [VInt 2; VInt 3]]). eexists. split; [reflexivity|]. split; [|eexists; split; vm_compute; reflexivity]. discriminate.
Qed.
Print Assumptions C71_ragged_refuted.
