(* Properties of the document that stands for a graph of objects. *)
From Verif Require Import Base Lit NumModel TextModel MsgModel XmlModel SerModel SerClasses SerSpec SerSpec2 SerProofs4 SerProofs6.

(* ---- C14: type names.  Missing from the full claim: objects whose first type
   name is that of another with different names (false, see below), instances of
   the library's classes, queues and tagged values. ---- *)
Theorem C14_types_partial ci show classes heap fuel v x :
  Forall (graph_obj heap) heap -> graph heap v -> coherent heap ->
  serialize ci show classes heap fuel v any_meta = Ok (Some x) ->
  exists W : list N -> nat -> Prop, (forall id n n', W id n -> W id n' -> n = n') /\
    depicts heap (fun id ts => In (MTypes id ts) (marks x)) W None v x.
Proof. exact (fun Hh Hv Hc => serialize_graph ci show classes heap Hh Hc fuel v x Hv). Qed.
Definition typed_heap : list hobj :=
  [HGen (mkG [lit "Outer"] (VStr (lit "text")) [VInt 3] [(lit "a", VObj 1); (lit "b", VObj 2); (lit "c", VObj 1)] [(lit "d", VList [VNone])]);
   HGen (mkG [lit "Inner"; lit "Base"] VNone [] [(lit "up", VObj 0)] []);
   HGen (mkG [lit "Inner"; lit "Base"] VNone [] [] [])].
Example C14_types_case :
  (Forall (graph_obj typed_heap) typed_heap /\ graph typed_heap (VObj 0) /\ coherent typed_heap) /\
  exists x, serialize None (fun _ => []) library typed_heap 5 (VObj 0) any_meta = Ok (Some x) /\
    marks x = [MObj (lit "0"); MTypes (lit "0") [lit "Outer"];
               MObj (lit "1"); MTypes (lit "1") list_names;
               MObj (lit "2"); MTypes (lit "2") [lit "Inner"; lit "Base"]; MRef (lit "0");
               MObj (lit "3"); MTypesRef (lit "2"); MRef (lit "2")].
Proof.
  split; [split; [|split]|].
  - repeat first [apply Forall_cons|apply Forall_nil|split]; cbn [g_text g_sets g_adapted g_extended];
      repeat first [apply Forall_cons|apply Forall_nil]; cbn [snd]; try (left; reflexivity); try (right; eexists; reflexivity);
      try constructor; try (eapply gr_obj; reflexivity); repeat constructor.
  - eapply gr_obj. reflexivity.
  - assert (H : forall a, in_use typed_heap a -> a = list_names \/ a = dict_names \/ a = [lit "Outer"] \/ a = [lit "Inner"; lit "Base"]).
    { intros a [H|[H|(g & H & E)]]; auto. destruct H as [H|[H|[H|[]]]]; assert (K := f_equal (fun h => match h with HGen g => g | _ => g end) H);
        cbv beta iota in K; subst g; cbn [g_types] in E; auto. }
    intros a b Ha Hb. destruct (H a Ha) as [-> |[-> |[-> | ->]]], (H b Hb) as [-> |[-> |[-> | ->]]]; intros E; try reflexivity; vm_compute in E; discriminate.
  - eexists. split; vm_compute; reflexivity.
Qed.
Print Assumptions C14_types_partial.

(* Two objects whose type names differ after the first: the second arrives with
   the names of the first. *)
Theorem C14_types_refuted : exists heap x g g',
  Forall (graph_obj heap) heap /\ graph heap (VObj 0) /\
  serialize None (fun _ => []) library heap 5 (VObj 0) any_meta = Ok (Some x) /\
  nth_error heap 2 = Some (HGen g) /\
  (exists h', deserialize None (fun _ => []) (fun s => Ok s) library [] (reparse x) any_meta = Ok (VObj 0, h') /\ nth_error h' 2 = Some (HGen g')) /\
  g_types g = [lit "Item"; lit "Second"; lit "System.Object"] /\ g_types g' = [lit "Item"; lit "First"; lit "System.Object"].
Proof.
  exists [HGen (mkG [lit "Outer"; lit "System.Object"] VNone [] [(lit "a", VObj 1); (lit "b", VObj 2)] []);
          HGen (mkG [lit "Item"; lit "First"; lit "System.Object"] VNone [] [] []); HGen (mkG [lit "Item"; lit "Second"; lit "System.Object"] VNone [] [] [])].
  do 3 eexists. split; [|split; [|split; [vm_compute; reflexivity|split; [reflexivity|split; [eexists; split; vm_compute; reflexivity|split; reflexivity]]]]].
  - repeat first [apply Forall_cons|apply Forall_nil|split]; cbn [g_text g_sets g_adapted g_extended];
      repeat first [apply Forall_cons|apply Forall_nil]; cbn [snd]; try (left; reflexivity); eapply gr_obj; reflexivity.
  - eapply gr_obj. reflexivity.
Qed.
Print Assumptions C14_types_refuted.

(* A document is not read past a Ref to an id that nothing before it carried, nor
   past a TNRef to an id that no TN before it carried: never does such an entry
   become a value.  (A list is known by its own id only after its entries.) *)
Theorem C14_dangling ci xml_text float_of classes heap id tid pre y post r :
  (y = Elem (lit "Ref") [(lit "RefId", r)] None [] /\ Forall (fun e => ~ introduces r e) pre) \/
  (exists a s cs, y = Elem (lit "Obj") a s (Elem (lit "TNRef") [(lit "RefId", r)] None [] :: cs) /\
     Forall (fun e => ~ introduces_types r e) (pre ++ cs) /\ tid <> r) ->
  exists e, deserialize ci xml_text float_of classes heap
    (Elem (lit "Obj") [(lit "RefId", id)] None
       [Elem (lit "TN") [(lit "RefId", tid)] None [Elem (lit "T") [] (Some (lit "System.Object[]")) []];
        Elem (lit "LST") [] None (pre ++ y :: post)]) any_meta = Err e.
Proof. exact (dangling ci xml_text float_of classes heap id tid pre y post r). Qed.
Theorem C14_lone_ref ci xml_text float_of classes heap r m :
  deserialize ci xml_text float_of classes heap (Elem (lit "Ref") [(lit "RefId", r)] None []) m = Err KeyError.
Proof. exact (lone_ref ci xml_text float_of classes heap r m). Qed.
(* a Ref to the only object before it is read as that object, a Ref to another is not read *)
Definition ref_list (r : list N) : xml :=
  Elem (lit "Obj") [(lit "RefId", lit "0")] None
    [Elem (lit "TN") [(lit "RefId", lit "0")] None [Elem (lit "T") [] (Some (lit "System.Object[]")) []];
     Elem (lit "LST") [] None
       ([Elem (lit "Obj") [(lit "RefId", lit "1")] None
           [Elem (lit "TN") [(lit "RefId", lit "1")] None [Elem (lit "T") [] (Some (lit "System.Object")) []]; Elem (lit "I32") [] (Some (lit "7")) []]]
        ++ Elem (lit "Ref") [(lit "RefId", r)] None [] :: [Elem (lit "I32") [] (Some (lit "8")) []])].
Example C14_dangling_case :
  deserialize None (fun _ => []) (fun s => Ok s) library [] (ref_list (lit "1")) any_meta =
    Ok (VList [VObj 0; VObj 0; VInt 8], [HGen (mkG [lit "System.Object"] VNone [VInt 7] [] [])]) /\
  Forall (fun e => ~ introduces (lit "2") e) (firstn 1 (flat_map x_children (find_all [lit "LST"] (ref_list (lit "2"))))) /\
  deserialize None (fun _ => []) (fun s => Ok s) library [] (ref_list (lit "2")) any_meta = Err KeyError.
Proof.
  split; [vm_compute; reflexivity|]. split; [|vm_compute; reflexivity]. constructor; [|constructor].
  intros (y & Hy & _ & Ha). cbn in Hy. repeat (destruct Hy as [<-|Hy]; [discriminate Ha|]). exact Hy.
Qed.
Print Assumptions C14_dangling.
Print Assumptions C14_lone_ref.
