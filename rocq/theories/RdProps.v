(* C67: what a server writes is what the client holds that reads it. *)
From Verif Require Import Base BaseProofs Lit NumModel TextModel TextSpec Utf8Model MsgModel MsgSpec XmlModel SerModel SerSpec SerSpec2 SerClasses SendClasses ClsProofs2 XtModel WfModel RdSpec RdProofs3 RdProofs4.
From Verif Require TextProofs2 SerProofs5 ClsProofs3.
Local Open Scope list_scope.

(* Every document a server may write, of any size and depth, is read: each object
   becomes a new instance that holds, under the same names and in the same order,
   what was written; an object given again is the same object; nothing that was
   there is touched. *)
Theorem C67_read_partial ci xml_text float_of classes r t s' m heap : readable ci float_of classes r ([], []) t s' -> as_reading m = Some r ->
  exists v h env, deserialize ci xml_text float_of classes heap (write None t) m = Ok (v, heap ++ h) /\
    (forall id, In id (snd s') <-> dict_get str_eqb id env <> None) /\ holds ci float_of classes (length heap) (heap ++ h) env r t v.
Proof. exact (read_document ci xml_text float_of classes r t s' m heap). Qed.
Theorem C67_text_partial ci xml_text float_of classes r t s' m heap txt : xml_parse txt = Some (write None t) -> readable ci float_of classes r ([], []) t s' -> as_reading m = Some r ->
  exists v h env, deserialize_text ci xml_text float_of classes heap txt m = Ok (v, heap ++ h) /\
    (forall id, In id (snd s') <-> dict_get str_eqb id env <> None) /\ holds ci float_of classes (length heap) (heap ++ h) env r t v.
Proof. exact (read_text_document ci xml_text float_of classes r t s' m heap txt). Qed.

(* What an object is taken for: its most derived type name that is known. *)
Theorem C67_types us : Forall (fun t => (~ In 91%N t /\ starts_with (lit "Deserialized.System.") t = false) /\ ~ In t (map fst structures)) us ->
  by_types (us ++ [lit "System.Object"]) = Some Generic /\
  (forall t ts m, ~ In 91%N t /\ starts_with (lit "Deserialized.System.") t = false -> dict_get str_eqb t structures = Some m ->
     by_types (us ++ t :: ts) = match as_reading m with Some Open | Some Free => None | r => r end /\
     by_types (us ++ (t ++ lit "[]") :: ts) = match as_reading m with Some r => Some (ListOf (strict r)) | None => None end) /\
  (forall t ts, by_types (us ++ (lit "Deserialized.System." ++ t) :: ts) = by_types (us ++ (lit "System." ++ t) :: ts)).
Proof.
  intros H. split; [exact (generic_types us H)|]. split; [|intros t ts; exact (deserialized_types us t ts)].
  intros t ts m B E. split; [exact (known_types us t ts m H B E)|exact (array_types us t ts m H B E)].
Qed.

(* The classes of the library can be filled in: their attributes have names of
   their own, and all but two ask for something that can be read. *)
Theorem C67_classes c d : sending c = Some d ->
  class_ok d /\
  forall a m, In (a, m) (cd_sets d ++ cd_adapted d ++ cd_extended d) ->
    (c, a) <> (lit "Command", lit "args") -> (c, a) <> (lit "GetCommandMetadata", lit "command_type") -> exists r, as_reading m = Some r.
Proof. intros H. split; [exact (library_ok c d H)|]. intros a m. exact (library_readings c d a m H). Qed.

(* ---- cases ---- *)
Local Ltac str s := apply (sp_str None (fun f => Ok f) (lit "S") s); [left; reflexivity|apply SerProofs5.ascii_scalars; vm_compute; reflexivity|apply ClsProofs3.ascii_kept; vm_compute; reflexivity].
Local Ltac int z := apply (sp_int None (fun f => Ok f) (lit "I32") z); vm_compute; tauto.
Local Ltac scalar t := eapply rd_scalar; t.
Local Ltac next := eapply th_cons.
Local Ltac none K := vm_compute in K; repeat (destruct K as [K|K]; [discriminate K|]); destruct K.
Local Ltac absent := let K := fresh in intros K; none K.
Local Ltac fresh_names := let K := fresh in let t := fresh in intros t K; none K.
Definition s_ (s : String.string) : item := Scalar (lit "S") (Some (lit s)).
(* a process, with a list and a table that give objects again *)
Definition process : item :=
  Object (lit "0") (Named (lit "0") (map lit ["System.Diagnostics.Process"; "System.Object"]%string)) (Some (Some (lit "pwsh")))
    [Scalar (lit "Nil") None]
    [(lit "Name", s_ "a_x000A_b"); (lit "Id", Scalar (lit "I32") (Some (lit "-7")));
     (lit "Args", Members (lit "1") (Named (lit "1") (map lit ["System.Object[]"; "System.Array"; "System.Object"]%string)) (lit "LST")
        [Scalar (lit "S") None; Object (lit "2") (Same (lit "0") (map lit ["System.Diagnostics.Process"; "System.Object"]%string)) None [] [] [(lit "up", Again (lit "0"))]; Again (lit "2")] []);
     (lit "Env", Pairs (lit "3") (Named (lit "2") (map lit ["System.Collections.Hashtable"; "System.Object"]%string)) [(s_ "k", Again (lit "1")); (Scalar (lit "I32") (Some (lit "1")), Again (lit "2"))] [])]
    [(lit "PSComputerName", s_ "web01")].
Definition held : list hobj * value := Eval vm_compute in
  match deserialize None (fun _ => []) (fun f => Ok f) sending [HGen (mkG [] VNone [] [] [])] (write None process) any_meta with Ok (v, h) => (h, v) | Err _ => ([], VNone) end.
Example C67_case : (exists s', readable None (fun f => Ok f) sending Open ([], []) process s') /\
  as_reading any_meta = Some Open /\
  held = ([HGen (mkG [] VNone [] [] []);
           HGen (mkG (map lit ["System.Diagnostics.Process"; "System.Object"]%string) (VStr (lit "pwsh")) [VNone]
             [(lit "Name", VStr (lit "a" ++ 10%N :: lit "b")); (lit "Id", VInt (-7)); (lit "Args", VList [VStr []; VObj 2; VObj 2]);
              (lit "Env", VDict [(VStr (lit "k"), VList [VStr []; VObj 2; VObj 2]); (VInt 1, VObj 2)])]
             [(lit "PSComputerName", VStr (lit "web01"))]);
           HGen (mkG (map lit ["System.Diagnostics.Process"; "System.Object"]%string) VNone [] [] [(lit "up", VObj 1)])], VObj 1).
Proof.
  split; [|split; vm_compute; reflexivity]. eexists. unfold process. eapply rd_generic.
  - reflexivity.
  - cbn [snd In]. tauto.
  - apply na_full; [discriminate|intros ts' []].
  - exists (lit "pwsh"). str (lit "pwsh").
  - next; [scalar ltac:(apply sp_nil)|apply th_nil].
  - repeat (apply NoDup_cons; [absent|]). apply NoDup_nil.
  - next; [cbn [snd]; scalar ltac:(str (lit "a" ++ 10%N :: lit "b"))|].
    next; [cbn [snd]; scalar ltac:(int (-7)%Z)|]. next.
    { cbn [snd]. eapply rd_list; [reflexivity|apply na_full; [discriminate|fresh_names]| | |apply Forall_nil].
      { next; [scalar ltac:(str (@nil N))|]. next.
        { eapply rd_generic; [reflexivity|absent|apply na_same; [discriminate|right; left; reflexivity]|exact Logic.I|apply th_nil|apply NoDup_nil|apply th_nil|repeat constructor; tauto|].
          next; [cbn [snd]; apply rd_again; right; left; reflexivity|apply th_nil]. }
        next; [apply rd_again; left; reflexivity|apply th_nil]. }
      absent. }
    next; [|apply th_nil]. cbn [snd].
    eapply (rd_dict None (fun f => Ok f) sending Open) with (ks := [VStr (lit "k"); VInt 1]); [reflexivity|apply na_full; [discriminate|fresh_names]| | | | |apply Forall_nil].
    + constructor; [|constructor; [|constructor]]; cbn [fst]; eexists; eexists; (split; [reflexivity|]); [str (lit "k")|int 1%Z].
    + cbn [map distinct_keys]. repeat split; try apply Forall_nil; try apply Forall_cons; try apply Forall_nil; vm_compute; reflexivity.
    + next; [cbn [snd]; apply rd_again; left; reflexivity|]. next; [cbn [snd]; apply rd_again; right; left; reflexivity|apply th_nil].
    + absent.
  - repeat constructor; tauto.
  - next; [cbn [snd]; scalar ltac:(str (lit "web01"))|apply th_nil].
Qed.

(* the state of a pipeline that failed, with the error *)
Definition failed : item :=
  Object (lit "0") Untyped None [] []
    [(lit "PipelineState", Scalar (lit "I32") (Some (lit "5")));
     (lit "ExceptionAsErrorRecord",
       Object (lit "1") (Named (lit "0") (map lit ["System.Management.Automation.ErrorRecord"; "System.Object"]%string)) (Some (Some (lit "no such file"))) [] []
         [(lit "Exception", Object (lit "2") (Named (lit "1") (map lit ["System.IO.FileNotFoundException"; "System.Exception"; "System.Object"]%string)) None []
             [(lit "Message", s_ "no such file"); (lit "HResult", Scalar (lit "I32") (Some (lit "-2147024894")))] []);
          (lit "TargetObject", Again (lit "2"));
          (lit "FullyQualifiedErrorId", s_ "PathNotFound");
          (lit "ErrorCategory_Category", Scalar (lit "I32") (Some (lit "13")));
          (lit "ErrorCategory_Activity", Scalar (lit "S") None);
          (lit "SerializeExtendedInfo", Scalar (lit "B") (Some (lit "false")));
          (lit "NotKnownToTheClient", s_ "x")])].
Local Ltac absent_attribute := next; [apply fi_none; [apply none_computed; vm_compute; reflexivity|left; reflexivity]|].
(* the [k]th property *)
Local Ltac attribute k :=
  next; [cbv beta; lazymatch goal with
         | |- filled _ ?ps _ _ _ =>
             let ps' := eval vm_compute in ps in
             let a := eval vm_compute in (firstn k ps') in
             let b := eval vm_compute in (skipn (S k) ps') in
             let e := eval vm_compute in (nth_error ps' k) in
             lazymatch e with Some (?n, ?t) => eapply fi_some; [apply (only_computed _ ps a n t b); vm_compute; reflexivity|vm_compute; reflexivity|] end
         end|].
Local Ltac listed := lazymatch goal with |- thread ?R ?s ?l ?s' => let l' := eval vm_compute in l in change (thread R s l' s') end.
Definition held_failure : list hobj * value := Eval vm_compute in
  match deserialize None (fun _ => []) (fun s => Ok s) sending [] (write None failed) (class_meta (lit "PipelineState")) with Ok (v, h) => (h, v) | Err _ => ([], VNone) end.
Definition attribute_of (n : nat) (a : String.string) : option value :=
  match nth_error (fst held_failure) n with Some (HCls _ l) => dict_get str_eqb (lit a) l | _ => None end.
Example C67_class_case : (exists s', readable None (fun f => Ok f) sending (Instance (lit "PipelineState")) ([], []) failed s') /\
  as_reading (class_meta (lit "PipelineState")) = Some (Instance (lit "PipelineState")) /\
  snd held_failure = VObj 0 /\ attribute_of 0 "state" = Some (VInt 5) /\ attribute_of 0 "error_record" = Some (VObj 1) /\
  attribute_of 1 "_to_string" = Some (VStr (lit "no such file")) /\ attribute_of 1 "exception" = Some (VObj 2) /\ attribute_of 1 "target_object" = Some (VObj 2) /\
  attribute_of 1 "fq_error" = Some (VStr (lit "PathNotFound")) /\ attribute_of 1 "reason" = Some VNone.
Proof.
  split; [|repeat split; vm_compute; reflexivity]. eexists. unfold failed. eapply rd_instance.
  - reflexivity.
  - vm_compute. reflexivity.
  - apply class_okb_ok. vm_compute. reflexivity.
  - cbn [snd In]. tauto.
  - apply na_none.
  - exact Logic.I.
  - apply Forall_nil.
  - listed. apply th_nil.
  - listed. apply th_nil.
  - listed. attribute 0%nat; [scalar ltac:(int 5%Z)|]. attribute 1%nat; [|apply th_nil]. eapply rd_instance.
    + vm_compute. reflexivity.
    + vm_compute. reflexivity.
    + apply class_okb_ok. vm_compute. reflexivity.
    + absent.
    + apply na_full; [discriminate|fresh_names].
    + exists (lit "no such file"). str (lit "no such file").
    + apply Forall_nil.
    + listed. apply th_nil.
    + listed. apply th_nil.
    + listed. attribute 0%nat.
      { eapply rd_generic.
        - vm_compute. reflexivity.
        - absent.
        - apply na_full; [discriminate|fresh_names].
        - exact Logic.I.
        - apply th_nil.
        - repeat (apply NoDup_cons; [absent|]). apply NoDup_nil.
        - next; [cbn [snd]; scalar ltac:(str (lit "no such file"))|]. next; [cbn [snd]; scalar ltac:(int (-2147024894)%Z)|apply th_nil].
        - apply NoDup_nil.
        - apply th_nil. }
      attribute 1%nat; [apply rd_again; left; reflexivity|]. attribute 5%nat; [scalar ltac:(apply sp_false)|]. absent_attribute.
      attribute 2%nat; [scalar ltac:(str (lit "PathNotFound"))|]. attribute 3%nat; [scalar ltac:(int 13%Z)|]. attribute 4%nat; [scalar ltac:(str (@nil N))|].
      do 7 absent_attribute. attribute 5%nat; [scalar ltac:(apply sp_false)|]. repeat absent_attribute. apply th_nil.
Qed.

(* ---- what is not read as it is written ---- *)
Local Ltac witness := vm_compute; reflexivity.
Definition raw_text (x : xml) : list N := x_tag x.
Definition plain_read (x : xml) : res (value * list hobj) := deserialize None raw_text (fun s => Ok s) sending [] x any_meta.
Definition typed (ts : list String.string) : naming := Named (lit "0") (map lit ts).
(* an enumerable: its members are held as the text of its XML *)
Theorem C67_enumerable_refuted : exists x, plain_read x = Ok (VObj 0, [HGen (mkG (map lit ["System.Linq.Enumerable"; "System.Object"]%string) VNone [VStr (lit "IE")] [] [])]) /\
  x = Elem (lit "Obj") (id_attr (lit "0")) None (naming_xml (typed ["System.Linq.Enumerable"; "System.Object"]%string) ++ [Elem (lit "IE") [] None [write None (s_ "a"); write None (s_ "b")]]).
Proof. eexists. split; [|reflexivity]. witness. Qed.
(* a string with properties of its own: neither the string nor the properties *)
Theorem C67_decorated_refuted : exists t, plain_read (write None t) = Ok (VStr (lit "Obj"), []) /\
  t = Object (lit "0") (typed ["System.String"; "System.Object"]%string) None [s_ "text"] [] [(lit "PSPath", s_ "C:\")].
Proof. eexists. split; [|reflexivity]. witness. Qed.
(* a list inside a list: an object that holds the text of the XML of its members *)
Theorem C67_nested_refuted : exists t, plain_read (write None t) =
    Ok (VList [VObj 0], [HGen (mkG (map lit ["System.Object[]"; "System.Array"; "System.Object"]%string) VNone [VStr (lit "LST")] [] [])]) /\
  t = Members (lit "0") (typed ["System.Object[]"; "System.Array"; "System.Object"]%string) (lit "LST")
        [Members (lit "1") (Same (lit "0") (map lit ["System.Object[]"; "System.Array"; "System.Object"]%string)) (lit "LST") [s_ "a"; s_ "b"] []] [].
Proof. eexists. split; [|reflexivity]. witness. Qed.
(* an object without type names in a list after a scalar: the text of its XML *)
Theorem C67_untyped_refuted : exists t, plain_read (write None t) = Ok (VList [VStr (lit "a"); VStr (lit "Obj")], []) /\
  t = Members (lit "0") (typed ["System.Collections.ArrayList"; "System.Object"]%string) (lit "LST")
        [s_ "a"; Object (lit "1") Untyped None [] [] [(lit "p", s_ "b")]] [].
Proof. eexists. split; [|reflexivity]. witness. Qed.
(* the properties of a list, and the objects they give, are lost *)
Theorem C67_list_properties_refuted : exists t x, plain_read (write None t) = Err KeyError /\
  t = Object (lit "0") Untyped None [] []
        [(lit "l", Members (lit "1") (typed ["System.Collections.ArrayList"; "System.Object"]%string) (lit "LST") [] [x]); (lit "again", Again (lit "2"))] /\
  x = Elem (lit "MS") [] None [write (Some (lit "p")) (Object (lit "2") Untyped None [] [] [])].
Proof. eexists. eexists. split; [|split; reflexivity]. witness. Qed.
(* the properties of an instance are read in the order of the class: type names
   given by a property that is read later are not known *)
Theorem C67_order_refuted : exists t, deserialize None raw_text (fun s => Ok s) sending [] (write None t) (class_meta (lit "ErrorRecord")) = Err KeyError /\
  t = Object (lit "0") Untyped None [] []
        [(lit "TargetObject", Object (lit "1") (typed ["System.Object"]%string) None [] [] []);
         (lit "Exception", Object (lit "2") (Same (lit "0") (map lit ["System.Object"]%string)) None [] [] []);
         (lit "FullyQualifiedErrorId", s_ "e"); (lit "ErrorCategory_Category", Scalar (lit "I32") (Some (lit "0"))); (lit "SerializeExtendedInfo", Scalar (lit "B") (Some (lit "false")))].
Proof. eexists. split; [|reflexivity]. witness. Qed.

Print Assumptions C67_read_partial.
Print Assumptions C67_text_partial.
Print Assumptions C67_types.
Print Assumptions C67_classes.
Print Assumptions C67_enumerable_refuted.
Print Assumptions C67_decorated_refuted.
Print Assumptions C67_nested_refuted.
Print Assumptions C67_untyped_refuted.
Print Assumptions C67_list_properties_refuted.
Print Assumptions C67_order_refuted.
