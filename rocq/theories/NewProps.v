(* Properties of the objects that users make with the library's classes. *)
From Verif Require Import Base BaseProofs Lit NumModel TextModel TextSpec TextProofs MsgModel MsgSpec XmlModel SerModel SerClasses SerSpec SerSpec2 SerProofs5 ClsSpec ClsProofs ClsProofs2 ClsProofs3 NewModel NewSpec NewProofs.
Local Open Scope list_scope.

(* ---- C74: a new object has what it was given ---- *)
Theorem C74_kept_partial c kw : In c made_classes -> exists attrs d, make c kw = Some attrs /\ library c = Some d /\
  forall a m, In (a, m) (attributes d) -> ~ In (c, a) lost -> dict_get str_eqb a attrs = Some (given kw a).
Proof.
  exact (fun Ic => match makes c kw Ic with
    | ex_intro _ attrs (ex_intro _ d (conj M L)) => ex_intro _ attrs (ex_intro _ d (conj M (conj L (fun a m I NL => kept c d kw attrs a m Ic M L I NL)))) end).
Qed.
(* and when it is sent, the reader has it *)
Theorem C74_sent_partial ci show xml_text float_of heap n c d kw attrs : In c made_classes -> (forall a, ~ In (c, a) lost) -> make c kw = Some attrs -> library c = Some d ->
  choice_made c kw -> nth_error heap n = Some (HCls c attrs) ->
  (forall a m, In (a, m) (attributes d) -> conforms ci float_of library library_canon heap (fun _ => True) (fun _ => True) m (given kw a)) ->
  exists f0, forall fuel, (f0 <= fuel)%nat -> exists x, serialize ci show library heap fuel (VObj n) (class_meta c) = Ok (Some x) /\
    forall heap0, exists n' e attrs', deserialize ci xml_text float_of library heap0 (reparse x) (class_meta c) = Ok (VObj n', heap0 ++ e) /\
      nth_error (heap0 ++ e) n' = Some (HCls c attrs') /\
      forall a m, In (a, m) (attributes d) -> exists w, dict_get str_eqb a attrs' = Some w /\ copy library heap (length heap0) (heap0 ++ e) (given kw a) w.
Proof. exact (sent_back ci show xml_text float_of heap n c d kw attrs). Qed.
Print Assumptions C74_kept_partial.
Print Assumptions C74_sent_partial.

(* A cell of a screen with two colours. *)
Definition colour (z : Z) : list (list N * value) := [(lit "value", VInt z)].
Definition cell_kw : list (list N * value) :=
  [(lit "cell_type", VInt 0); (lit "foreground_color", VObj 1); (lit "character", VStr (lit "x")); (lit "background_color", VObj 2)].
Definition new (c : String.string) (kw : list (list N * value)) : hobj := HCls (lit c) (match make (lit c) kw with Some l => l | None => [] end).
Definition cell_heap : list hobj := [new "BufferCell" cell_kw; new "Color" (colour 15); new "Color" (colour 1)].
Lemma colour_fits name opt n z : (z = 15 \/ z = 1)%Z -> nth_error cell_heap n = Some (new "Color" (colour z)) ->
  conforms None (fun s => Ok s) library library_canon cell_heap (fun _ => True) (fun _ => True) (Meta KPlain (lit "Obj") name opt (Some (lit "Color"))) (VObj n).
Proof.
  intros Hz Hn. eapply library_fits with (c := lit "Color") (d := described (lit "Color")); [left; reflexivity|exact Hn|apply described_ok; vm_compute; reflexivity|vm_compute; reflexivity| |].
  - destruct Hz as [-> | ->]; apply ascii_fair; reflexivity.
  - apply Forall_cons; [|apply Forall_nil]. exists (VInt z). split; [reflexivity|]. apply cf_scalar, be_int. vm_compute. tauto.
Qed.
Example C74_sent_case : exists attrs d, make (lit "BufferCell") cell_kw = Some attrs /\ library (lit "BufferCell") = Some d /\ In (lit "BufferCell") made_classes /\
  (forall a, ~ In (lit "BufferCell", a) lost) /\ choice_made (lit "BufferCell") cell_kw /\ nth_error cell_heap 0 = Some (HCls (lit "BufferCell") attrs) /\
  (forall a m, In (a, m) (attributes d) -> conforms None (fun s => Ok s) library library_canon cell_heap (fun _ => True) (fun _ => True) m (given cell_kw a)) /\
  length (attributes d) = 4%nat.
Proof.
  eexists. exists (described (lit "BufferCell")). split; [reflexivity|]. split; [apply described_ok; vm_compute; reflexivity|]. split; [vm_compute; tauto|].
  split; [|split; [|split; [reflexivity|split; [|vm_compute; reflexivity]]]].
  - intros a H. assert (T : forallb (fun e => negb (str_eqb (fst e) (lit "BufferCell"))) lost = true) by (vm_compute; reflexivity).
    rewrite forallb_forall in T. specialize (T _ H). cbn [fst] in T. rewrite str_eqb_refl in T. discriminate T.
  - intros P H. assert (T : forallb (fun e => negb (str_eqb e (lit "BufferCell"))) (map fst choices) = true) by (vm_compute; reflexivity).
    rewrite forallb_forall in T. apply (in_map fst) in H. specialize (T _ H). cbn [fst] in T. rewrite str_eqb_refl in T. discriminate T.
  - intros a m H. change (In (a, m) (fields [("character", pm "C" "character" false); ("foreground_color", cm "Color" "foregroundColor" false);
         ("background_color", cm "Color" "backgroundColor" false); ("cell_type", pm "I32" "bufferCellType" false)]%string ++ [])) in H. rewrite app_nil_r in H.
    destruct H as [H|[H|[H|[H|[]]]]]; apply pair_inj in H; destruct H as (<- & <-).
    + apply cf_scalar, be_char. reflexivity.
    + apply (colour_fits _ _ 1 15); [left; reflexivity|reflexivity].
    + apply (colour_fits _ _ 2 1); [right; reflexivity|reflexivity].
    + apply cf_scalar, be_int. vm_compute. tauto.
Qed.

(* ---- which cannot be sent at all: two classes read an attribute that their
   constructor does not set, whatever is given.  In a message as well: it is the
   value of an attribute of the answer to a host call. ---- *)
Theorem C74_unsent ci show heap n c kw attrs mt fuel x : c = lit "CultureInfo" \/ c = lit "ErrorRecord" -> make c kw = Some attrs ->
  nth_error heap n = Some (HCls c attrs) -> m_tag mt = lit "Obj" \/ m_tag mt = star -> serialize ci show library heap fuel (VObj n) mt <> Ok x.
Proof. exact (unsent ci show heap n c kw attrs mt fuel x). Qed.
Definition english : list (list N * value) :=
  [(lit "lcid", VInt 1033); (lit "name", VStr (lit "en-US")); (lit "display_name", VStr (lit "English (United States)"));
   (lit "ietf_language_tag", VStr (lit "en-US")); (lit "three_letter_iso_name", VStr (lit "eng")); (lit "three_letter_windows_name", VStr (lit "ENU"));
   (lit "two_letter_iso_language_name", VStr (lit "en"))].
Theorem C74_culture_refuted : exists c a heap e, In (c, a) lost /\ c = lit "CultureInfo" /\
  heap = [HCls (lit "PipelineHostResponse") [(lit "ci", VInt 1); (lit "mi", VObj 1); (lit "mr", VObj 2); (lit "me", VNone); (lit "_to_string", VNone)];
          new "HostMethodIdentifier" (colour 4); new "CultureInfo" english] /\
  (forall m, In (a, m) (cd_adapted (described c)) -> given english a = VStr (lit "en-US")) /\
  serialize None (fun _ => []) library heap 9 (VObj 0) (class_meta (lit "PipelineHostResponse")) = Err e /\ e = AttributeError.
Proof.
  exists (lit "CultureInfo"), (lit "ietf_language_tag"). eexists. eexists. split; [vm_compute; tauto|]. split; [reflexivity|]. split; [reflexivity|].
  split; [intros m _; reflexivity|]. split; vm_compute; reflexivity.
Qed.
Theorem C74_error_refuted : exists heap kw e, heap = [new "ErrorRecord" kw] /\ given kw (lit "fq_error") = VStr (lit "Oops") /\
  serialize None (fun _ => []) library heap 9 (VObj 0) (class_meta (lit "ErrorRecord")) = Err e /\ e = AttributeError.
Proof.
  eexists. exists [(lit "exception", VStr (lit "gone")); (lit "target_object", VStr (lit "file")); (lit "invocation", VBool false); (lit "fq_error", VStr (lit "Oops"));
    (lit "category", VInt 7); (lit "message", VStr (lit "no such file"))]. eexists. split; [reflexivity|]. split; [reflexivity|]. split; vm_compute; reflexivity.
Qed.
(* and a record says that it carries no invocation, whatever it was given *)
Theorem C74_invocation_refuted : exists kw attrs, given kw (lit "invocation") = VBool true /\ make (lit "DebugRecord") kw = Some attrs /\
  dict_get str_eqb (lit "invocation") attrs = Some (VBool false).
Proof.
  exists [(lit "message", VStr (lit "m")); (lit "invocation", VBool true)]. eexists. split; [reflexivity|]. split; vm_compute; reflexivity.
Qed.
Print Assumptions C74_unsent.
Print Assumptions C74_culture_refuted.
Print Assumptions C74_error_refuted.
Print Assumptions C74_invocation_refuted.
