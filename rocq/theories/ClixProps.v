(* C58 on the characters that the host wrote. *)
From Verif Require Import Base BaseProofs Lit NumModel TextModel Utf8Model XmlModel WsmanModel WsmanSpec ShellModel ShellSpec ShellProofs2 ShellProps CodeModel CodeSpec CodeProofs CodeProps TextSpec XtModel XtSpec ClientModel ClientSpec ClientProofs3 ClixModel ClixProofs.
From Verif Require XgSpec XgProps2.
Local Open Scope list_scope.

(* However the document is spelled (quotes, references, CDATA, prefixes, comments,
   line ends), the result is the strings of the error stream.  Full claim: without
   [separated] and for any text; see C58_joined_refuted and C09. *)
Theorem C58_spelled_partial : forall pre body ns attrib text l,
  ~ In 60%N pre -> (forall a b, ns <> a ++ lit "Objs" ++ b) ->
  XgSpec.says (60%N :: body) (Elem (tag_in ns (lit "Objs")) attrib text (map (written ns) l)) ->
  Forall (other_ok ns) l -> separated (error_texts l) -> Forall scalars (error_texts l) ->
  (sanitise_clixml_text (lit "#< CLIXML" ++ pre ++ 60%N :: body) = Ok (concat (error_texts l)) <-> ~ has_straddle (concat (error_texts l))).
Proof. exact clix_document. Qed.
Print Assumptions C58_spelled_partial.

(* What follows the mark and is no document raises. *)
Theorem C58_malformed : forall pre body, ~ In 60%N pre -> (forall x, ~ XgSpec.says (60%N :: body) x) ->
  sanitise_clixml_text (lit "#< CLIXML" ++ pre ++ 60%N :: body) = Err OtherError.
Proof. exact clix_malformed. Qed.
Print Assumptions C58_malformed.

(* From the pieces that the server sends on stderr, in either encoding and cut
   anywhere, to the text of the errors. *)
Theorem C58_process_partial : forall srv other fuel command encoding env h o e rc h',
  execute_cmd_text srv other fuel command encoding env h = (Ret (o, e, rc), h') ->
  exists start poll answers stop, h' = h ++ start ++ map (fun r => (poll, r)) answers ++ stop /\ q_op poll = OpReceive /\
    forall ms pre body ns attrib text l, Forall2 says answers ms ->
      console_text encoding (lit "#< CLIXML" ++ pre ++ 60%N :: body) (collected (lit "stderr") ms) ->
      ~ In 60%N pre -> (forall a b, ns <> a ++ lit "Objs" ++ b) ->
      XgSpec.says (60%N :: body) (Elem (tag_in ns (lit "Objs")) attrib text (map (written ns) l)) ->
      Forall (other_ok ns) l -> separated (error_texts l) -> Forall scalars (error_texts l) -> ~ has_straddle (concat (error_texts l)) ->
      sanitise_clixml_text e = Ok (concat (error_texts l)).
Proof.
  intros srv other fuel command encoding env h o e rc h' H.
  destruct (C31_text _ _ _ _ _ _ _ _ _ _ _ H) as (create & cmd & poll & answers & signal & delete & H1 & _ & _ & H4 & _ & _ & K).
  exists [create; cmd], poll, answers, [signal; delete]. split; [exact H1|]. split; [exact H4|].
  intros ms pre body ns attrib text l M T Hp Hn X F Se Sc St. destruct (K ms M) as (_ & E & _). rewrite (E _ T).
  exact (proj2 (clix_document pre body ns attrib text l Hp Hn X F Se Sc) St).
Qed.
Print Assumptions C58_process_partial.

(* ---- cases ---- *)
Definition clix_space : list N := lit "http://schemas.microsoft.com/powershell/2004/04".
Definition clix_doc : list N :=
  lit "<Objs Version='1.1.0.1' xmlns='http://schemas.microsoft.com/powershell/2004/04'><Obj S='progress' RefId='0'/><S S='Error'>1 &lt; 2_x000A_</S><S S='Warning'>no</S><S S='Error'><![CDATA[<b>_x000A_]]></S></Objs>".
Definition clix_head : list N := lit "#< CLIXML" ++ [13; 10]%N.
Definition clix_tree : list item :=
  [Other (Elem (tag_in clix_space (lit "Obj")) [(lit "S", lit "progress"); (lit "RefId", lit "0")] None []); Line (lit "Error") (lit "1 < 2" ++ [10%N]);
   Line (lit "Warning") (lit "no"); Line (lit "Error") (lit "<b>" ++ [10%N])].
Example C58_spelled_case :
  XgSpec.says clix_doc (Elem (tag_in clix_space (lit "Objs")) [(lit "Version", lit "1.1.0.1")] None (map (written clix_space) clix_tree)) /\
  Forall (other_ok clix_space) clix_tree /\ separated (error_texts clix_tree) /\ Forall scalars (error_texts clix_tree) /\
  sanitise_clixml_text (clix_head ++ clix_doc) = Ok (lit "1 < 2" ++ [10%N] ++ lit "<b>" ++ [10%N]).
Proof.
  split; [apply XgProps2.C68_exactly; vm_compute; reflexivity|]. split; [repeat constructor; vm_compute; discriminate|].
  split; [apply separated_lines; repeat constructor; eexists; reflexivity|]. split; [repeat constructor; left; reflexivity|vm_compute; reflexivity].
Qed.
(* the document in two answers, cut in the middle *)
Definition clix_srv := toy_srv [late_answer; late_answer; toy_output [(lit "stderr", firstn 60 (clix_head ++ clix_doc))] (Some running) None; toy_output [(lit "stderr", skipn 60 (clix_head ++ clix_doc))] (Some done_state) (Some 1%Z)].
Example C58_process_case : exists e,
  fst (execute_cmd_text clix_srv (fun _ _ => Err OtherError) 9 (lit "powershell") (lit "437") None []) = Ret ([], e, 1%Z) /\
  sanitise_clixml_text e = Ok (lit "1 < 2" ++ [10%N] ++ lit "<b>" ++ [10%N]).
Proof. exists (clix_head ++ clix_doc). split; vm_compute; reflexivity. Qed.

(* A host that writes a second document, or a line of plain text, after the first:
   nothing is read, the error of the first is lost with an exception. *)
Theorem C58_rest_refuted : exists doc ns attrib l rest,
  XgSpec.says doc (Elem (tag_in ns (lit "Objs")) attrib None (map (written ns) l)) /\ error_texts l <> [] /\
  XgSpec.says rest (Elem (tag_in ns (lit "Objs")) attrib None []) /\
  sanitise_clixml_text (lit "#< CLIXML" ++ doc ++ rest) = Err OtherError /\ sanitise_clixml_text (lit "#< CLIXML" ++ doc ++ lit "done") = Err OtherError.
Proof.
  exists (lit "<Objs xmlns='p'><S S='Error'>bad</S></Objs>"), (lit "p"), [], [Line (lit "Error") (lit "bad")], (lit "<Objs xmlns='p'/>").
  split; [apply XgProps2.C68_exactly; vm_compute; reflexivity|]. split; [discriminate|].
  split; [apply XgProps2.C68_exactly; vm_compute; reflexivity|]. split; vm_compute; reflexivity.
Qed.
Print Assumptions C58_rest_refuted.
