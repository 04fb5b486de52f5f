(* C68, the other way: what is read is what was said, and what says nothing is
   refused. *)
From Verif Require Import Base BaseProofs Lit TextModel Utf8Model XmlModel SerModel XtModel WfModel TransModel WsmanModel WsmanSpec XgModel XgSpec XgProofs7 XgProps.
From Verif Require XgProofs2 XgProofs3 WsmanProofs WsmanProofs2.
Local Open Scope list_scope.

(* The reader gives a tree exactly for the texts that say it ... *)
Theorem C68_exactly txt x : xml_parse txt = Some x <-> says txt x.
Proof. exact (parse_iff txt x). Qed.
(* ... and an error exactly for those that say nothing. *)
Theorem C68_nothing txt : xml_parse txt = None <-> forall x, ~ says txt x.
Proof.
  split.
  - intros H x K. apply C68_exactly in K. congruence.
  - intros H. destruct (xml_parse txt) as [x|] eqn:E; [|reflexivity]. apply C68_exactly in E. destruct (H x E).
Qed.
Theorem C68_body_exactly b x : body_tree b = Some x <-> exists txt, utf8_decode b = Ok txt /\ says txt x /\ (forall n, announces txt n -> utf8_name n).
Proof. exact (body_iff b x). Qed.
(* A request returns a response only when its body says it, and it relates to the request. *)
Theorem C68_accepted (S : Type) (send : S -> xml -> nat -> option Z -> reply * S) parse_text w uuid action uri resource options selectors timeout retries st id x :
  let request := envelope w uuid action uri resource options selectors timeout in
  WsmanProofs.set_tags options -> WsmanProofs.set_tags selectors -> header_field request (addressing (lit "MessageID")) id ->
  (fst (invoke send body_tree parse_text w uuid action uri resource options selectors timeout retries st) = IOk x <->
   exists b txt, fst (send st request retries (http_timeout timeout)) = RBody b /\ utf8_decode b = Ok txt /\ says txt x /\ (forall n, announces txt n -> utf8_name n) /\ relates_to x id).
Proof.
  intros request H1 H2 H3. rewrite (WsmanProofs2.accepts_iff (S := S) send body_tree parse_text w uuid action uri resource options selectors timeout retries st id H1 H2 H3). split.
  - intros (b & E & P & R). apply C68_body_exactly in P. destruct P as (txt & P1 & P2 & P3). exists b, txt. split; [exact E|]. split; [exact P1|]. split; [exact P2|]. split; [exact P3|exact R].
  - intros (b & txt & E & P1 & P2 & P3 & R). exists b. split; [exact E|]. split; [apply C68_body_exactly; exists txt; split; [exact P1|split; [exact P2|exact P3]]|exact R].
Qed.
(* An HTTP error is raised as the fault its text says, and as itself exactly when
   its text says nothing. *)
Theorem C68_faulted (S : Type) (send : S -> xml -> nat -> option Z -> reply * S) parse_body w uuid action uri resource options selectors timeout retries st :
  let answer := fst (send st (envelope w uuid action uri resource options selectors timeout) retries (http_timeout timeout)) in
  let result := fst (invoke send parse_body xml_parse w uuid action uri resource options selectors timeout retries st) in
  (forall f, result = IFault f <-> exists code txt x, answer = RHttp code txt /\ says txt x /\ fault_said x f) /\
  (forall code txt, result = IHttp code txt <-> answer = RHttp code txt /\ forall x, ~ says txt x).
Proof.
  intros answer result. destruct (WsmanProofs2.fault_iff (S := S) send parse_body xml_parse w uuid action uri resource options selectors timeout retries st) as (A & B & _). split.
  - intros f. etransitivity; [exact (A f)|]. split; intros (code & txt & x & E & P & F); exists code, txt, x; (split; [exact E|]); (split; [apply C68_exactly; exact P|exact F]).
  - intros code txt. etransitivity; [exact (B code txt)|]. rewrite C68_nothing. reflexivity.
Qed.
(* What is no document of objects is given as the text it is. *)
Theorem C68_no_objects ci xml_text float_of classes heap txt m : (forall x, ~ says txt x) -> deserialize_text ci xml_text float_of classes heap txt m = Ok (VStr txt, heap).
Proof. intros H. apply C68_nothing in H. unfold deserialize_text. rewrite H. reflexivity. Qed.

(* Cases: texts that look like what XgProps' case says, and say nothing. *)
Example C68_nothing_case : forall txt, In txt [lit "<a>]]></a>"; lit "<a><!-- -- --></a>"; lit "<a b='<'/>"; lit "<a></b>"; lit "<a/><b/>"; lit "<a>&nbsp;</a>"; lit "<a b='1' b='2'/>";
    lit "<p:a/>"; lit "<a xmlns:p='u' xmlns:q='u' p:k='1' q:k='2'/>"; lit "<a xmlns:p=''/>"; lit "<a>&#0;</a>"; lit "<a b='1'c='2'/>"; lit "<a"; []] -> forall x, ~ says txt x.
Proof. intros txt H. apply C68_nothing. repeat (destruct H as [<-|H]; [vm_compute; reflexivity|]). destruct H. Qed.
Example C68_exactly_case : says (lit "<a k=""&#x41;"">b<!-- --><![CDATA[<]]></a >") (Elem (lit "a") [(lit "k", lit "A")] (Some (lit "b<")) []).
Proof. apply C68_exactly. vm_compute. reflexivity. Qed.
Example C68_accepted_case :
  let w := {| w_session_id := lit "5e55"; w_locale := lit "en-US"; w_data_locale := lit "en-US"; w_endpoint := lit "http://h:5985/wsman"; w_max_envelope := 153600; w_operation_timeout := 20 |} in
  fst (invoke (fun (st : unit) _ _ _ => (RBody (lit "<a>" ++ c_envelope (message_id (lit "0a"))), st)) body_tree xml_parse w (lit "0a") (lit "urn:act") (lit "urn:res") None None None None 0 tt) = IExn OtherError /\
  fst (invoke (fun (st : unit) _ _ _ => (RHttp 500 (lit "<a></b>"), st)) body_tree xml_parse w (lit "0a") (lit "urn:act") (lit "urn:res") None None None None 0 tt) = IHttp 500 (lit "<a></b>").
Proof. split; vm_compute; reflexivity. Qed.

Print Assumptions C68_exactly.
Print Assumptions C68_nothing.
Print Assumptions C68_body_exactly.
Print Assumptions C68_accepted.
Print Assumptions C68_faulted.
Print Assumptions C68_no_objects.
