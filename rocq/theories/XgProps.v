(* C68: what a server's XML says does not depend on how it is spelled. *)
From Verif Require Import Base BaseProofs Lit NumModel TextModel TextSpec Utf8Model MsgModel XmlModel SerModel SerSpec SerSpec2 SerClasses SendClasses XtModel XtSpec XtProofs2 WfModel TransModel WsmanModel WsmanSpec XgModel XgSpec XgProofs2 XgProofs3.
From Verif Require XtProofs XtProofs3 WsmanProofs WsmanProofs2 RdSpec RdProofs4 RdProps.
Require Import Lia ZifyBool ZifyNat ZifyN.
Local Open Scope list_scope.

(* Every text that the productions of XML and of its namespaces allow (names in
   ASCII, no document type) is read as the tree it says: any quotes, white space,
   prefixes, references, CDATA sections, comments, instructions and declaration. *)
Theorem C68_read txt x : says txt x -> xml_parse txt = Some x.
Proof. exact (parse_says txt x). Qed.
Theorem C68_one_meaning txt x y : says txt x -> says txt y -> x = y.
Proof. intros H K. apply C68_read in H, K. congruence. Qed.
Theorem C68_body b txt x : utf8_decode b = Ok txt -> says txt x -> (forall n, announces txt n -> utf8_name n) -> body_tree b = Some x.
Proof. exact (body_read b txt x). Qed.
(* Objects, as C67 has them, in any spelling. *)
Theorem C68_objects_partial ci xml_text float_of classes r t s' m heap txt : says txt (RdSpec.write None t) ->
  RdSpec.readable ci float_of classes r ([], []) t s' -> RdSpec.as_reading m = Some r ->
  exists v h env, deserialize_text ci xml_text float_of classes heap txt m = Ok (v, heap ++ h) /\
    (forall id, In id (snd s') <-> dict_get str_eqb id env <> None) /\ RdSpec.holds ci float_of classes (length heap) (heap ++ h) env r t v.
Proof. intros H. apply RdProofs4.read_text_document. exact (parse_says _ _ H). Qed.
(* Responses: the one that relates to the request is given as the tree it says,
   a fault as what it says. *)
Theorem C68_response (S : Type) (send : S -> xml -> nat -> option Z -> reply * S) parse_text w uuid action uri resource options selectors timeout retries st id b txt x :
  let request := envelope w uuid action uri resource options selectors timeout in
  WsmanProofs.set_tags options -> WsmanProofs.set_tags selectors -> header_field request (addressing (lit "MessageID")) id ->
  fst (send st request retries (http_timeout timeout)) = RBody b -> utf8_decode b = Ok txt -> says txt x -> (forall n, announces txt n -> utf8_name n) -> relates_to x id ->
  fst (invoke send body_tree parse_text w uuid action uri resource options selectors timeout retries st) = IOk x.
Proof.
  intros request H1 H2 H3 E D S1 A R. apply (WsmanProofs2.accepts_iff (S := S) send body_tree parse_text w uuid action uri resource options selectors timeout retries st id H1 H2 H3).
  exists b. split; [exact E|]. split; [exact (body_read b txt x D S1 A)|exact R].
Qed.
Theorem C68_fault (S : Type) (send : S -> xml -> nat -> option Z -> reply * S) parse_body w uuid action uri resource options selectors timeout retries st code txt x f :
  fst (send st (envelope w uuid action uri resource options selectors timeout) retries (http_timeout timeout)) = RHttp code txt -> says txt x -> fault_said x f ->
  fst (invoke send parse_body xml_parse w uuid action uri resource options selectors timeout retries st) = IFault f.
Proof.
  intros E S1 F. apply (proj1 (WsmanProofs2.fault_iff (S := S) send parse_body xml_parse w uuid action uri resource options selectors timeout retries st)).
  exists code, txt, x. split; [exact E|]. split; [exact (parse_says txt x S1)|exact F].
Qed.

(* ---- a case: everything that may be spelled otherwise ---- *)
Definition nl : list N := [10%N].
Definition c_decl : list N := lit "<?xml version='1.0' encoding = ""UTF-8"" standalone=""yes"" ?>".
Definition c_before : list N := nl ++ lit "<!-- a - > comment -->" ++ lit "<?go on ?>".
Definition c_child : list N := lit "<c/>".
Definition c_inside : list N :=
  lit "t]]" ++ (lit "<![CDATA[" ++ lit "<]" ++ lit "]]>" ++ (lit "&lt;" ++ (lit "<!---->" ++ (lit "<?p?>" ++ lit "!")))).
Definition c_attrs : list N :=
  [32%N] ++ lit "xmlns:n" ++ [] ++ [61%N] ++ [] ++ [39%N] ++ lit "urn:x" ++ [39%N] ++
  ([32%N] ++ lit "n:k" ++ [32%N] ++ [61%N] ++ [10%N] ++ [39%N] ++ (120%N :: lit "&#x26;" ++ 34%N :: 9%N :: lit "&#9;") ++ [39%N] ++
  ([32%N] ++ lit "l" ++ [] ++ [61%N] ++ [] ++ [34%N] ++ [] ++ [34%N] ++ [])).
Definition c_sibling : list N := lit "<" ++ lit "n:a" ++ c_attrs ++ [32%N] ++ lit ">" ++ c_inside ++ lit "</" ++ lit "n:a" ++ lit "  " ++ lit ">".
Definition c_open : list N :=
  [32%N] ++ lit "xmlns:s" ++ [] ++ [61%N] ++ [] ++ [34%N] ++ lit "urn:x" ++ [34%N] ++
  ([32%N] ++ lit "xmlns" ++ [] ++ [61%N] ++ [] ++ [39%N] ++ lit "urn:y" ++ [39%N] ++ []).
Definition c_elem : list N := lit "<" ++ lit "s:E" ++ c_open ++ [] ++ lit ">" ++ (c_child ++ (lit "tail" ++ (c_sibling ++ []))) ++ lit "</" ++ lit "s:E" ++ [] ++ lit ">".
Definition case_text : list N := 65279%N :: c_decl ++ 13%N :: c_before ++ c_elem ++ nl.
Definition case_tree : xml :=
  Elem (lit "{urn:x}E") [] None
    [Elem (lit "{urn:y}c") [] None [];
     Elem (lit "{urn:x}a") [(lit "{urn:x}k", lit "x&"" " ++ [9%N]); (lit "l", [])] (Some (lit "t]]<]<!")) []].
Definition case_raw : xml :=
  Elem (lit "s:E") [(lit "xmlns:s", lit "urn:x"); (lit "xmlns", lit "urn:y")] None
    [Elem (lit "c") [] None [];
     Elem (lit "n:a") [(lit "xmlns:n", lit "urn:x"); (lit "n:k", lit "x&"" " ++ [9%N]); (lit "l", [])] (Some (lit "t]]<]<!")) []].
Example C68_computed : xml_parse case_text = Some case_tree.
Proof. vm_compute. reflexivity. Qed.
Ltac far := let H := fresh in intros ? H; cbv in H; discriminate H.
Ltac plain := apply co_char; [apply XtProofs.is_char_spec; reflexivity|discriminate|discriminate|far|].
Ltac letters := repeat (apply va_char; [apply XtProofs.is_char_spec; reflexivity|unfold space; lia|discriminate|discriminate|discriminate|]).
Ltac marked := first [left; reflexivity|right; reflexivity].
Ltac gapped := split; [apply blank_computed; reflexivity|discriminate].
Example case_inside : content c_inside (lit "t]]<]<!") [].
Proof.
  unfold c_inside. change (lit "t]]" ++ ?r) with (116%N :: 93%N :: 93%N :: r). do 3 plain.
  apply (co_cdata (lit "<]") _ [60%N; 33%N]); [apply chars_computed; reflexivity|apply within_computed; reflexivity|].
  apply co_ref; [apply re_lt|]. apply co_comment.
  { exists []. split; [reflexivity|]. split; [constructor|apply within_computed; reflexivity]. }
  apply co_instruction.
  { exists (lit "p"), []. split; [reflexivity|]. split; [apply ncname_computed; reflexivity|].
    split; [intros (? & ? & ? & E & _); discriminate E|]. split; [constructor|]. split; [left; reflexivity|apply within_computed; reflexivity]. }
  change (lit "!") with [33%N]. plain. constructor.
Qed.
Example case_attrs : attributed c_attrs [(lit "xmlns:n", lit "urn:x"); (lit "n:k", lit "x&"" " ++ [9%N]); (lit "l", [])].
Proof.
  unfold c_attrs. apply at_cons; [gapped|apply word_computed; reflexivity|apply blank_computed; reflexivity|apply blank_computed; reflexivity|marked|cbv; letters; constructor|].
  apply at_cons; [gapped|apply word_computed; reflexivity|apply blank_computed; reflexivity|apply blank_computed; reflexivity|marked| |].
  - apply (va_char _ 120); [apply XtProofs.is_char_spec; reflexivity|unfold space; lia|discriminate|discriminate|discriminate|].
    apply (va_ref _ (lit "&#x26;") 38). { apply (re_hex (lit "26") 38); [apply (nu_more 16 [50%N] 2 54 6); [apply nu_one|]; unfold digit_of; lia|apply XtProofs.is_char_spec; reflexivity]. }
    apply (va_char _ 34); [apply XtProofs.is_char_spec; reflexivity|unfold space; lia|discriminate|discriminate|discriminate|].
    apply va_space; [unfold space; lia|]. rewrite <- (app_nil_r (lit "&#9;")).
    apply va_ref; [|constructor]. apply (re_dec (lit "9") 9); [apply (nu_one 10 57 9); unfold digit_of; lia|apply XtProofs.is_char_spec; reflexivity].
  - apply at_cons; [gapped|apply word_computed; reflexivity|apply blank_computed; reflexivity|apply blank_computed; reflexivity|marked|constructor|constructor].
Qed.
Example case_element : element c_elem case_raw.
Proof.
  unfold c_elem, case_raw. apply (el_full (lit "s:E") c_open [(lit "xmlns:s", lit "urn:x"); (lit "xmlns", lit "urn:y")] [] _ []).
  - apply word_computed. reflexivity.
  - unfold c_open. apply at_cons; [gapped|apply word_computed; reflexivity|apply blank_computed; reflexivity|apply blank_computed; reflexivity|marked|cbv; letters; constructor|].
    apply at_cons; [gapped|apply word_computed; reflexivity|apply blank_computed; reflexivity|apply blank_computed; reflexivity|marked|cbv; letters; constructor|constructor].
  - constructor; [intros [E|[]]; discriminate E|]. constructor; [intros []|constructor].
  - apply blank_computed. reflexivity.
  - apply (co_child _ _ _ (lit "tail")).
    + apply (el_empty (lit "c") [] [] []); [apply word_computed; reflexivity|constructor|constructor|apply blank_computed; reflexivity].
    + change (lit "tail" ++ ?r) with (116%N :: 97%N :: 105%N :: 108%N :: r). change (lit "tail") with (116%N :: 97%N :: 105%N :: 108%N :: []). do 4 plain.
      apply (co_child _ _ _ []); [|constructor].
      apply (el_full (lit "n:a") c_attrs _ [32%N] c_inside (lit "t]]<]<!") []); [apply word_computed; reflexivity|exact case_attrs| |apply blank_computed; reflexivity|exact case_inside|apply blank_computed; reflexivity].
      cbn [map fst]. constructor; [intros [E|[E|[]]]; discriminate E|]. constructor; [intros [E|[]]; discriminate E|]. constructor; [intros []|constructor].
  - apply blank_computed. reflexivity.
Qed.
Definition only (p : list N) : option (list N) := if str_eqb p (lit "xml") then Some xml_space else None.
Definition outer (p : list N) : option (list N) := if str_eqb p (lit "s") then Some (lit "urn:x") else if str_eqb p [] then Some (lit "urn:y") else only p.
Definition nested (p : list N) : option (list N) := if str_eqb p (lit "n") then Some (lit "urn:x") else outer p.
Ltac lawfully := split; [split; [cbv; intuition discriminate|]; split; [discriminate|]; split; [split; discriminate|discriminate]|].
Example case_means : means only case_raw case_tree.
Proof.
  unfold case_raw, case_tree. apply (me_elem only outer) with (r := []).
  - intros k u p [E|[E|[]]] D; apply pair_inj in E; destruct E as [<- <-].
    + destruct D as [[E _]|E]; [discriminate E|]. cbv in E. repeat (apply cons_inj in E; destruct E as [_ E]). subst p.
      lawfully. split; [right; split; [apply ncname_computed; reflexivity|discriminate]|reflexivity].
    + destruct D as [[_ ->]|E]; [|discriminate E]. lawfully. split; [left; reflexivity|reflexivity].
  - intros p H. unfold outer. destruct (str_eqb p (lit "s")) eqn:E; [apply str_eqb_spec in E; subst p|destruct (str_eqb p []) eqn:E2; [apply str_eqb_spec in E2; subst p|reflexivity]].
    + exfalso. apply (H (lit "xmlns:s") (lit "urn:x")); [left; reflexivity|right; reflexivity].
    + exfalso. apply (H (lit "xmlns") (lit "urn:y")); [right; left; reflexivity|left; split; reflexivity].
  - apply (na_prefixed outer false (lit "s") (lit "E") (lit "urn:x")); [apply ncname_computed; reflexivity|apply ncname_computed; reflexivity|reflexivity].
  - apply ot_declared with (p := lit "s"); [right; reflexivity|]. apply ot_declared with (p := []); [left; split; reflexivity|]. constructor.
  - constructor.
  - constructor.
  - constructor; [|constructor; [|constructor]].
    + apply (me_elem outer outer) with (r := []); [intros ? ? ? []|reflexivity| |constructor|constructor|constructor|constructor].
      apply (na_default outer (lit "c") (lit "urn:y")); [apply ncname_computed; reflexivity|reflexivity|discriminate].
    + apply (me_elem outer nested) with (r := [(lit "n:k", lit "x&"" " ++ [9%N]); (lit "l", [])]).
      * intros k u p [E|[E|[E|[]]]] D; apply pair_inj in E; destruct E as [<- <-].
        -- destruct D as [[E _]|E]; [discriminate E|]. cbv in E. repeat (apply cons_inj in E; destruct E as [_ E]). subst p.
           lawfully. split; [right; split; [apply ncname_computed; reflexivity|discriminate]|reflexivity].
        -- destruct D as [[E _]|E]; discriminate E.
        -- destruct D as [[E _]|E]; discriminate E.
      * intros p H. unfold nested. destruct (str_eqb p (lit "n")) eqn:E; [apply str_eqb_spec in E; subst p|reflexivity].
        exfalso. apply (H (lit "xmlns:n") (lit "urn:x")); [left; reflexivity|right; reflexivity].
      * apply (na_prefixed nested false (lit "n") (lit "a") (lit "urn:x")); [apply ncname_computed; reflexivity|apply ncname_computed; reflexivity|reflexivity].
      * apply ot_declared with (p := lit "n"); [right; reflexivity|].
        apply ot_kept; [intros p [[E _]|E]; discriminate E|]. apply ot_kept; [intros p [[E _]|E]; discriminate E|constructor].
      * constructor; [split; [|reflexivity]|constructor; [split; [|reflexivity]|constructor]].
        -- apply (na_prefixed nested true (lit "n") (lit "k") (lit "urn:x")); [apply ncname_computed; reflexivity|apply ncname_computed; reflexivity|reflexivity].
        -- apply na_attribute. apply ncname_computed. reflexivity.
      * cbn [map fst]. constructor; [intros [E|[]]; discriminate E|]. constructor; [intros []|constructor].
      * constructor.
Qed.
Example case_decl : declaration c_decl.
Proof.
  right. exists (lit " version='1.0'"), (lit " encoding = ""UTF-8"""), (lit " standalone=""yes"""), [32%N]. split; [reflexivity|]. split.
  { exists (lit "1.0"), [32%N], [], [], 39%N. split; [reflexivity|]. split; [gapped|]. split; [constructor|]. split; [constructor|]. split; [marked|apply sign_computed; reflexivity]. }
  split.
  { right. exists 85%N, (lit "TF-8"). split; [|unfold letter; lia]. exists [32%N], [32%N], [32%N], 34%N. split; [reflexivity|]. split; [gapped|].
    split; [apply blank_computed; reflexivity|]. split; [apply blank_computed; reflexivity|]. split; [marked|apply sign_computed; reflexivity]. }
  split; [|apply blank_computed; reflexivity]. right. left. exists [32%N], [], [], 34%N. split; [reflexivity|]. split; [gapped|]. split; [constructor|]. split; [constructor|]. split; [marked|apply sign_computed; reflexivity].
Qed.
Example C68_case : says case_text case_tree.
Proof.
  exists [65279%N], (c_decl ++ 13%N :: c_before ++ c_elem ++ nl), (c_decl ++ c_before ++ c_elem ++ nl), case_raw, only.
  split; [reflexivity|]. split; [right; reflexivity|].
  split. { match goal with |- line_fed ?s ?t => replace t with (eol s) by (vm_compute; reflexivity) end. apply XtProofs3.eol_fed. }
  split.
  { exists c_decl, c_before, c_elem, nl. split; [reflexivity|]. split; [exact case_decl|]. split.
    - unfold c_before. change (nl ++ ?r) with (10%N :: r). apply mi_space; [unfold space; lia|]. apply mi_comment.
      { exists (lit " a - > comment "). split; [reflexivity|]. split; [apply chars_computed; reflexivity|apply within_computed; reflexivity]. }
      rewrite <- (app_nil_r (lit "<?go on ?>")). apply mi_instruction; [|constructor].
      exists (lit "go"), (lit " on "). split; [reflexivity|]. split; [apply ncname_computed; reflexivity|]. split; [intros (? & ? & ? & E & _); discriminate E|].
      split; [apply chars_computed; reflexivity|]. split; [right; exists 32%N, (lit "on "); split; [reflexivity|unfold space; lia]|apply within_computed; reflexivity].
    - split; [exact case_element|]. apply mi_space; [unfold space; lia|constructor]. }
  split; [|exact case_means]. split; [reflexivity|]. intros p H. unfold only. destruct (str_eqb p (lit "xml")) eqn:E; [apply str_eqb_spec in E; subst p; contradiction|reflexivity].
Qed.
(* As bytes, it is read; a body that names another encoding is not what C68_body
   speaks of, and the one that names UTF-16 and is written in UTF-8 is refused. *)
Example C68_body_case : utf8_decode (239%N :: 187%N :: 191%N :: tl case_text) = Ok case_text /\
  body_tree (239%N :: 187%N :: 191%N :: tl case_text) = Some case_tree /\
  body_tree (lit "<?xml version=""1.0"" encoding=""UTF-16""?><a/>") = None.
Proof. split; [vm_compute; reflexivity|]. split; vm_compute; reflexivity. Qed.
(* What is not markup is refused. *)
Example C68_refused_cases : map xml_parse [lit "<a>]]></a>"; lit "<a><!-- -- --></a>"; lit "<a b='<'/>"; lit "<a><?xml ?></a>"; lit "<a></b>"; lit "<a/><b/>"; lit "<a>&nbsp;</a>";
  lit "<a b='1' b='2'/>"; lit "<p:a/>"; lit " <?xml version='1.0'?><a/>"] = repeat None 10.
Proof. vm_compute. reflexivity. Qed.
(* A response written with other prefixes, quotes and white space. *)
Definition c_envelope (id : list N) : list N :=
  lit "<?xml version='1.0'?><e:Envelope xmlns:e='http://www.w3.org/2003/05/soap-envelope'>" ++ nl ++ lit "<e:Header><RelatesTo xmlns=""http://schemas.xmlsoap.org/ws/2004/08/addressing"">" ++ id ++ lit "</RelatesTo></e:Header>" ++ nl ++ lit "<e:Body/></e:Envelope>".
Example C68_response_case :
  let w := {| w_session_id := lit "5e55"; w_locale := lit "en-US"; w_data_locale := lit "en-US"; w_endpoint := lit "http://h:5985/wsman"; w_max_envelope := 153600; w_operation_timeout := 20 |} in
  let tree := Elem (soap (lit "Envelope")) [] (Some nl) [Elem (soap (lit "Header")) [] None [Elem (addressing (lit "RelatesTo")) [] (Some (message_id (lit "0a"))) []]; Elem (soap (lit "Body")) [] None []] in
  relates_to tree (message_id (lit "0a")) /\
  fst (invoke (fun (st : unit) _ _ _ => (RBody (c_envelope (message_id (lit "0a"))), st)) body_tree xml_parse w (lit "0a") (lit "urn:act") (lit "urn:res") None None None None 0 tt) = IOk tree.
Proof.
  split; [|vm_compute; reflexivity]. exists (Elem (addressing (lit "RelatesTo")) [] (Some (message_id (lit "0a"))) []). split; [|reflexivity].
  exists [], (Elem (soap (lit "Header")) [] None [Elem (addressing (lit "RelatesTo")) [] (Some (message_id (lit "0a"))) []]), [Elem (soap (lit "Body")) [] None []].
  split; [reflexivity|]. split; [reflexivity|]. split.
  - exists [], (Elem (addressing (lit "RelatesTo")) [] (Some (message_id (lit "0a"))) []), []. split; [reflexivity|]. split; [reflexivity|]. split; [reflexivity|intros ? []].
  - intros ? [].
Qed.

Print Assumptions C68_read.
Print Assumptions C68_one_meaning.
Print Assumptions C68_body.
Print Assumptions C68_objects_partial.
Print Assumptions C68_response.
Print Assumptions C68_fault.
