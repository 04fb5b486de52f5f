(* Further proofs about WSMan: identifiers, sets in the header, messages. *)
From Coq Require Import Lia ZifyBool ZifyNat ZifyN.
From Verif Require Import Base BaseProofs Lit NumModel NumProofs XmlModel TransModel TransSpec TransProofs5 WsmanModel WsmanSpec WsmanProofs.
Ltac Zify.zify_post_hook ::= Z.div_mod_to_equations.

Lemma upper_inj : forall s t, is_lower s -> is_lower t -> upper_text s = upper_text t -> s = t.
Proof.
  induction s as [|c s IH]; intros [|d t] Hs Ht E; try discriminate; [reflexivity|].
  cbn [upper_text map] in E. apply cons_inj in E. destruct E as [E1 E2].
  f_equal; [|apply IH; [exact (Forall_inv_tail Hs)|exact (Forall_inv_tail Ht)|exact E2]].
  assert (Hc := Forall_inv Hs). assert (Hd := Forall_inv Ht). cbn beta in Hc, Hd. unfold upper_ascii in E1.
  destruct (N.leb_spec 97 c), (N.leb_spec c 122), (N.leb_spec 97 d), (N.leb_spec d 122); cbn [andb] in E1; lia.
Qed.

Lemma message_id_inj u v : is_lower u -> is_lower v -> message_id u = message_id v -> u = v.
Proof. unfold message_id. intros Hu Hv E. apply app_inv_head in E. now apply upper_inj. Qed.

Lemma header_field_fun request tag t t' : header_field request tag t -> header_field request tag t' -> t = t'.
Proof.
  intros (h & b & c & a & H1 & H2 & H3 & H4 & H5) (h' & b' & c' & a' & H1' & H2' & H3' & H4' & H5').
  assert (h = h') by (eapply first_at_unique; eassumption). subst h'.
  assert (I : In c' (b ++ c :: a)) by (rewrite <- H2, H2'; apply in_or_app; right; now left).
  apply in_app_or in I. destruct I as [I|[<-|I]]; [|congruence|].
  - exfalso. apply (H5 c'); [apply in_or_app; now left|exact H3'].
  - exfalso. apply (H5 c'); [apply in_or_app; now right|exact H3'].
Qed.

Lemma relates_fun x i j : relates_to x i -> relates_to x j -> i = j.
Proof.
  intros (y & L & E) (y' & L' & E'). assert (y = y') by (eapply first_at_unique; eassumption). subst y'. congruence.
Qed.

Lemma field_id w uuid action uri resource options selectors timeout id :
  set_tags options -> set_tags selectors ->
  header_field (envelope w uuid action uri resource options selectors timeout) (addressing (lit "MessageID")) id ->
  id = message_id uuid.
Proof.
  intros Ho Hs H. destruct (header_fields w uuid action uri resource options selectors timeout Ho Hs) as (_ & _ & H' & _).
  eapply header_field_fun; eassumption.
Qed.

Section Invoke.
  Context {S : Type} (send : S -> xml -> nat -> option Z -> reply * S).
  Context (parse_body : list N -> option xml) (parse_text : list N -> option xml).
  Context (w : wsman) (uuid action uri : list N) (resource : option xml) (options selectors : option wset).
  Context (timeout : option Z) (retries : nat) (st : S) (id : list N).
  Let request := envelope w uuid action uri resource options selectors timeout.
  Let answer := fst (send st request retries (http_timeout timeout)).
  Let result := fst (invoke send parse_body parse_text w uuid action uri resource options selectors timeout retries st).
  Context (Ho : set_tags options) (Hs : set_tags selectors).
  Context (Hid : header_field request (addressing (lit "MessageID")) id).

  Lemma accepts_iff x : result = IOk x <-> exists b, answer = RBody b /\ parse_body b = Some x /\ relates_to x id.
  Proof.
    assert (E := field_id _ _ _ _ _ _ _ _ _ Ho Hs Hid).
    destruct (invoke_cases send parse_body parse_text w uuid action uri resource options selectors timeout retries st) as [_ C].
    cbv zeta in C. fold request in C. fold answer in C. fold result in C.
    split.
    - intros R. rewrite R in C. destruct answer as [b|code text|e].
      + exists b. split; [reflexivity|]. destruct (parse_body b) as [y|]; [|discriminate].
        destruct C as [[H X]|[_ X]]; [|discriminate]. rewrite E. assert (x = y) by congruence. subst y. auto.
      + destruct (parse_text text); [destruct C as (f & _ & X)|]; discriminate.
      + discriminate.
    - intros (b & A & P & R). rewrite A, P in C. rewrite E in R. destruct C as [[_ X]|[X _]]; [exact X|contradiction].
  Qed.

  Lemma rejects b x : answer = RBody b -> parse_body b = Some x -> ~ relates_to x id -> result = IExn WinRMError.
  Proof.
    intros A P R. assert (E := field_id _ _ _ _ _ _ _ _ _ Ho Hs Hid).
    destruct (invoke_cases send parse_body parse_text w uuid action uri resource options selectors timeout retries st) as [_ C].
    cbv zeta in C. fold request in C. fold answer in C. fold result in C. rewrite A, P in C. rewrite E in R.
    destruct C as [[X _]|[_ X]]; [contradiction|exact X].
  Qed.
End Invoke.

Lemma fault_iff {S} (send : S -> xml -> nat -> option Z -> reply * S) parse_body parse_text
    w uuid action uri resource options selectors timeout retries st :
  let answer := fst (send st (envelope w uuid action uri resource options selectors timeout) retries (http_timeout timeout)) in
  let result := fst (invoke send parse_body parse_text w uuid action uri resource options selectors timeout retries st) in
  (forall f, result = IFault f <-> exists code text x, answer = RHttp code text /\ parse_text text = Some x /\ fault_said x f) /\
  (forall code text, result = IHttp code text <-> answer = RHttp code text /\ parse_text text = None) /\
  (forall e, answer = RExn e -> result = IExn e).
Proof.
  intros answer result.
  destruct (invoke_cases send parse_body parse_text w uuid action uri resource options selectors timeout retries st) as [_ C].
  cbv zeta in C. fold answer in C. fold result in C. clearbody answer result.
  split; [|split].
  - intros f. split.
    + intros ->. destruct answer as [b|code text|e]; [|..].
      * destruct (parse_body b); [destruct C as [[_ X]|[_ X]]|]; discriminate.
      * exists code, text. destruct (parse_text text) as [x|]; [|discriminate]. destruct C as (f' & F & X).
        exists x. assert (f = f') by congruence. subst f'. auto.
      * discriminate.
    + intros (code & text & x & -> & E & F). rewrite E in C. destruct C as (f' & F' & ->).
      now rewrite (fault_said_fun x f f' F F').
  - intros code text. split.
    + intros ->. destruct answer as [b|code' text'|e]; [|..].
      * destruct (parse_body b); [destruct C as [[_ X]|[_ X]]|]; discriminate.
      * destruct (parse_text text') as [x|] eqn:E; [destruct C as (f' & F & X); discriminate|].
        assert (X : code = code' /\ text = text') by (split; congruence). destruct X as [<- <-]. auto.
      * discriminate.
    + intros (-> & E). now rewrite E in C.
  - intros e ->. exact C.
Qed.

(* one operation over the transport: the trace accumulates the events *)
Definition over_transport {W} wrap unwrap (net : nat -> @answer W) (t : transport) (tostring : xml -> list N)
    (st : @tstate W * list (@event W)) (request : xml) (retries : nat) (timeout : option Z) :=
  let '(r, st', tr) := send wrap unwrap net t (tostring request) retries (fst st) in (r, (st', snd st ++ tr)).

Lemma count_app {W} (p : @event W -> bool) (l m : list (@event W)) : count p (l ++ m) = count p l + count p m.
Proof. induction l as [|e l IH]; cbn [app count]; [reflexivity|]. rewrite IH. lia. Qed.

Lemma op_once {W} wrap unwrap (net : nat -> @answer W) t tostring parse_body parse_text w o uuid uri resource options selectors timeout st tr r st' tr' :
  run_op (over_transport wrap unwrap net t tostring) parse_body parse_text w o uuid uri resource options selectors timeout (st, tr) = (r, (st', tr')) ->
  count post_event tr' <= count post_event tr + (match o with OpReceive => 6 | _ => 1 end).
Proof.
  unfold run_op, invoke, over_transport. cbn [fst snd].
  destruct (send wrap unwrap net t _ (op_retries o) st) as [[r0 st0] tr0] eqn:E.
  apply send_bounded in E. destruct E as [E _].
  intros H. assert (X : tr' = tr ++ tr0) by congruence. subst tr'. rewrite count_app.
  destruct o; cbn [op_retries] in E; lia.
Qed.

(* ---- sets in the header ---- *)
Lemma header_only w uuid action uri resource options selectors timeout path y :
  reaches (soap (lit "Header") :: path) (envelope w uuid action uri resource options selectors timeout) y <->
  reaches path (create_header w uuid action uri options selectors timeout) y.
Proof.
  cbn [reaches]. split.
  - intros (c & [<-|[<-|[]]] & E & R); [exact R|]. exfalso. revert E. vm_compute. discriminate.
  - intros R. exists (create_header w uuid action uri options selectors timeout). split; [now left|]. split; [reflexivity|exact R].
Qed.

Lemma header_set w uuid action uri resource options selectors timeout tag y :
  (forall c, In c (firstn 10 (x_children (create_header w uuid action uri options selectors timeout))) -> x_tag c <> tag) ->
  (reaches [soap (lit "Header"); tag] (envelope w uuid action uri resource options selectors timeout) y <->
  (exists s, (options = Some s \/ selectors = Some s) /\ qname ns_wsman (ws_element s) = tag /\ y = pack_set s)).
Proof.
  intros HN. rewrite header_only. cbn [reaches].
  assert (X : x_children (create_header w uuid action uri options selectors timeout) =
    firstn 10 (x_children (create_header w uuid action uri options selectors timeout)) ++
    match options with Some s => [pack_set s] | None => [] end ++ match selectors with Some s => [pack_set s] | None => [] end) by reflexivity.
  set (hd := create_header _ _ _ _ _ _ _) in *. set (fx := firstn 10 (x_children hd)) in *. clearbody fx.
  split.
  - intros (c & I & E & ->). rewrite X in I. apply in_app_or in I. destruct I as [I|I]; [now contradiction (HN y I)|].
    apply in_app_or in I. destruct I as [I|I].
    + destruct options as [s|]; [|contradiction]. destruct I as [<-|[]]. exists s. auto.
    + destruct selectors as [s|]; [|contradiction]. destruct I as [<-|[]]. exists s. auto.
  - intros (s & H & E & ->). exists (pack_set s). split; [|split; [exact E|reflexivity]]. rewrite X. apply in_or_app. right.
    apply in_or_app. destruct H as [-> | ->]; [left|right]; now left.
Qed.

Lemma fixed_tags w uuid action uri options selectors timeout name :
  name = lit "OptionSet" \/ name = lit "SelectorSet" ->
  forall c, In c (firstn 10 (x_children (create_header w uuid action uri options selectors timeout))) -> x_tag c <> dmtf name.
Proof.
  intros Hn c I E. cbn [create_header x_children app firstn In] in I.
  destruct Hn as [-> | ->];
  repeat (destruct I as [<-|I]; [revert E; vm_compute; discriminate|]); exact I.
Qed.

Lemma built_fields s es : ws_values (built s es) = ws_values s ++ es /\ ws_element (built s es) = ws_element s /\
  ws_child (built s es) = ws_child s /\ ws_must (built s es) = ws_must s.
Proof. apply add_options_values. Qed.

Lemma pack_carries s es : ws_values s = [] -> Forall2 (carries (dmtf (ws_child s))) es (x_children (pack_set (built s es))).
Proof.
  intros E. destruct (built_fields s es) as (V & _ & C & _). rewrite E in V. cbn [app] in V.
  assert (P := pack_children (built s es)). rewrite V, C in P. clear V C.
  induction P as [|e c es0 cs0 (H1 & H2 & H3 & H4 & H5) P IH]; constructor.
  - split; [exact H1|]. split; [exact H2|]. split; [exact H3|]. destruct c. split; [exact H4|exact H5].
  - exact IH.
Qed.

Lemma sole_option_set w uuid action uri resource es selectors timeout :
  (selectors = None \/ exists es', selectors = Some (built selector_set es')) ->
  let request := envelope w uuid action uri resource (Some (built option_set es)) selectors timeout in
  exists y, sole_in_header request (dmtf (lit "OptionSet")) y /\ attr (soap (lit "mustUnderstand")) (Some y) = Some (lit "true") /\
    Forall2 (carries (dmtf (lit "Option"))) es (x_children y).
Proof.
  intros Hs request. exists (pack_set (built option_set es)). split; [|split].
  - intros z. unfold request. rewrite header_set by (apply fixed_tags; now left). split.
    + intros (s & [H|H] & E & ->).
      * assert (s = built option_set es) by congruence. now subst s.
      * destruct Hs as [-> |(es' & ->)]; [discriminate|]. assert (s = built selector_set es') by congruence. subst s.
        rewrite (proj1 (proj2 (built_fields selector_set es'))) in E. exfalso. revert E. vm_compute. discriminate.
    + intros ->. exists (built option_set es). split; [now left|]. split; [|reflexivity].
      now rewrite (proj1 (proj2 (built_fields option_set es))).
  - unfold pack_set. cbn [attr]. rewrite (proj2 (proj2 (proj2 (built_fields option_set es)))). reflexivity.
  - exact (pack_carries option_set es eq_refl).
Qed.

Lemma sole_selector_set w uuid action uri resource es options timeout :
  (options = None \/ exists es', options = Some (built option_set es')) ->
  let request := envelope w uuid action uri resource options (Some (built selector_set es)) timeout in
  exists y, sole_in_header request (dmtf (lit "SelectorSet")) y /\ attr (soap (lit "mustUnderstand")) (Some y) = None /\
    Forall2 (carries (dmtf (lit "Selector"))) es (x_children y).
Proof.
  intros Hs request. exists (pack_set (built selector_set es)). split; [|split].
  - intros z. unfold request. rewrite header_set by (apply fixed_tags; now right). split.
    + intros (s & [H|H] & E & ->).
      * destruct Hs as [-> |(es' & ->)]; [discriminate|]. assert (s = built option_set es') by congruence. subst s.
        rewrite (proj1 (proj2 (built_fields option_set es'))) in E. exfalso. revert E. vm_compute. discriminate.
      * assert (s = built selector_set es) by congruence. now subst s.
    + intros ->. exists (built selector_set es). split; [now right|]. split; [|reflexivity].
      now rewrite (proj1 (proj2 (built_fields selector_set es))).
  - unfold pack_set. cbn [attr]. rewrite (proj2 (proj2 (proj2 (built_fields selector_set es)))). reflexivity.
  - exact (pack_carries selector_set es eq_refl).
Qed.

Lemma no_sets w uuid action uri resource timeout name :
  name = lit "OptionSet" \/ name = lit "SelectorSet" -> forall z,
  ~ reaches [soap (lit "Header"); dmtf name] (envelope w uuid action uri resource None None timeout) z.
Proof.
  intros Hn z H. rewrite header_set in H by (now apply fixed_tags). destruct H as (s & [H|H] & _); discriminate.
Qed.

(* ---- messages ---- *)
Lemma message_details f : f_code f <> CInt 0 ->
  exists c m r p q v, supplied (lit "Code: ") (shown_code (f_code f)) c /\ supplied (lit "Machine: ") (f_machine f) m /\
    supplied (lit "Reason: ") (f_reason f) r /\ supplied (lit "Provider: ") (f_provider f) p /\
    supplied (lit "Provider Path: ") (f_path f) q /\ supplied (lit "Provider Fault: ") (f_pfault f) v /\
    fault_message f = lit "Received a WSManFault message. (" ++
      match c ++ m ++ r ++ p ++ q ++ v with
      | [] => lit "No details returned by the server"
      | ds => join (lit ", ") ds
      end ++ lit ")".
Proof.
  intros HZ. exists (detail (lit "Code: ") (code_text (f_code f))), (detail (lit "Machine: ") (f_machine f)),
    (detail (lit "Reason: ") (f_reason f)), (detail (lit "Provider: ") (f_provider f)),
    (detail (lit "Provider Path: ") (f_path f)), (detail (lit "Provider Fault: ") (f_pfault f)).
  split.
  - destruct (f_code f) as [|[|c s]|z]; try reflexivity. cbn [code_text shown_code].
    destruct (Z.eqb_spec z 0) as [-> |Hz]; [contradiction|]. apply detail_supplied.
  - do 5 (split; [apply detail_supplied|]). unfold fault_message.
    change (fault_details f) with (detail (lit "Code: ") (code_text (f_code f)) ++ detail (lit "Machine: ") (f_machine f) ++
      detail (lit "Reason: ") (f_reason f) ++ detail (lit "Provider: ") (f_provider f) ++
      detail (lit "Provider Path: ") (f_path f) ++ detail (lit "Provider Fault: ") (f_pfault f)).
    match goal with |- context [match ?l with [] => [_] | _ => _ end] => destruct l end; reflexivity.
Qed.

Lemma config_says body y z : first_at [lit "{http://schemas.microsoft.com/wbem/wsman/1/config}Config"; lit "{http://schemas.microsoft.com/wbem/wsman/1/config}MaxEnvelopeSizekb"] body y ->
  x_text y = Some (py_str z) -> config_size body = Ok (z * 1024)%Z.
Proof.
  intros F E. unfold config_size.
  assert (X : find_first [qname ns_cfg (lit "Config"); qname ns_cfg (lit "MaxEnvelopeSizekb")] body = Some y)
    by (apply find_first_iff; exact F).
  rewrite X, E. destruct (py_str_nonempty z) as (c & s & Es). rewrite Es. cbn [nonempty_text]. rewrite <- Es, py_int_str. reflexivity.
Qed.

(* the request and the HTTP timeout that invoke hands to the transport *)
Lemma invoke_waits parse_body parse_text w uuid action uri resource options selectors timeout retries answer st read_timeout z :
  set_tags options -> set_tags selectors ->
  (match timeout with Some t => t = z /\ (0 < t)%Z | None => w_operation_timeout w = z /\ (z < read_timeout)%Z end) ->
  exists request t,
    snd (invoke (fun (_ : option (xml * option Z)) request (_ : nat) t => (answer, Some (request, t))) parse_body parse_text
           w uuid action uri resource options selectors timeout retries st) = Some (request, t) /\
    header_field request (dmtf (lit "OperationTimeout")) (lit "PT" ++ py_str z ++ lit "S") /\
    (z < read_wait t read_timeout)%Z.
Proof.
  intros So Ss T. exists (envelope w uuid action uri resource options selectors timeout), (http_timeout timeout).
  assert (Z0 : or_default timeout (w_operation_timeout w) = z).
  { destruct timeout as [t|]; destruct T as [T1 T2]; cbn [or_default]; [|exact T1]. replace (Z.eqb t 0) with false by lia. exact T1. }
  split; [|split].
  - unfold invoke. destruct answer; cbn; repeat match goal with |- context [match ?x with _ => _ end] => destruct x end; reflexivity.
  - rewrite <- Z0. pose proof (header_fields w uuid action uri resource options selectors timeout So Ss) as H. cbv zeta in H. intuition.
  - destruct timeout as [t|]; destruct T as [T1 T2]; cbn [http_timeout read_wait]; [|lia]. replace (Z.eqb t 0) with false by lia. cbn [read_wait]. lia.
Qed.

(* ---- the methods ---- *)
Lemma method_request {S} (send : S -> xml -> nat -> option Z -> reply * S) parse_body parse_text w o uuid uri resource options selectors timeout st :
  set_tags options -> set_tags selectors ->
  exists request, header_field request (addressing (lit "Action")) (standard_action o) /\
    header_field request (dmtf (lit "ResourceURI")) uri /\
    (exists body, first_at [soap (lit "Body")] request body /\ x_children body = match resource with Some r => [r] | None => [] end) /\
    snd (run_op send parse_body parse_text w o uuid uri resource options selectors timeout st)
    = snd (send st request (op_retries o) (http_timeout timeout)) /\
    (forall b, fst (run_op send parse_body parse_text w o uuid uri resource options selectors timeout st) = WBody b ->
       exists text x, fst (send st request (op_retries o) (http_timeout timeout)) = RBody text /\ parse_body text = Some x /\
         relates_to x (message_id uuid) /\ lookup [soap (lit "Body")] x b).
Proof.
  intros To Ts. exists (envelope w uuid (op_action o) uri resource options selectors timeout).
  pose proof (header_fields w uuid (op_action o) uri resource options selectors timeout To Ts) as F. cbv zeta in F.
  assert (A : op_action o = standard_action o) by (destruct o; vm_compute; reflexivity).
  split; [rewrite <- A; exact (proj1 F)|]. split; [exact (proj1 (proj2 (proj2 (proj2 (proj2 F)))))|].
  split.
  { eexists. split; [|]. 
    - cbn [first_at]. eexists [_], _, []. split; [reflexivity|]. split; [reflexivity|]. split; [reflexivity|].
      intros c' [<-|[]] E. exfalso. apply (f_equal (firstn 43)) in E. revert E. vm_compute. discriminate.
    - reflexivity. }
  split.
  - unfold run_op, invoke. destruct (send st _ _ _) as [r st']. reflexivity.
  - intros b H. assert (X : exists x, fst (invoke send parse_body parse_text w uuid (op_action o) uri resource options selectors timeout (op_retries o) st) = IOk x /\ b = find_first [qname ns_s (lit "Body")] x).
    { unfold run_op in H. destruct (invoke _ _ _ _ _ _ _ _ _ _ _ _ _) as [r st']. cbn [fst] in *. destruct r; try discriminate H. exists x. split; [reflexivity|]. congruence. }
    destruct X as (x & E & ->). 
    pose proof (@accepts_iff _ send parse_body parse_text w uuid (op_action o) uri resource options selectors timeout (op_retries o) st (message_id uuid) To Ts (proj1 (proj2 (proj2 F))) x) as Q.
    apply Q in E. destruct E as (text & E1 & E2 & E3). exists text, x. split; [exact E1|]. split; [exact E2|]. split; [exact E3|]. 
    exact (find_first_lookup [soap (lit "Body")] x).
Qed.
