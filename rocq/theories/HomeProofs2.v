(* Requests whose bodies have default namespaces in them. *)
From Verif Require Import Base BaseProofs Lit NumModel TextSpec TextModel Utf8Model XmlModel XtModel XtSpec XtProofs XtProofs3
  WsmanModel WsmanSpec ShellModel ShellSpec EnvModel EnvSpec EnvProofs EnvProofs2 HomeSpec HomeProofs.
Local Open Scope list_scope.

Lemma homed_writable x : homable x -> writable (homed x).
Proof.
  induction x as [t a txt kids IH] using xml_induction. intros H. apply homable_cases in H. destruct H as [(u & -> & -> & T & U & Ux & X)|(Xt & Da & Xa & Xs & Xk)].
  - cbn [homed]. rewrite str_eqb_refl. apply writable_elem; [right; exists u, t; auto|constructor|constructor|exact X|constructor].
  - rewrite homed_plain by (apply no_xmlns, Xa). apply writable_elem; [exact Xt|exact Da|exact Xa|exact Xs|].
    clear - IH Xk. induction kids as [|y l IHl]; cbn [map]; constructor.
    + apply (Forall_inv IH), (Forall_inv Xk).
    + apply IHl; [exact (Forall_inv_tail IH)|exact (Forall_inv_tail Xk)].
Qed.
Definition homes (body : option xml) : list xml := match body with Some x => [homed x] | None => [] end.
Theorem home_received w uuid a body : fit_wsman w -> fit uuid -> fit_asked a -> (forall x, body = Some x -> homable x) ->
  exists b, request_bytes w uuid (the_request a body) = Ok b /\
    received b (fun y => exists bd, asks w uuid a y bd /\ Forall2 XtSpec.arrives (homes body) (x_children bd)).
Proof.
  intros W U A B. destruct body as [x|]; [|exact (request_received w uuid a None W U A (fun x (H : None = Some x) => match H with end))].
  pose proof (B x eq_refl) as X.
  destruct (request_received w uuid a (Some (homed x)) W U A) as (b0 & E0 & K0 & s0 & y & D0 & P0 & Z).
  { intros z Hz. apply Some_inj in Hz. subst z. apply homed_writable, X. }
  pose proof A as (R & O & S). unfold request_bytes, the_request in *. cbn [q_op q_uri q_body q_options q_selectors q_timeout] in *.
  set (hd := create_header w uuid (op_action (a_op a)) (a_uri a) (sets option_set (a_options a)) (sets selector_set (a_selectors a)) (a_timeout a)) in *.
  assert (HW : writable hd) by (apply header_writable; auto; apply action_fit).
  set (env := Elem (qname ns_s (lit "Envelope")) [] None [hd; Elem (qname ns_s (lit "Body")) [] None [x]]).
  change (envelope w uuid (op_action (a_op a)) (a_uri a) (Some x) (sets option_set (a_options a)) (sets selector_set (a_selectors a)) (a_timeout a)) with env.
  assert (HE : homed env = envelope w uuid (op_action (a_op a)) (a_uri a) (Some (homed x)) (sets option_set (a_options a)) (sets selector_set (a_selectors a)) (a_timeout a)).
  { unfold env. cbn [homed map]. rewrite (homed_id hd HW). reflexivity. }
  assert (EW : rooted env).
  { split; [nm|]. split; [constructor|]. split; [constructor|]. split; [txt|]. constructor; [apply writable_homable, HW|]. constructor; [|constructor].
    apply rooted_homable. split; [nm|]. split; [constructor|]. split; [constructor|]. split; [txt|]. constructor; [exact X|constructor]. }
  assert (HW2 : writable (homed env)) by (apply homed_writable, rooted_homable, EW).
  destruct (rooted_same library_registry library_usable env EW HW2) as (b & s & b' & s' & y' & E & K & D & P & E' & D' & P').
  exists b. split; [exact E|]. split; [exact K|]. exists s, y'. split; [exact D|]. split; [exact P|].
  rewrite HE, E0 in E'. apply Ok_inj in E'. subst b'. rewrite D0 in D'. apply Ok_inj in D'. subst s'. rewrite P0 in P'. apply Some_inj in P'. subst y'. exact Z.
Qed.
(* a request that can be written, and is read as it is *)
Definition legible (q : sreq) : Prop :=
  exists oes ses, q_options q = option_map (built option_set) oes /\ q_selectors q = option_map (built selector_set) ses /\
  forall w uuid, fit_wsman w -> fit uuid -> exists b, request_bytes w uuid q = Ok b /\
    received b (fun y => exists bd,
      asks w uuid {| a_op := q_op q; a_uri := match q_uri q with Some u => u | None => [] end; a_options := oes; a_selectors := ses; a_timeout := q_timeout q |} y bd /\
      Forall2 XtSpec.arrives (homes (q_body q)) (x_children bd)).
Lemma legible_ok q oes ses : q_options q = sets option_set oes -> q_selectors q = sets selector_set ses -> fit_set oes -> fit_set ses ->
  fit_opt (q_uri q) -> (forall x, q_body q = Some x -> homable x) -> legible q.
Proof.
  intros O S FO FS U B. exists oes, ses. split; [exact O|]. split; [exact S|]. intros w uuid W I.
  assert (F : fit_asked {| a_op := q_op q; a_uri := match q_uri q with Some u => u | None => [] end; a_options := oes; a_selectors := ses; a_timeout := q_timeout q |}).
  { split; [cbn [a_uri]; destruct (q_uri q); [exact U|constructor]|]. split; assumption. }
  destruct (home_received w uuid _ (q_body q) W I F B) as (b & E & R). exists b. split; [|exact R].
  destruct q as [o u b0 op se t]. cbn [q_op q_uri q_body q_options q_selectors q_timeout] in *. subst op se. destruct u; exact E.
Qed.
