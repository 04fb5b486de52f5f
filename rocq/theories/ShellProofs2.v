(* Proofs about processes. *)
From Coq Require Import Lia ZifyBool ZifyNat ZifyN.
From Verif Require Import Base BaseProofs Lit NumModel NumProofs TextModel TextProofs XmlModel WsmanModel WsmanSpec WsmanProofs ShellModel ShellSpec ShellProofs.

Lemma f2_length {A B} (P : A -> B -> Prop) l m : Forall2 P l m -> length l = length m.
Proof. induction 1; cbn [length]; congruence. Qed.

Definition std_buffer (o e : bytes) : list (list N * list N) := [(lit "stdout", o); (lit "stderr", e)].
Definition chunks_on (name : list N) (cs : list (list N * list N)) : bytes :=
  concat (map snd (filter (fun c => str_eqb (fst c) name) cs)).

Lemma add_streams_chunked ss cs : chunked ss cs -> forall o e r, add_streams ss (std_buffer o e) = Ok r ->
  r = std_buffer (o ++ chunks_on (lit "stdout") cs) (e ++ chunks_on (lit "stderr") cs).
Proof.
  unfold chunks_on. induction 1 as [|s ss cs T C IH|s ss n d cs B T A C IH]; intros o e r; cbn [add_streams filter map concat].
  - intros H. apply Ok_inj in H. now rewrite !app_nil_r.
  - rewrite (text_text s), T. apply IH.
  - rewrite (text_text s), T. rewrite b64_roundtrip by exact B. cbn [bind]. rewrite (attr_attr _ s), A.
    intros H. cbn [fst]. unfold std_buffer in H. cbn [dict_get] in H.
    destruct (str_eqb n (lit "stdout")) eqn:E1.
    + apply str_eqb_spec in E1. subst n. cbn [dict_set] in H. rewrite str_eqb_refl in H. fold (std_buffer (o ++ d) e) in H.
      apply IH in H. subst r. 
      assert (X : str_eqb (lit "stdout") (lit "stderr") = false) by reflexivity. rewrite X.
      cbn [map concat snd]. now rewrite <- app_assoc.
    + destruct (str_eqb n (lit "stderr")) eqn:E2; [|discriminate].
      apply str_eqb_spec in E2. subst n. cbn [dict_set] in H. rewrite E1, str_eqb_refl in H. fold (std_buffer o (e ++ d)) in H.
      apply IH in H. subst r. cbn [map concat snd]. now rewrite <- app_assoc.
Qed.

Lemma add_streams_total ss cs : chunked ss cs -> Forall (fun c => fst c = lit "stdout" \/ fst c = lit "stderr") cs ->
  forall o e, exists r, add_streams ss (std_buffer o e) = Ok r.
Proof.
  induction 1 as [|s ss cs T C IH|s ss n d cs B T A C IH]; intros F o e; cbn [add_streams].
  - eauto.
  - rewrite (text_text s), T. now apply IH.
  - rewrite (text_text s), T, b64_roundtrip by exact B. cbn [bind]. rewrite (attr_attr _ s), A.
    assert (Fn := Forall_inv F). assert (Ft := Forall_inv_tail F). cbn [fst] in Fn. unfold std_buffer. cbn [dict_get].
    destruct Fn as [-> | ->].
    + rewrite str_eqb_refl. cbn [dict_set]. rewrite str_eqb_refl. apply IH. exact Ft.
    + assert (X : str_eqb (lit "stderr") (lit "stdout") = false) by reflexivity. rewrite X, str_eqb_refl. cbn [dict_set].
      rewrite X, str_eqb_refl. apply IH. exact Ft.
Qed.

Lemma initial_buffer : fold_left (fun d n => dict_set str_eqb n [] d) (split_space [] (lit "stdout stderr")) [] = std_buffer [] [].
Proof. reflexivity. Qed.

Definition state_or_pending (t : option (list N)) : list N := match t with Some t => t | None => cs_pending end.

Lemma parse_said r state rc cs v b : says r (Said state rc cs) -> r = WBody b -> parse_receive (lit "stdout stderr") b = Ok v ->
  v = (state_or_pending state, rc, std_buffer (chunks_on (lit "stdout") cs) (chunks_on (lit "stderr") cs)).
Proof.
  intros (b0 & st & ec & -> & L1 & L2 & S1 & S2 & R1 & R2 & C) E. assert (b = Some b0) by congruence. subst b. clear E.
  unfold parse_receive. rewrite initial_buffer.
  assert (X1 : find_first [rsp (lit "ReceiveResponse"); rsp (lit "CommandState")] b0 = st) by (apply find_first_iff; exact L1).
  assert (X2 : find_first [rsp (lit "ReceiveResponse"); rsp (lit "CommandState"); rsp (lit "ExitCode")] b0 = ec) by (apply find_first_iff; exact L2).
  rewrite X1, X2. intros H. apply bind_ok in H. destruct H as (sv & Hs & H). apply bind_ok in H. destruct H as (rv & Hr & H).
  apply bind_ok in H. destruct H as (bv & Hb & H). apply Ok_inj in H. subst v.
  assert (sv = state_or_pending state).
  { destruct st as [e|].
    - destruct (S1 e eq_refl) as [N A]. rewrite (attr_attr _ e), A in Hs. destruct state; [|contradiction]. now apply Ok_inj in Hs.
    - rewrite (S2 eq_refl). now apply Ok_inj in Hs. }
  assert (rv = rc).
  { destruct rc as [z|].
    - destruct (R1 z eq_refl) as [N A]. destruct ec as [e|]; [|contradiction]. rewrite (text_text e), A in Hr.
      destruct (py_str_nonempty z) as (c0 & s0 & Es). rewrite Es in Hr. cbn [nonempty_text] in Hr. rewrite <- Es, py_int_str in Hr.
      now apply Ok_inj in Hr.
    - rewrite (R2 eq_refl) in Hr. now apply Ok_inj in Hr. }
  assert (Eb := add_streams_chunked _ _ C [] [] bv Hb). subst. reflexivity.
Qed.

Lemma parse_total r state rc cs b : says r (Said state rc cs) -> r = WBody b -> std_only (Said state rc cs) ->
  exists v, parse_receive (lit "stdout stderr") b = Ok v.
Proof.
  intros (b0 & st & ec & -> & L1 & L2 & S1 & S2 & R1 & R2 & C) E F. assert (b = Some b0) by congruence. subst b. clear E.
  unfold parse_receive. rewrite initial_buffer.
  assert (X1 : find_first [rsp (lit "ReceiveResponse"); rsp (lit "CommandState")] b0 = st) by (apply find_first_iff; exact L1).
  assert (X2 : find_first [rsp (lit "ReceiveResponse"); rsp (lit "CommandState"); rsp (lit "ExitCode")] b0 = ec) by (apply find_first_iff; exact L2).
  rewrite X1, X2.
  assert (A1 : exists sv, match st with Some e => match attr_get (lit "State") e with Some t => Ok t | None => Err KeyError end | None => Ok cs_pending end = Ok sv).
  { destruct st as [e|]; [|eauto]. destruct (S1 e eq_refl) as [N A]. rewrite (attr_attr _ e), A. destruct state; [eauto|contradiction]. }
  destruct A1 as (sv & ->). cbn [bind].
  assert (A2 : exists rv, match ec with Some e => do z <- py_int match nonempty_text (x_text e) with Some t => t | None => lit "0" end; Ok (Some z) | None => Ok None end = Ok rv).
  { destruct rc as [z|].
    - destruct (R1 z eq_refl) as [N A]. destruct ec as [e|]; [|contradiction]. rewrite (text_text e), A.
      destruct (py_str_nonempty z) as (c0 & s0 & Es). rewrite Es. cbn [nonempty_text]. rewrite <- Es, py_int_str. cbn [bind]. eauto.
    - rewrite (R2 eq_refl). eauto. }
  destruct A2 as (rv & ->). cbn [bind].
  destruct (add_streams_total _ _ C F [] []) as (bv & Hb).
  change (find_all [rsp (lit "ReceiveResponse"); rsp (lit "Stream")] b0) with (find_all [rshell (lit "ReceiveResponse"); rshell (lit "Stream")] b0).
  rewrite Hb. cbn [bind]. eauto.
Qed.

Section Server.
  Context (srv : history -> sreq -> wresult).

  (* the process after an answer *)
  Definition after (m : said) (p : process) : process :=
    match m with
    | SaidNothing => p
    | Said state rc cs =>
        {| pr_id := pr_id p; pr_no_shell := pr_no_shell p; pr_executable := pr_executable p; pr_arguments := pr_arguments p;
           pr_state := state_or_pending state; pr_rc := rc;
           pr_stdout := pr_stdout p ++ chunks_on (lit "stdout") cs; pr_stderr := pr_stderr p ++ chunks_on (lit "stderr") cs |}
    end.

  Lemma poll_history s p h : snd (process_poll srv None s p h) = h ++ [(poll_of s p, srv h (poll_of s p))].
  Proof.
    unfold process_poll, shell_receive, call. change (request OpReceive s _ _ None) with (poll_of s p).
    destruct (srv h (poll_of s p)) as [b|f|c t|e]; try (destruct (is_code _ _); reflexivity); [|reflexivity..].
    destruct (parse_receive _ b) as [[[st rc] buf]|e]; [|reflexivity].
    destruct (dict_get str_eqb (lit "stdout") buf), (dict_get str_eqb (lit "stderr") buf); reflexivity.
  Qed.

  Lemma poll_said s p h p' h' m : process_poll srv None s p h = (Ret tt, p', h') -> says (srv h (poll_of s p)) m -> p' = after m p.
  Proof.
    unfold process_poll, shell_receive, call. change (request OpReceive s _ _ None) with (poll_of s p). intros H M.
    destruct m as [|state rc cs].
    - destruct M as (f & E & C). rewrite E in H. unfold is_code in H. rewrite C in H. cbn [operation_timeout] in H.
      exact (eq_sym (f_equal (fun x => snd (fst x)) H)).
    - assert (M' := M). destruct M' as (b & _ & _ & E & _). rewrite E in H.
      destruct (parse_receive (lit "stdout stderr") (Some b)) as [v|e] eqn:P; [|discriminate].
      assert (V := parse_said _ _ _ _ _ _ M E P). subst v. cbn [dict_get std_buffer] in H.
      change (dict_get str_eqb (lit "stdout") (std_buffer ?o ?e)) with (Some o) in H.
      change (dict_get str_eqb (lit "stderr") (std_buffer ?o ?e)) with (Some e) in H.
      exact (eq_sym (f_equal (fun x => snd (fst x)) H)).
  Qed.

  Lemma poll_total s p h m : says (srv h (poll_of s p)) m -> std_only m ->
    exists p' h', process_poll srv None s p h = (Ret tt, p', h').
  Proof.
    unfold process_poll, shell_receive, call. change (request OpReceive s _ _ None) with (poll_of s p). intros M F.
    destruct m as [|state rc cs].
    - destruct M as (f & E & C). rewrite E. unfold is_code. rewrite C. cbn [operation_timeout]. rewrite Z.eqb_refl. eauto.
    - assert (M' := M). destruct M' as (b & _ & _ & E & _). rewrite E.
      destruct (parse_total _ _ _ _ _ M E F) as (v & P). rewrite P.
      assert (V := parse_said _ _ _ _ _ _ M E P). subst v.
      change (dict_get str_eqb (lit "stdout") (std_buffer ?o ?e)) with (Some o).
      change (dict_get str_eqb (lit "stderr") (std_buffer ?o ?e)) with (Some e). eauto.
  Qed.

  Lemma poll_of_after s m p : poll_of s (after m p) = poll_of s p.
  Proof. destruct m; reflexivity. Qed.

  Lemma collected_cons name m ms : collected name (m :: ms) = on_stream name m ++ collected name ms.
  Proof. reflexivity. Qed.
  Lemma after_out m p : pr_stdout (after m p) = pr_stdout p ++ on_stream (lit "stdout") m.
  Proof. destruct m; [cbn [after on_stream]; now rewrite app_nil_r|reflexivity]. Qed.
  Lemma after_err m p : pr_stderr (after m p) = pr_stderr p ++ on_stream (lit "stderr") m.
  Proof. destruct m; [cbn [after on_stream]; now rewrite app_nil_r|reflexivity]. Qed.

  Definition rc_of (m : said) (old : option Z) : option Z := match m with SaidNothing => old | Said _ rc _ => rc end.

  Lemma pending_not_done : str_eqb cs_pending cs_done = false.
  Proof. reflexivity. Qed.

  Lemma finishes_iff m p : str_eqb (pr_state p) cs_done = false -> (str_eqb (pr_state (after m p)) cs_done = true <-> finishes m).
  Proof.
    intros D. split.
    - intros H. destruct m as [|state rc cs]; [cbn [after] in H; congruence|]. cbn [after pr_state] in H.
      destruct state as [t|]; cbn [state_or_pending] in H.
      + apply str_eqb_spec in H. subst t. exists rc, cs. reflexivity.
      + rewrite pending_not_done in H. discriminate.
    - intros (rc & cs & ->). reflexivity.
  Qed.

  (* a finished wait: what was said decides what is collected *)
  Lemma end_collected fuel : forall s p h p' h', process_end srv fuel s p h = (Ret tt, p', h') ->
    str_eqb (pr_state p) cs_done = false ->
    exists answers, h' = h ++ map (fun r => (poll_of s p, r)) answers /\
    forall ms, Forall2 says answers ms ->
      pr_stdout p' = pr_stdout p ++ collected (lit "stdout") ms /\
      pr_stderr p' = pr_stderr p ++ collected (lit "stderr") ms /\
      exists before final, ms = before ++ [final] /\ finishes final /\ Forall (fun m => ~ finishes m) before /\
        pr_rc p' = rc_of final None.
  Proof.
    induction fuel as [|fuel IH]; intros s p h p' h' H D; cbn [process_end] in H; rewrite D in H; [discriminate|].
    destruct (process_poll srv None s p h) as [[r p1] h1] eqn:P. destruct r as [[]|x]; [|discriminate].
    assert (Eh := poll_history s p h). rewrite P in Eh. cbn [snd] in Eh. subst h1.
    set (a := srv h (poll_of s p)) in *.
    destruct (str_eqb (pr_state p1) cs_done) eqn:D1.
    - assert (E : p' = p1 /\ h' = h ++ [(poll_of s p, a)]).
      { destruct fuel; cbn [process_end] in H; rewrite D1 in H; split; congruence. }
      destruct E as [-> ->]. exists [a]. split; [reflexivity|]. intros ms F.
      destruct ms as [|m [|m2 ms]]; [apply f2_length in F; discriminate| |apply f2_length in F; discriminate].
      assert (M : says a m) by (inversion F; assumption). clear F.
      assert (E1 := poll_said _ _ _ _ _ _ P M). subst p1. apply (finishes_iff m p D) in D1.
      rewrite after_out, after_err, !collected_cons. unfold collected. cbn [map concat]. rewrite !app_nil_r.
      split; [reflexivity|]. split; [reflexivity|]. exists [], m. split; [reflexivity|]. split; [exact D1|]. split; [constructor|].
      destruct D1 as (rc & cs & ->). reflexivity.
    - destruct (IH _ _ _ _ _ H D1) as (answers & Eh & IH').
      assert (Hid : poll_of s p1 = poll_of s p).
      { unfold process_poll in P. destruct (shell_receive _ _ _ _ _ _) as [[[[st rc] buf]|x] h2].
        - destruct (dict_get str_eqb (lit "stdout") buf), (dict_get str_eqb (lit "stderr") buf); try discriminate.
          apply pair_inj in P. destruct P as [P _]. apply pair_inj in P. destruct P as [_ <-]. reflexivity.
        - apply pair_inj in P. destruct P as [P _]. apply pair_inj in P. destruct P as [_ <-]. reflexivity. }
      exists (a :: answers). split.
      + rewrite Eh, Hid, <- app_assoc. reflexivity.
      + intros ms F. destruct ms as [|m ms]; [apply f2_length in F; discriminate|].
        assert (M : says a m /\ Forall2 says answers ms) by (inversion F; split; assumption). clear F. destruct M as [M F].
        assert (E1 := poll_said _ _ _ _ _ _ P M). subst p1.
        destruct (IH' ms F) as (Ho & He & before & final & -> & Fin & NF & Rc).
        rewrite Ho, He, after_out, after_err, !collected_cons, <- !app_assoc. split; [reflexivity|]. split; [reflexivity|].
        exists (m :: before), final. split; [reflexivity|]. split; [exact Fin|]. split; [|exact Rc].
        constructor; [|exact NF]. intros X. apply (finishes_iff m p D) in X. congruence.
  Qed.

  (* a server that plays a script of answers *)
  Fixpoint plays (q : sreq) (h : history) (ms : list said) : Prop :=
    match ms with
    | [] => True
    | m :: ms' => says (srv h q) m /\ plays q (h ++ [(q, srv h q)]) ms'
    end.

  Lemma end_total before : forall s p h final, str_eqb (pr_state p) cs_done = false ->
    plays (poll_of s p) h (before ++ [final]) -> Forall std_only (before ++ [final]) ->
    Forall (fun m => ~ finishes m) before -> finishes final ->
    exists p' h', process_end srv (length (before ++ [final])) s p h = (Ret tt, p', h') /\
      pr_stdout p' = pr_stdout p ++ collected (lit "stdout") (before ++ [final]) /\
      pr_stderr p' = pr_stderr p ++ collected (lit "stderr") (before ++ [final]) /\
      pr_rc p' = rc_of final None.
  Proof.
    induction before as [|m before IH]; intros s p h final D P S NF F; cbn [app length plays process_end] in *; rewrite D.
    - destruct P as [M _]. destruct (poll_total s p h final M (Forall_inv S)) as (p1 & h1 & E). rewrite E.
      assert (E1 := poll_said _ _ _ _ _ _ E M). subst p1. assert (Df := proj2 (finishes_iff final p D) F). rewrite Df.
      exists (after final p), h1. split; [reflexivity|]. rewrite after_out, after_err, !collected_cons.
      unfold collected. cbn [map concat]. rewrite !app_nil_r.
      split; [reflexivity|]. split; [reflexivity|]. destruct F as (rc & cs & ->). reflexivity.
    - destruct P as [M P]. destruct (poll_total s p h m M (Forall_inv S)) as (p1 & h1 & E). rewrite E.
      assert (E1 := poll_said _ _ _ _ _ _ E M). subst p1.
      assert (Eh := poll_history s p h). rewrite E in Eh. cbn [snd] in Eh. subst h1.
      assert (D1 : str_eqb (pr_state (after m p)) cs_done = false).
      { destruct (str_eqb (pr_state (after m p)) cs_done) eqn:D1; [|reflexivity]. apply (finishes_iff m p D) in D1.
        contradiction (Forall_inv NF). }
      destruct (IH s (after m p) (h ++ [(poll_of s p, srv h (poll_of s p))]) final D1) as (p' & h' & E' & Ho & He & Rc).
      + rewrite poll_of_after. exact P.
      + exact (Forall_inv_tail S).
      + exact (Forall_inv_tail NF).
      + exact F.
      + exists p', h'. split; [exact E'|]. rewrite Ho, He, after_out, after_err, !collected_cons, <- !app_assoc.
        split; [reflexivity|]. split; [reflexivity|exact Rc].
  Qed.

  (* ---- execute_cmd ---- *)
  Lemma begin_fields s p h r p' h' : process_begin srv s p h = (r, p', h') ->
    pr_state p' = pr_state p /\ pr_rc p' = pr_rc p /\ pr_stdout p' = pr_stdout p /\ pr_stderr p' = pr_stderr p /\
    exists q a, q_op q = OpCommand /\ h' = h ++ [(q, a)].
  Proof.
    unfold process_begin, shell_command, call. set (q := request OpCommand s _ _ None).
    destruct (srv h q) as [b|f|c t|e]; intros H.
    - destruct b as [b|]; assert (E := f_equal snd H); assert (E2 := f_equal (fun x => snd (fst x)) H); cbn [fst snd] in E, E2; subst p' h';
        (split; [reflexivity|]; split; [reflexivity|]; split; [reflexivity|]; split; [reflexivity|]); exists q; eexists; split; reflexivity.
    - assert (E := f_equal snd H); assert (E2 := f_equal (fun x => snd (fst x)) H); cbn [fst snd] in E, E2; subst p' h'.
      split; [reflexivity|]; split; [reflexivity|]; split; [reflexivity|]; split; [reflexivity|]; exists q; eexists; split; reflexivity.
    - assert (E := f_equal snd H); assert (E2 := f_equal (fun x => snd (fst x)) H); cbn [fst snd] in E, E2; subst p' h'.
      split; [reflexivity|]; split; [reflexivity|]; split; [reflexivity|]; split; [reflexivity|]; exists q; eexists; split; reflexivity.
    - assert (E := f_equal snd H); assert (E2 := f_equal (fun x => snd (fst x)) H); cbn [fst snd] in E, E2; subst p' h'.
      split; [reflexivity|]; split; [reflexivity|]; split; [reflexivity|]; split; [reflexivity|]; exists q; eexists; split; reflexivity.
  Qed.

  Lemma cmd_result fuel command env h o e rc h' :
    execute_cmd srv fuel command env h = (Ret (o, e, rc), h') ->
    exists create cmd poll answers signal delete,
      h' = h ++ [create; cmd] ++ map (fun r => (poll, r)) answers ++ [signal; delete] /\
      created create /\ q_op (fst cmd) = OpCommand /\ q_op poll = OpReceive /\ q_op (fst signal) = OpSignal /\ deleted delete /\
      forall ms, Forall2 says answers ms ->
        o = collected (lit "stdout") ms /\ e = collected (lit "stderr") ms /\
        exists before final, ms = before ++ [final] /\ finishes final /\ Forall (fun m => ~ finishes m) before /\
          rc = match rc_of final None with Some z => z | None => (-1)%Z end.
  Proof.
    unfold execute_cmd. destruct (shell_open srv None None (new_shell env) h) as [[r s] h1] eqn:O.
    destruct r as [ob|x]; [|discriminate].
    unfold shell_open in O. cbn [new_shell sh_opened] in O. fold (new_shell env) in O. unfold call in O.
    set (q1 := create_request (new_shell env) None None) in *.
    destruct (srv h q1) as [b1|f1|c1 t1|e1] eqn:A1; [|discriminate..].
    destruct (parse_shell_create b1 (new_shell env)) as [r1 s1] eqn:P1. destruct r1 as [[]|x1]; [|discriminate].
    assert (Es : s = set_opened true s1) by congruence. assert (Eh : h1 = h ++ [(q1, WBody b1)]) by congruence.
    clear O. assert (Os : sh_opened s = true) by now rewrite Es. clear Es.
    destruct (process_invoke srv fuel s (new_process command None) h1) as [[r p] h2] eqn:I.
    unfold process_invoke in I.
    destruct (process_begin srv s (new_process command None) h1) as [[r0 p0] h10] eqn:B.
    destruct (begin_fields _ _ _ _ _ _ B) as (Bs & Br & Bo & Be & q2 & a2 & K2 & Eh2).
    destruct r as [[]|x].
    2:{ destruct (shell_close srv s h2) as [[c s2] h4]. destruct c; discriminate. }
    destruct r0 as [[]|x0]; [|discriminate].
    assert (Dp : str_eqb (pr_state p0) cs_done = false) by (rewrite Bs; reflexivity).
    destruct (end_collected _ _ _ _ _ _ I Dp) as (answers & E2 & W).
    unfold process_signal, shell_signal, call. set (q3 := request OpSignal s _ None None).
    destruct (srv h2 q3) as [b3|f3|c3 t3|e3] eqn:A3.
    2-4: (destruct (shell_close srv s _) as [[c s2] h4]; destruct c; discriminate).
    unfold shell_close. rewrite Os. cbn [negb]. unfold call. set (q4 := request OpDelete s None None None).
    destruct (srv (h2 ++ [(q3, WBody b3)]) q4) as [b4|f4|c4 t4|e4] eqn:A4; [|discriminate..].
    intros H. assert (Eo : pr_stdout p = o /\ pr_stderr p = e /\ match pr_rc p with Some z => z | None => (-1)%Z end = rc /\
      (h2 ++ [(q3, WBody b3)]) ++ [(q4, WBody b4)] = h') by (repeat split; congruence). clear H.
    destruct Eo as (<- & <- & <- & <-).
    exists (q1, WBody b1), (q2, a2), (poll_of s p0), answers, (q3, WBody b3), (q4, WBody b4).
    split; [rewrite E2, Eh2, Eh; rewrite <- !app_assoc; reflexivity|].
    split; [split; [reflexivity|exists b1; reflexivity]|]. split; [exact K2|]. split; [reflexivity|]. split; [reflexivity|].
    split; [split; [reflexivity|exists b4; reflexivity]|].
    intros ms F. destruct (W ms F) as (Ho & He & before & final & -> & Fin & NF & Rc).
    rewrite Bo in Ho. rewrite Be in He. rewrite Rc.
    split; [exact Ho|]. split; [exact He|]. exists before, final. split; [reflexivity|]. split; [exact Fin|]. split; [exact NF|reflexivity].
  Qed.

End Server.
