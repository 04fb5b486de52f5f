(* Proofs about unwrapping an arbitrary body. *)
From Coq Require Import Lia ZifyBool ZifyNat ZifyN.
From Verif Require Import Base BaseProofs Lit NumModel NumProofs ReModel ReProofs EncModel EncSpec EncProofs EncProofs2.
Ltac Zify.zify_post_hook ::= Z.div_mod_to_equations.

Lemma scan_cases m s : quiet m s [] \/ exists p rest, s = p ++ rest /\ quiet m p rest /\ m rest <> None.
Proof.
  induction s as [|c s IH].
  - left. apply quiet_nil.
  - destruct (m (c :: s)) eqn:Em.
    + right. exists [], (c :: s). split; [reflexivity|]. split; [apply quiet_nil|congruence].
    + destruct IH as [H|(p & rest & -> & Hq & Hm)].
      * left. apply quiet_cons. split; [now rewrite app_nil_r|exact H].
      * right. exists (c :: p), rest. split; [reflexivity|]. split; [|exact Hm].
        apply quiet_cons. split; [exact Em|exact Hq].
Qed.

Lemma quiet_first p a rest x y : quiet (m_lit p) a rest -> a ++ rest = x ++ p ++ y -> p <> [] -> length a <= length x.
Proof.
  intros Hq E Hp. destruct (le_lt_dec (length a) (length x)) as [H|H]; [exact H|]. exfalso.
  assert (Ex : exists z, a = x ++ z /\ z <> []).
  { exists (skipn (length x) a). split.
    - rewrite <- (firstn_skipn (length x) a) at 1. f_equal.
      apply (f_equal (firstn (length x))) in E. rewrite !firstn_app in E.
      rewrite Nat.sub_diag in E. cbn [firstn] in E. rewrite app_nil_r, firstn_all in E.
      replace (length x - length a) with 0 in E by lia. cbn [firstn] in E. now rewrite app_nil_r in E.
    - intros Hz. apply (f_equal (@length N)) in Hz. rewrite skipn_length in Hz. cbn in Hz. lia. }
  destruct Ex as (z & -> & Hz). rewrite <- app_assoc in E. apply app_inv_head in E.
  specialize (Hq x z eq_refl Hz). rewrite E in Hq.
  exact (proj1 (m_lit_none _ _) Hq y eq_refl).
Qed.

Lemma split_first p s a t l : p <> [] -> re_split (m_lit p) 0 s = a :: t :: l ->
  exists c, s = a ++ p ++ t ++ c /\ quiet (m_lit p) a (p ++ t ++ c) /\ (c = [] \/ exists c', c = p ++ c').
Proof.
  intros Hp H. assert (Hk : exists k, length p = S k) by (destruct p; [congruence|eexists; reflexivity]).
  destruct Hk as [k Hk].
  assert (ST : forall q rest, s = q ++ rest -> quiet (m_lit p) q rest -> m_lit p rest <> None ->
     exists r, rest = p ++ r /\ forall q' rest', rest' = p ++ r -> quiet (m_lit p) q' rest' ->
       re_split (m_lit p) 0 (q' ++ rest') = q' :: re_split (m_lit p) 0 r).
  { intros q rest _ _ Hm. destruct (m_lit p rest) as [n|] eqn:E; [|congruence].
    apply m_lit_spec in E. destruct E as [_ [r ->]]. exists r. split; [reflexivity|].
    intros q' rest' -> Hq'. rewrite (re_split_step _ q' (p ++ r) k Hq').
    - rewrite <- Hk, skipn_app_length. reflexivity.
    - rewrite <- Hk. apply m_lit_spec. split; [reflexivity|now exists r].
    - rewrite app_length. lia. }
  destruct (scan_cases (m_lit p) s) as [Hq|(q & rest & Es & Hq & Hm)].
  - rewrite re_split_none in H by exact Hq. discriminate.
  - destruct (ST q rest Es Hq Hm) as (r & Er & HS). subst s rest.
    rewrite (HS q (p ++ r) eq_refl Hq) in H. apply cons_inj in H. destruct H as [-> H].
    destruct (scan_cases (m_lit p) r) as [Hq2|(q2 & rest2 & E2 & Hq2 & Hm2)].
    + rewrite re_split_none in H by exact Hq2. apply cons_inj in H. destruct H as [-> _].
      exists []. rewrite app_nil_r. auto.
    + destruct (m_lit p rest2) as [n|] eqn:E; [|congruence].
      apply m_lit_spec in E. destruct E as [_ [r2 ->]]. subst r.
      rewrite (re_split_step _ q2 (p ++ r2) k Hq2) in H.
      * apply cons_inj in H. destruct H as [-> _]. exists (p ++ r2). split; [reflexivity|]. split; [exact Hq|].
        right. now exists r2.
      * rewrite <- Hk. apply m_lit_spec. split; [reflexivity|now exists r2].
      * rewrite app_length. lia.
Qed.

Lemma blank_all b : forallb byte_space b = true -> Forall blank_byte b.
Proof. intros H. apply Forall_forall. intros c Hc. apply byte_space_iff. rewrite forallb_forall in H. now apply H. Qed.

Section AnyBody.
  Context {U : Type}.
  Context (unwrap : U -> list N -> list N -> res (list N * U)).

  Lemma unwrap_part_inv boundary u head payload m u1 :
    unwrap_part unwrap boundary u head payload = Ok (m, u1) ->
    exists h d, announces bytes_int head (zlen m) /\ unwrap u h d = Ok (m, u1).
  Proof.
    unfold unwrap_part. intros H. apply bind_ok in H. destruct H as (n & Hn & H).
    apply bind_ok in H. destruct H as (hl & _ & H). apply bind_ok in H. destruct H as ([plain u'] & Hu & H).
    destruct (Z.eqb_spec (zlen plain) n) as [En|]; [|discriminate]. apply Ok_pair_inj in H. destruct H as [<- <-].
    eexists _, _. split; [|exact Hu]. subst n.
    destruct (re_split (m_lit (lit "Length=")) 0 (strip_by byte_space head)) as [|a [|t l]] eqn:E; try discriminate.
    destruct (split_first (lit "Length=") _ a t l ltac:(discriminate) E) as (c & Es & Hq & Hc).
    destruct (strip_by_spec byte_space head) as (b1 & b2 & Eh & H1 & H2 & _).
    exists b1, b2, a, t, c. split; [now apply blank_all|]. split; [now apply blank_all|].
    split; [rewrite <- Es; exact Eh|]. split; [|split; [exact Hc|exact Hn]].
    intros x y Exy. eapply quiet_first; [exact Hq|exact Exy|discriminate].
  Qed.

  Lemma unwrap_parts_inv boundary : forall n parts u r u', length parts <= n ->
    unwrap_parts unwrap boundary u parts = Ok (r, u') ->
    exists heads payloads ps, alternate parts heads payloads /\
      Forall2 (fun h p => announces bytes_int h (p_length p)) heads ps /\ opened unwrap u ps r u'.
  Proof.
    induction n as [|n IH]; intros parts u r u' Hl H.
    - destruct parts; cbn [length] in Hl; [|lia]. cbn in H. apply Ok_pair_inj in H. destruct H as [<- <-].
      exists [], [], []. repeat split; constructor.
    - destruct parts as [|h [|p rest]]; cbn [unwrap_parts] in H.
      + apply Ok_pair_inj in H. destruct H as [<- <-]. exists [], [], []. repeat split; constructor.
      + discriminate.
      + apply bind_ok in H. destruct H as ([m u1] & Hm & H). apply bind_ok in H. destruct H as ([ms u2] & Hr & H).
        apply Ok_pair_inj in H. destruct H as [<- <-].
        destruct (unwrap_part_inv _ _ _ _ _ _ Hm) as (hd & d & Ha & Hu).
        cbn [length] in Hl. destruct (IH rest u1 ms u2 ltac:(lia) Hr) as (heads & pays & ps & H1 & H2 & H3).
        exists (h :: heads), (p :: pays), ({| p_length := zlen m; p_header := hd; p_data := d |} :: ps).
        split; [constructor; exact H1|]. split; [constructor; [exact Ha|exact H2]|].
        econstructor; [exact Hu|reflexivity|exact H3].
  Qed.

  Lemma unwrap_any boundary u body r u' : unwrap_message unwrap boundary u body = Ok (r, u') ->
    exists pieces heads payloads ps, cut_at (delimiter boundary) body pieces /\
      alternate (filter (fun p => match p with [] => false | _ => true end) pieces) heads payloads /\
      Forall2 (fun h p => announces bytes_int h (p_length p)) heads ps /\ opened unwrap u ps r u'.
  Proof.
    unfold unwrap_message. intros H.
    destruct (unwrap_parts_inv boundary _ _ u r u' (le_n _) H) as (heads & pays & ps & H1 & H2 & H3).
    exists (re_split (m_delim boundary) 0 body), heads, pays, ps. split; [apply split_cut|]. auto.
  Qed.

  (* a well formed body, whatever lengths it declares *)
  Lemma unwrap_wellformed proto ps body u r u' : In proto protocols -> body_text proto ps body -> ps <> [] ->
    Forall (fun p => opaque (part_binary p)) ps -> Forall (fun p => zlen (p_header p) < 2147483648)%Z ps ->
    (unwrap_message unwrap (lit "Encrypted Boundary") u body = Ok (r, u') <-> opened unwrap u ps r u').
  Proof.
    intros Hp Hb Hne Ho Hf. change (lit "Encrypted Boundary") with B0. rewrite (unwrap_body unwrap proto ps body u Hp Hb Hne).
    - apply open_parts_iff.
    - clear -Ho Hf. induction Ho as [|p ps Hp Ho IH]; constructor.
      + split; [exact Hp|exact (Forall_inv Hf)].
      + apply IH. exact (Forall_inv_tail Hf).
  Qed.

  Lemma unwrap_mismatch proto ps body u : In proto protocols -> body_text proto ps body -> ps <> [] ->
    Forall (fun p => opaque (part_binary p)) ps -> Forall (fun p => zlen (p_header p) < 2147483648)%Z ps ->
    (forall u0 h d, exists plain u1, unwrap u0 h d = Ok (plain, u1)) ->
    (forall r u', ~ opened unwrap u ps r u') ->
    unwrap_message unwrap (lit "Encrypted Boundary") u body = Err WinRMError.
  Proof.
    intros Hp Hb Hne Ho Hf Ht Hno.
    assert (Hok : Forall (fun p => opaque (part_binary p) /\ part_fits p) ps).
    { clear -Ho Hf. induction Ho as [|p ps Hp Ho IH]; constructor.
      + split; [exact Hp|exact (Forall_inv Hf)].
      + apply IH. exact (Forall_inv_tail Hf). }
    change (lit "Encrypted Boundary") with B0. rewrite (unwrap_body unwrap proto ps body u Hp Hb Hne Hok).
    apply open_parts_mismatch; [|exact Ht]. intros r u' E. apply open_parts_iff in E. now apply Hno in E.
  Qed.
End AnyBody.

(* wrapping fails only where the context does, or for a header of 2 GiB *)
Section Total.
  Context {W : Type}.
  Context (wrap : W -> list N -> res (list N * list N * Z * W)).
  Lemma wrap_part_total proto w m : (exists h d pad w', wrap w m = Ok (h, d, pad, w') /\ (zlen h < 2147483648)%Z) ->
    exists t w', wrap_part wrap proto w m = Ok (t, w').
  Proof.
    intros (h & d & pad & w' & Hw & Hl). unfold wrap_part. rewrite Hw. cbn [bind].
    pose proof (zlen_nonneg h). rewrite pack_i_ok by lia. cbn [bind]. eexists _, _. reflexivity.
  Qed.
  Lemma wrap_total proto w m :
    (forall w0 m0, exists h d pad w', wrap w0 m0 = Ok (h, d, pad, w') /\ (zlen h < 2147483648)%Z) ->
    exists ct body w', wrap_message wrap proto w m = Ok (ct, body, w').
  Proof.
    intros H. unfold wrap_message. destruct (_ && _)%bool.
    - unfold py_range0. change (SIXTEEN_KB =? 0)%Z with false. change (SIXTEEN_KB <? 0)%Z with false. cbv iota. cbn [bind].
      assert (T : forall l w0, exists t w', wrap_parts wrap proto w0 l = Ok (t, w')).
      { induction l as [|c l IH]; intros w0; cbn [wrap_parts]; [eexists _, _; reflexivity|].
        destruct (wrap_part_total proto w0 c (H w0 c)) as (t & w1 & ->). cbn [bind].
        destruct (IH w1) as (ts & w2 & ->). cbn [bind]. eexists _, _. reflexivity. }
      match goal with |- context [wrap_parts wrap proto w ?l0] => destruct (T l0 w) as (t & w1 & ->) end.
      cbn [bind]. eexists _, _, _. reflexivity.
    - destruct (wrap_part_total proto w m (H w m)) as (t & w1 & ->). cbn [bind]. eexists _, _, _. reflexivity.
  Qed.
End Total.

Lemma padded_none ms r : padded ms r -> (forall x, In x ms -> True) -> zlen r = zlen (concat ms) -> r = concat ms.
Proof.
  induction 1 as [|m pad ms r Hp IH]; intros _ E; [reflexivity|]. cbn [concat] in *.
  assert (L : forall ms r, padded ms r -> (zlen (concat ms) <= zlen r)%Z).
  { clear. induction 1; cbn [concat]; rewrite ?zlen_app; [lia|]. pose proof (zlen_nonneg pad). lia. }
  pose proof (L _ _ Hp). rewrite !zlen_app in E. pose proof (zlen_nonneg pad).
  assert (pad = []) by (apply zlen_nil_iff; lia). subst pad. rewrite app_nil_r. f_equal. apply IH; [auto|].
  rewrite ?zlen_app in E. change (zlen (@nil N)) with 0%Z in E. lia.
Qed.

Section NoPad.
  Context {W U : Type}.
  Context (wrap : W -> list N -> res (list N * list N * Z * W)).
  Context (unwrap : U -> list N -> list N -> res (list N * U)).

  Lemma sealed_opened_length w ms ps w' : sealed wrap w ms ps w' ->
    (forall w m h d pad w1, wrap w m = Ok (h, d, pad, w1) -> pad = 0%Z) ->
    forall u r u', opened unwrap u ps r u' -> zlen r = zlen (concat ms).
  Proof.
    intros Hs Hp. induction Hs as [w|w m ms h d pad w1 ps w2 Hw Hs IH]; intros u r u' Ho.
    - inversion Ho. reflexivity.
    - inversion Ho as [|? ? ? plain u1 r' u2 Hu El Ho']; subst. cbn [concat p_length] in *.
      apply Hp in Hw. subst pad. rewrite !zlen_app. rewrite (IH _ _ _ Ho'). lia.
  Qed.

  Lemma unwrap_wrapped_exact (R : W -> U -> Prop) proto w u m ct body w' :
    In proto protocols -> matching wrap unwrap R -> R w u ->
    (forall w m h d pad w1, wrap w m = Ok (h, d, pad, w1) -> pad = 0%Z) ->
    wrap_message wrap proto w m = Ok (ct, body, w') ->
    exists pieces ps, cut_message proto m pieces /\ sealed wrap w pieces ps w' /\
      (Forall (fun p => opaque (part_binary p)) ps ->
       exists u', unwrap_message unwrap (lit "Encrypted Boundary") u body = Ok (m, u') /\ R w' u').
  Proof.
    intros Hp HM HR H0 H.
    destruct (wrap_message_run wrap _ _ _ _ _ _ H) as (pieces & ps & Hc & Hs & Hf & Ht & _).
    exists pieces, ps. split; [exact Hc|]. split; [exact Hs|]. intros Ho.
    pose proof (sealed_nonneg wrap unwrap R HM _ _ _ _ Hs u HR) as Hn. specialize (Ht Hn).
    destruct (sealed_opened wrap unwrap R HM _ _ _ _ Hs u HR) as (r & u' & Hop & Hpad & HR').
    assert (Er : r = m).
    { pose proof (sealed_opened_length _ _ _ _ Hs H0 _ _ _ Hop) as El.
      rewrite (padded_none _ _ Hpad (fun _ _ => I) El). apply Hc. }
    subst r. exists u'. split; [|exact HR'].
    apply (unwrap_wellformed unwrap proto ps body u m u' Hp Ht); [|exact Ho|exact Hf|exact Hop].
    intros ->. apply cut_nonempty in Hc. apply sealed_length in Hs. destruct pieces; [congruence|discriminate].
  Qed.
End NoPad.
