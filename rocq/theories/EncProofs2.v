(* Proofs about message encryption: wrapping, unwrapping. *)
From Coq Require Import Lia ZifyBool ZifyNat ZifyN.
From Verif Require Import Base BaseProofs Lit NumModel NumProofs ReModel ReProofs FragProofs3
  EncModel EncSpec EncProofs.
Ltac Zify.zify_post_hook ::= Z.div_mod_to_equations.

Lemma decimal_value s n : decimal_of s n -> s <> [] /\ Forall digit s /\ value_from 0 s = n.
Proof.
  intros (H1 & H2 & H3). split; [exact H1|]. split; [exact H2|]. rewrite <- H3. clear.
  generalize 0%N. induction s as [|c s IH]; intros a; cbn [value_from fold_left]; [reflexivity|]. apply IH.
Qed.

Lemma py_str_decimal z : (0 <= z)%Z -> decimal_of (py_str z) (Z.to_N z).
Proof.
  intros Hz. unfold py_str. destruct (Z.ltb_spec z 0); [lia|].
  destruct (dec_spec (Z.to_N z)) as (H1 & H2 & H3 & _). split; [exact H1|]. split; [exact H2|].
  rewrite <- H3 at 2. clear. generalize (dec (Z.to_N z)) as s. intros s. generalize 0%N.
  induction s as [|c s IH]; intros a; cbn [value_from fold_left]; [reflexivity|]. apply IH.
Qed.

Lemma bytes_int_decimal s n : decimal_of s n -> bytes_int s = Ok (Z.of_N n).
Proof.
  intros H. destruct (decimal_value s n H) as (H1 & H2 & H3). unfold bytes_int.
  destruct (existsb _ s) eqn:E.
  - apply existsb_exists in E. destruct E as (c & Hc & E). rewrite Forall_forall in H2. specialize (H2 c Hc).
    unfold digit in H2. lia.
  - rewrite py_int_digits by assumption. now rewrite H3.
Qed.

(* the length declared by a head *)
Lemma no_L_quiet p rest : Forall (fun c => c <> 76%N) p -> quiet (m_lit (lit "Length=")) p rest.
Proof.
  intros H a c -> Hc. apply m_lit_none. intros r E. apply Forall_app in H. destruct H as [_ H].
  destruct c as [|x c]; [congruence|]. cbn [app] in E.
  change (lit "Length=") with (76 :: lit "ength=")%N in E. cbn [app] in E.
  apply (Forall_inv H). injection E as E1 _. exact E1.
Qed.

Lemma forall_ne_check x s : existsb (N.eqb x) s = false -> Forall (fun c => c <> x) s.
Proof.
  intros H. apply Forall_forall. intros c Hc ->. assert (existsb (N.eqb x) s = true); [|congruence].
  apply existsb_exists. exists x. split; [exact Hc|apply N.eqb_refl].
Qed.

Definition head_pre (proto : list N) : list N :=
  lit "Content-Type: " ++ proto ++ newline ++ lit "	OriginalContent: type=application/soap+xml;charset=UTF-8;".

Lemma proto_no_L proto : In proto protocols -> Forall (fun c => c <> 76%N) proto.
Proof. intros [<-|[<-|[<-|[]]]]; apply forall_ne_check; reflexivity. Qed.

Lemma head_strip proto digits n : decimal_of digits n ->
  strip_by byte_space (head_text proto digits) = head_pre proto ++ lit "Length=" ++ digits.
Proof.
  intros H. destruct (decimal_value _ _ H) as (H1 & H2 & _).
  assert (E : head_text proto digits = 9%N :: (head_pre proto ++ lit "Length=" ++ digits) ++ newline).
  { unfold head_text, head_pre. rewrite <- !app_assoc. reflexivity. }
  rewrite E. unfold strip_by.
  set (body := head_pre proto ++ lit "Length=" ++ digits).
  assert (Hh : drop_while byte_space (9%N :: body ++ newline) = body ++ newline).
  { unfold body, head_pre. rewrite <- !app_assoc. reflexivity. }
  rewrite Hh. rewrite rev_app_distr.
  assert (Hl : drop_while byte_space (rev newline ++ rev body) = rev body).
  { assert (Hrn : rev newline = [10; 13]%N) by reflexivity. rewrite Hrn. cbn [app].
    unfold body. rewrite (app_assoc (head_pre proto)). rewrite rev_app_distr.
    assert (Hr : Forall digit (rev digits)) by now apply Forall_rev.
    destruct (rev digits) as [|c r] eqn:Er.
    - exfalso. apply H1. rewrite <- (rev_involutive digits), Er. reflexivity.
    - pose proof (Forall_inv Hr) as Hc. unfold digit in Hc. cbn [app drop_while].
      change (byte_space 10) with true. change (byte_space 13) with true. cbv iota.
      assert (Eb : byte_space c = false) by (unfold byte_space; lia). now rewrite Eb. }
  rewrite Hl. apply rev_involutive.
Qed.

Lemma head_length proto digits n : In proto protocols -> decimal_of digits n ->
  re_split (m_lit (lit "Length=")) 0 (strip_by byte_space (head_text proto digits)) = [head_pre proto; digits].
Proof.
  intros Hp H. rewrite (head_strip proto digits n H).
  assert (Hq : Forall (fun c => c <> 76%N) (head_pre proto)).
  { unfold head_pre. rewrite !Forall_app. repeat split; try (apply forall_ne_check; reflexivity). now apply proto_no_L. }
  rewrite re_split_quiet by now apply no_L_quiet.
  rewrite (re_split_here _ (lit "Length=" ++ digits) 6).
  - change 7 with (length (lit "Length=")). rewrite skipn_app_length.
    rewrite re_split_none; [now rewrite app_nil_r|]. apply no_L_quiet.
    destruct H as (_ & H & _). eapply Forall_impl; [|exact H]. intros c Hc. cbn beta in Hc. lia.
  - apply m_lit_spec. split; [reflexivity|]. now exists digits.
  - rewrite app_length. cbn [length lit]. change (length (lit "Length=")) with 7. lia.
Qed.

Lemma del_octet x : opaque x -> re_del (m_lit octet_stream) 0 (octet_stream ++ x) = x.
Proof.
  intros H. assert (E : exists k, length octet_stream = S k) by (eexists; reflexivity). destruct E as [k E].
  rewrite (re_del_here _ (octet_stream ++ x) k).
  - rewrite <- E, skipn_app_length. apply re_del_none. now apply quiet_opaque_octet.
  - rewrite <- E. apply m_lit_spec. split; [reflexivity|]. now exists x.
  - rewrite app_length, E. lia.
Qed.

Lemma del_final_end x : opaque x -> re_del (m_final B0) 0 (octet_stream ++ x ++ Fin) = octet_stream ++ x.
Proof.
  intros H. rewrite re_del_quiet by apply quiet_no_dd_final, octet_no_dd. f_equal.
  rewrite re_del_quiet.
  - assert (E : re_del (m_final B0) 0 Fin = []) by (vm_compute; reflexivity). rewrite E. apply app_nil_r.
  - apply quiet_opaque_final; [exact H|]. right. eexists. reflexivity.
Qed.

Lemma del_final_none x : opaque x -> re_del (m_final B0) 0 (octet_stream ++ x) = octet_stream ++ x.
Proof.
  intros H. rewrite re_del_quiet by apply quiet_no_dd_final, octet_no_dd. f_equal.
  apply re_del_none. apply quiet_opaque_final; [exact H|]. now left.
Qed.

Lemma pack_i_ok n : (0 <= n < 2147483648)%Z -> pack_i n = Ok (le_bytes 4 (Z.to_N n)).
Proof.
  intros H. unfold pack_i. destruct (Z.leb_spec (-2147483648) n); [|lia]. destruct (Z.ltb_spec n 2147483648); [|lia].
  cbn [andb]. rewrite Z.mod_small by lia. reflexivity.
Qed.

Lemma pack_i_inv n b : pack_i n = Ok b -> (0 <= n)%Z -> (n < 2147483648)%Z /\ b = le_bytes 4 (Z.to_N n).
Proof.
  intros H Hn. destruct (Z.ltb_spec n 2147483648) as [Hl|Hl].
  - rewrite pack_i_ok in H by lia. split; [exact Hl|]. now apply Ok_inj in H.
  - unfold pack_i in H. destruct (Z.leb_spec (-2147483648) n); [|lia]. destruct (Z.ltb_spec n 2147483648); [lia|]. discriminate.
Qed.

Lemma unpack_i_ok n : (0 <= n < 2147483648)%Z -> unpack_i (le_bytes 4 (Z.to_N n)) = Ok n.
Proof.
  intros H. unfold unpack_i. rewrite struct_unpack_le_pack by (change (256 ^ Z.of_nat 4)%Z with 4294967296%Z; lia).
  cbn [bind]. destruct (Z.ltb_spec (Z.of_N (Z.to_N n)) 2147483648); [|lia]. f_equal. lia.
Qed.

Definition part_fits (p : part) : Prop := (zlen (p_header p) < 2147483648)%Z.

  Lemma cut_chunks (k : nat) (m : list N) : Z.of_nat k = 16384%Z -> (16384 < zlen m)%Z ->
    exists full last, chunks k m = full ++ [last] /\ Forall (fun p => zlen p = 16384%Z) full /\ (1 <= zlen last <= 16384)%Z.
  Proof.
    intros Hk Hm. unfold zlen in Hm. unfold chunks.
    assert (Hk1 : 1 <= k) by lia.
    destruct (nceil_bounds (length m) k Hk1) as [B1 B2].
    destruct (Nat.eqb_spec (length m) 0); [lia|].
    assert (Hc : 1 <= nceil (length m) k) by (apply nceil_pos; lia).
    destruct (nceil (length m) k) as [|c]; [lia|]. rewrite seq_S, map_app. cbn [map Nat.add].
    replace (S c - 1) with c in B1 by lia.
    eexists _, _. split; [reflexivity|]. split.
    - apply Forall_forall. intros p Hp. apply in_map_iff in Hp. destruct Hp as (j & <- & Hj). apply in_seq in Hj.
      unfold nchunk, zlen. rewrite firstn_length, skipn_length. nia.
    - unfold nchunk, zlen. rewrite firstn_length, skipn_length. nia.
  Qed.

  Lemma range_chunks (k : nat) (m : list N) : 1 <= k ->
    exists starts, py_range0 (zlen m) (Z.of_nat k) = Ok starts /\
      map (fun i => py_slice m i (i + Z.of_nat k)) starts = chunks k m.
  Proof.
    intros Hk. unfold py_range0.
    destruct (Z.eqb_spec (Z.of_nat k) 0) as [|_]; [lia|].
    destruct (Z.ltb_spec (Z.of_nat k) 0) as [|_]; [lia|].
    eexists. split; [reflexivity|]. rewrite map_map.
    assert (EC : Z.to_nat ((zlen m + Z.of_nat k - 1) / Z.of_nat k) = nceil (length m) k).
    { unfold zlen, nceil.
      replace (Z.of_nat (length m) + Z.of_nat k - 1)%Z with (Z.of_nat (length m + k - 1)) by lia.
      rewrite <- Nat2Z.inj_div. apply Nat2Z.id. }
    rewrite EC. unfold chunks. apply map_ext. intros j.
    rewrite py_slice_nonneg by nia. unfold nchunk. f_equal; [nia|]. f_equal. nia.
  Qed.

Section Unwrapping.
  Context {U : Type}.
  Context (unwrap : U -> list N -> list N -> res (list N * U)).

  (* one part, with or without the final block *)
  Lemma unwrap_part_eq proto digits p fin u : In proto protocols ->
    (0 <= p_length p)%Z -> decimal_of digits (Z.to_N (p_length p)) -> opaque (part_binary p) -> part_fits p ->
    (fin = [] \/ fin = Fin) ->
    unwrap_part unwrap B0 u (head_text proto digits) (octet_stream ++ part_binary p ++ fin) =
    do '(plain, u') <- unwrap u (p_header p) (p_data p);
    if (zlen plain =? p_length p)%Z then Ok (plain, u') else Err WinRMError.
  Proof.
    intros Hp Hz Hd Ho Hf Hfin. unfold unwrap_part.
    rewrite (head_length proto digits _ Hp Hd). rewrite (bytes_int_decimal _ _ Hd). cbn [bind].
    rewrite Z2N.id by exact Hz.
    assert (E : re_del (m_lit octet_stream) 0 (re_del (m_final B0) 0 (octet_stream ++ part_binary p ++ fin)) = part_binary p).
    { destruct Hfin as [-> | ->]; [rewrite app_nil_r, del_final_none by exact Ho|rewrite del_final_end by exact Ho];
      now apply del_octet. }
    rewrite E. unfold part_fits in Hf. pose proof (zlen_nonneg (p_header p)).
    set (hl := le_bytes 4 (Z.to_N (zlen (p_header p)))).
    assert (Hhl : zlen hl = 4%Z) by (unfold hl, zlen; now rewrite le_bytes_length).
    unfold part_binary. fold hl.
    unfold slice_to. rewrite py_slice_app0 by (symmetry; exact Hhl).
    unfold hl at 1. rewrite unpack_i_ok by lia. cbn [bind].
    rewrite (py_slice_app_l hl (p_header p) (p_data p)) by lia.
    rewrite app_assoc. rewrite (slice_from_app (hl ++ p_header p)) by (rewrite zlen_app; lia).
    reflexivity.
  Qed.

  Definition raw_part (p : part) (d : list N) : raw := {| r_digits := d; r_binary := part_binary p |}.

  Fixpoint open_parts (u : U) (ps : list part) : res (list N * U) :=
    match ps with
    | [] => Ok ([], u)
    | p :: ps' =>
        do '(plain, u1) <- unwrap u (p_header p) (p_data p);
        if (zlen plain =? p_length p)%Z then
          do '(r, u2) <- open_parts u1 ps'; Ok (plain ++ r, u2)
        else Err WinRMError
    end.

  Lemma unwrap_pieces proto ps ds : In proto protocols ->
    Forall2 (fun p d => (0 <= p_length p)%Z /\ decimal_of d (Z.to_N (p_length p))) ps ds ->
    Forall (fun p => opaque (part_binary p) /\ part_fits p) ps ->
    forall u, unwrap_parts unwrap B0 u (pieces_of proto (map (fun '(p, d) => raw_part p d) (combine ps ds))) =
              open_parts u ps.
  Proof.
    intros Hp H2. induction H2 as [|p d ps ds [Hz Hd] H2 IH]; intros Hok u; [reflexivity|].
    destruct (Forall_inv Hok) as [Ho Hf]. apply Forall_inv_tail in Hok. specialize (IH Hok).
    cbn [combine map open_parts].
    destruct H2 as [|p' d' ps ds [Hz' Hd'] H2].
    - cbn [combine map pieces_of unwrap_parts raw_part r_digits r_binary].
      rewrite (unwrap_part_eq proto d p Fin u) by (auto; tauto).
      destruct (unwrap u (p_header p) (p_data p)) as [[plain u1]|e]; [|reflexivity]. cbn [bind].
      destruct (zlen plain =? p_length p)%Z; reflexivity.
    - cbn [combine map] in *.
      change (pieces_of proto (raw_part p d :: raw_part p' d' :: ?l)) with
        (head_text proto d :: (octet_stream ++ part_binary p) :: pieces_of proto (raw_part p' d' :: l)).
      cbn [unwrap_parts].
      rewrite <- (app_nil_r (part_binary p)).
      rewrite (unwrap_part_eq proto d p [] u) by (auto; tauto).
      destruct (unwrap u (p_header p) (p_data p)) as [[plain u1]|e]; [|reflexivity]. cbn [bind].
      destruct (zlen plain =? p_length p)%Z; [|reflexivity]. cbn [bind]. rewrite IH. reflexivity.
  Qed.

  Lemma body_raw proto ps texts : Forall2 (part_text proto) ps texts ->
    exists ds, Forall2 (fun p d => (0 <= p_length p)%Z /\ decimal_of d (Z.to_N (p_length p))) ps ds /\
      concat texts = concat (map (raw_text proto) (map (fun '(p, d) => raw_part p d) (combine ps ds))).
  Proof.
    induction 1 as [|p t ps ts Hp H (ds & H2 & E)].
    - exists []. split; [constructor|reflexivity].
    - destruct Hp as [p d Hz Hd]. exists (d :: ds). split; [constructor; auto|].
      cbn [combine map concat]. rewrite <- E. f_equal.
      unfold raw_text, Mline, head_text, octet_stream, raw_part, r_digits, r_binary. rewrite <- !app_assoc. reflexivity.
  Qed.

  Lemma unwrap_body proto ps body u : In proto protocols -> body_text proto ps body -> ps <> [] ->
    Forall (fun p => opaque (part_binary p) /\ part_fits p) ps ->
    unwrap_message unwrap B0 u body = open_parts u ps.
  Proof.
    intros Hp (texts & Ht & ->) Hne Hok. destruct (body_raw proto ps texts Ht) as (ds & H2 & E).
    rewrite E. unfold unwrap_message. change (lit "--Encrypted Boundary--" ++ newline) with Fin.
    rewrite split_raw.
    - cbn [filter nonempty]. rewrite pieces_nonempty. now apply unwrap_pieces.
    - exact Hp.
    - clear -Hok H2. induction H2 as [|p d ps ds [_ (_ & Hd & _)] H2 IH]; [constructor|].
      cbn [combine map]. constructor; [|apply IH; exact (Forall_inv_tail Hok)].
      split; [exact Hd|]. apply (Forall_inv Hok).
    - intros Hm. destruct H2 as [|p d ps ds]; [congruence|]. discriminate.
  Qed.

  Lemma open_parts_iff ps : forall u r u', open_parts u ps = Ok (r, u') <-> opened unwrap u ps r u'.
  Proof.
    induction ps as [|p ps IH]; intros u r u'; cbn [open_parts].
    - split.
      + intros H. apply Ok_pair_inj in H. destruct H as [<- <-]. constructor.
      + intros H. inversion H; subst. reflexivity.
    - split.
      + intros H. apply bind_ok in H. destruct H as ([plain u1] & Hu & H).
        destruct (Z.eqb_spec (zlen plain) (p_length p)) as [El|]; [|discriminate].
        apply bind_ok in H. destruct H as ([r' u2] & Hr & H). apply Ok_pair_inj in H. destruct H as [<- <-].
        econstructor; [exact Hu|exact El|]. now apply IH.
      + intros H. inversion H as [|? ? ? plain u1 r' u2 Hu El Ho]; subst. rewrite Hu. cbn [bind].
        rewrite El, Z.eqb_refl. apply IH in Ho. rewrite Ho. reflexivity.
  Qed.

  (* a run of the context that succeeds but with a wrong length *)
  Lemma open_parts_mismatch ps : forall u,
    (forall r u', open_parts u ps <> Ok (r, u')) ->
    (forall u0 h d, exists plain u1, unwrap u0 h d = Ok (plain, u1)) ->
    open_parts u ps = Err WinRMError.
  Proof.
    induction ps as [|p ps IH]; intros u H Ht; cbn [open_parts] in *.
    - exfalso. now apply (H [] u).
    - destruct (Ht u (p_header p) (p_data p)) as (plain & u1 & Hu). rewrite Hu in *. cbn [bind] in *.
      destruct (Z.eqb (zlen plain) (p_length p)); [|reflexivity].
      rewrite (IH u1); [reflexivity| |exact Ht].
      intros r u' E. apply (H (plain ++ r) u'). rewrite E. reflexivity.
  Qed.

End Unwrapping.

Section Enc.
  Context {W U : Type}.
  Context (wrap : W -> list N -> res (list N * list N * Z * W)).
  Context (unwrap : U -> list N -> list N -> res (list N * U)).

  (* ---- wrapping ---- *)
  Lemma wrap_part_run proto w m t w' : wrap_part wrap proto w m = Ok (t, w') ->
    exists h d pad, wrap w m = Ok (h, d, pad, w') /\
      part_fits {| p_length := zlen m + pad; p_header := h; p_data := d |} /\
      ((0 <= zlen m + pad)%Z -> part_text proto {| p_length := zlen m + pad; p_header := h; p_data := d |} t).
  Proof.
    unfold wrap_part. intros H. apply bind_ok in H. destruct H as ([[[h d] pad] w1] & Hw & H).
    apply bind_ok in H. destruct H as (hl & Hh & H). apply Ok_pair_inj in H. destruct H as [<- <-].
    apply pack_i_inv in Hh; [|apply zlen_nonneg]. destruct Hh as [Hlt ->].
    exists h, d, pad. split; [exact Hw|]. split; [exact Hlt|]. intros Hz.
    match goal with |- part_text _ ?p ?t => replace t with
       (lit "--Encrypted Boundary" ++ newline ++
       lit "	Content-Type: " ++ proto ++ newline ++
       lit "	OriginalContent: type=application/soap+xml;charset=UTF-8;Length=" ++ py_str (zlen m + pad) ++ newline ++
       lit "--Encrypted Boundary" ++ newline ++
       lit "	Content-Type: application/octet-stream" ++ newline ++
       part_binary p) end.
    - apply part_text_intro; [exact Hz|]. now apply py_str_decimal.
    - cbn [join]. unfold part_binary, newline, crlf, mime_boundary. cbn [p_header p_data].
      rewrite <- !app_assoc. reflexivity.
  Qed.

  Lemma wrap_parts_run proto ms : forall w t w', wrap_parts wrap proto w ms = Ok (t, w') ->
    exists ps, sealed wrap w ms ps w' /\ Forall part_fits ps /\
      (Forall (fun p => 0 <= p_length p)%Z ps -> exists texts, Forall2 (part_text proto) ps texts /\ t = concat texts).
  Proof.
    induction ms as [|m ms IH]; intros w t w' H; cbn [wrap_parts] in H.
    - apply Ok_pair_inj in H. destruct H as [<- <-]. exists []. split; [constructor|]. split; [constructor|].
      intros _. exists []. split; [constructor|reflexivity].
    - apply bind_ok in H. destruct H as ([p w1] & Hp & H). apply bind_ok in H. destruct H as ([q w2] & Hq & H).
      apply Ok_pair_inj in H. destruct H as [<- <-].
      destruct (wrap_part_run _ _ _ _ _ Hp) as (h & d & pad & Hw & Hf & Ht).
      destruct (IH _ _ _ Hq) as (ps & Hs & Hfs & Hts).
      eexists. split; [econstructor; eauto|]. split; [constructor; assumption|].
      intros Hn. destruct (Hts (Forall_inv_tail Hn)) as (texts & H2 & ->).
      exists (p :: texts). split; [|reflexivity]. constructor; [|exact H2]. apply Ht. exact (Forall_inv Hn).
  Qed.

  (* the message as it was cut, and its text *)
  Lemma wrap_message_run proto w m ct body w' : wrap_message wrap proto w m = Ok (ct, body, w') ->
    exists pieces ps, cut_message proto m pieces /\ sealed wrap w pieces ps w' /\ Forall part_fits ps /\
      (Forall (fun p => 0 <= p_length p)%Z ps -> body_text proto ps body) /\
      (ct = lit "multipart/x-multi-encrypted" /\ (proto = credssp_protocol /\ (16384 < zlen m)%Z) \/
       ct = lit "multipart/encrypted" /\ ~ (proto = credssp_protocol /\ (16384 < zlen m)%Z)).
  Proof.
    clear unwrap U. unfold wrap_message. change CREDSSP with credssp_protocol.
    destruct (str_eqb proto credssp_protocol && (SIXTEEN_KB <? zlen m)%Z)%bool eqn:E; intros H.
    - apply andb_prop in E. destruct E as [E1 E2]. apply str_eqb_spec in E1. subst proto.
      unfold SIXTEEN_KB in *.
      destruct (range_chunks (Z.to_nat 16384) m ltac:(lia)) as (starts & Es & Ec).
      rewrite Z2Nat.id in Es, Ec by lia. rewrite Es in H. cbn [bind] in H. rewrite Ec in H.
      apply bind_ok in H. destruct H as ([enc w1] & He & H).
      apply Ok_inj in H. apply pair_inj in H. destruct H as [H <-]. apply pair_inj in H. destruct H as [<- <-].
      destruct (wrap_parts_run _ _ _ _ _ He) as (ps & Hs & Hf & Ht).
      eexists _, ps. split; [|split; [exact Hs|split; [exact Hf|split]]].
      + split; [apply chunks_concat; lia|]. split.
        * intros _. apply cut_chunks; lia.
        * intros Hn. exfalso. apply Hn. split; [reflexivity|lia].
      + intros Hn. destruct (Ht Hn) as (texts & H2 & ->). exists texts. split; [exact H2|]. reflexivity.
      + left. split; [reflexivity|]. split; [reflexivity|lia].
    - assert (Hn : ~ (proto = credssp_protocol /\ (16384 < zlen m)%Z)).
      { intros [-> Hm]. rewrite str_eqb_refl in E. unfold SIXTEEN_KB in E. cbn [andb] in E. lia. }
      apply bind_ok in H. destruct H as ([enc w1] & He & H).
      apply Ok_inj in H. apply pair_inj in H. destruct H as [H <-]. apply pair_inj in H. destruct H as [<- <-].
      destruct (wrap_part_run _ _ _ _ _ He) as (h & d & pad & Hw & Hf & Ht).
      exists [m]. eexists. split; [|split; [econstructor; [exact Hw|constructor]|split; [constructor; [exact Hf|constructor]|split]]].
      + split; [cbn; apply app_nil_r|]. split; [tauto|reflexivity].
      + intros Hz. exists [enc]. split; [constructor; [|constructor]|].
        * apply Ht. exact (Forall_inv Hz).
        * cbn [concat]. rewrite app_nil_r. reflexivity.
      + right. split; [reflexivity|exact Hn].
  Qed.

  Lemma sealed_opened (R : W -> U -> Prop) : matching wrap unwrap R ->
    forall w ms ps w', sealed wrap w ms ps w' -> forall u, R w u ->
    exists r u', opened unwrap u ps r u' /\ padded ms r /\ R w' u'.
  Proof.
    intros HM w ms ps w' Hs. induction Hs as [w|w m ms h d pad w1 ps w2 Hw Hs IH]; intros u HR.
    - exists [], u. split; [constructor|]. split; [constructor|exact HR].
    - destruct (HM w u m h d pad w1 HR Hw) as (padding & u1 & Hp & Hu & HR1).
      destruct (IH u1 HR1) as (r & u2 & Ho & Hpad & HR2).
      exists ((m ++ padding) ++ r), u2. split; [|split; [constructor; exact Hpad|exact HR2]].
      econstructor; [exact Hu| |exact Ho]. cbn [p_length]. rewrite zlen_app. lia.
  Qed.

  Lemma sealed_nonneg (R : W -> U -> Prop) : matching wrap unwrap R ->
    forall w ms ps w', sealed wrap w ms ps w' -> forall u, R w u -> Forall (fun p => 0 <= p_length p)%Z ps.
  Proof.
    intros HM w ms ps w' Hs. induction Hs as [w|w m ms h d pad w1 ps w2 Hw Hs IH]; intros u HR; [constructor|].
    destruct (HM w u m h d pad w1 HR Hw) as (padding & u1 & Hp & Hu & HR1). constructor; [|now apply (IH u1)].
    cbn [p_length]. pose proof (zlen_nonneg m). pose proof (zlen_nonneg padding). lia.
  Qed.

  Lemma sealed_length w ms ps w' : sealed wrap w ms ps w' -> length ps = length ms.
  Proof. induction 1; cbn [length]; congruence. Qed.

  Lemma cut_nonempty proto m pieces : cut_message proto m pieces -> pieces <> [].
  Proof.
    clear wrap unwrap W U. intros (H1 & H2 & H3) ->.
    destruct (list_eq_dec N.eq_dec proto credssp_protocol) as [E|E].
    - destruct (Z_lt_dec 16384 (zlen m)) as [L|L].
      + destruct (H2 (conj E L)) as (full & last & Hf & _). destruct full; discriminate.
      + assert (F : [] = [m]) by (apply H3; tauto). discriminate.
    - assert (F : [] = [m]) by (apply H3; tauto). discriminate.
  Qed.

  Lemma unwrap_wrapped (R : W -> U -> Prop) proto w u m ct body w' :
    In proto protocols -> matching wrap unwrap R -> R w u ->
    wrap_message wrap proto w m = Ok (ct, body, w') ->
    exists pieces ps, cut_message proto m pieces /\ sealed wrap w pieces ps w' /\ body_text proto ps body /\
      (Forall (fun p => opaque (part_binary p)) ps ->
       exists r u', unwrap_message unwrap (lit "Encrypted Boundary") u body = Ok (r, u') /\ padded pieces r /\ R w' u').
  Proof.
    intros Hp HM HR H. destruct (wrap_message_run _ _ _ _ _ _ H) as (pieces & ps & Hc & Hs & Hf & Ht & _).
    pose proof (sealed_nonneg R HM _ _ _ _ Hs u HR) as Hn.
    exists pieces, ps. split; [exact Hc|]. split; [exact Hs|]. split; [now apply Ht|].
    intros Ho. destruct (sealed_opened R HM _ _ _ _ Hs u HR) as (r & u' & Hop & Hpad & HR').
    exists r, u'. split; [|split; assumption].
    change (lit "Encrypted Boundary") with B0.
    rewrite (unwrap_body unwrap proto ps body u Hp (Ht Hn)).
    - now apply open_parts_iff.
    - intros ->. apply cut_nonempty in Hc. apply sealed_length in Hs. destruct pieces; [congruence|discriminate].
    - clear -Ho Hf. induction Ho as [|p ps Hp Ho IH]; constructor.
      + split; [exact Hp|exact (Forall_inv Hf)].
      + apply IH. exact (Forall_inv_tail Hf).
  Qed.
End Enc.
