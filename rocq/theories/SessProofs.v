(* Proofs about the session and the security context (C55, C56). *)
From Verif Require Import Base BaseProofs Lit NumModel ReModel EncModel TransModel TransSpec TransProofs NegModel SessModel SessSpec.

Lemma kwargs_get prefix names kw short v :
  NoDup (map (skipn (S (length prefix))) names) ->
  dict_get str_eqb short (get_auth_kwargs prefix names kw) = Some v <->
  exists long, In long names /\ skipn (S (length prefix)) long = short /\ dict_get str_eqb long kw = Some (Some v).
Proof.
  induction names as [|n names IH]; cbn [map get_auth_kwargs]; intros D.
  - split; [discriminate|intros (l & [] & _)].
  - apply NoDup_cons_iff in D as [Hn D']. specialize (IH D').
    assert (Other : forall w, skipn (S (length prefix)) n = short ->
              dict_get str_eqb short (get_auth_kwargs prefix names kw) = Some w -> False).
    { clear IH. intros w E. rewrite E in Hn. clear E. revert Hn.
      induction names as [|m names IH]; cbn [map get_auth_kwargs]; intros Hn; [discriminate|].
      assert (Hm : skipn (S (length prefix)) m <> short) by (intros E; apply Hn; left; exact E).
      assert (Hr : ~ In short (map (skipn (S (length prefix))) names)) by (intros E; apply Hn; right; exact E).
      apply NoDup_cons_iff in D' as [_ D'].
      destruct (dict_get str_eqb m kw) as [[x|]|]; try (apply IH; assumption).
      cbn [dict_get]. rewrite str_eqb_neq by congruence. apply IH; assumption. }
    destruct (dict_get str_eqb n kw) as [[x|]|] eqn:G.
    + cbn [dict_get]. destruct (str_eqb short (skipn (S (length prefix)) n)) eqn:E.
      * apply str_eqb_spec in E. split.
        -- intros [= <-]. exists n. split; [left; reflexivity|]. split; [congruence|exact G].
        -- intros (l & [<-|Hl] & El & Gl); [congruence|].
           exfalso. apply (Other v (eq_sym E)). apply IH. exists l. auto.
      * rewrite IH. split; intros (l & Hl & El & Gl).
        -- exists l. split; [right|]; auto.
        -- destruct Hl as [<-|Hl].
           ++ exfalso. subst short. rewrite str_eqb_refl in E. discriminate.
           ++ exists l. auto.
    + rewrite IH. split; intros (l & Hl & El & Gl).
      * exists l. split; [right|]; auto.
      * destruct Hl as [<-|Hl]; [congruence|]. exists l. auto.
    + rewrite IH. split; intros (l & Hl & El & Gl).
      * exists l. split; [right|]; auto.
      * destruct Hl as [<-|Hl]; [congruence|]. exists l. auto.
Qed.

Lemma nodup_ok (l : list (list N)) : (fix go l := match l with [] => true | x :: l' => (negb (existsb (str_eqb x) l') && go l')%bool end) l = true -> NoDup l.
Proof.
  induction l as [|x l IH]; intros H; [constructor|].
  apply andb_prop in H as [H1 H2]. constructor; [|apply IH; exact H2].
  intros Hi. assert (E : existsb (str_eqb x) l = true).
  { apply existsb_exists. exists x. split; [exact Hi|apply str_eqb_refl]. }
  rewrite E in H1. discriminate.
Qed.
Lemma forwarded_gen prefix names pairs g :
  NoDup (map (skipn (S (length prefix))) names) ->
  pairs = map (fun n => (n, skipn (S (length prefix)) n)) names ->
  forwarded pairs g (get_auth_kwargs prefix names (g_kwargs g)).
Proof.
  intros D -> short v. rewrite kwargs_get by exact D. split; intros (l & H).
  - destruct H as (H1 & H2 & H3). exists l. split; [|exact H3]. apply in_map_iff. exists l. split; [exact (f_equal (pair l) H2)|exact H1].
  - destruct H as (H1 & H3). apply in_map_iff in H1 as (m & E & Hm). apply pair_inj in E as [-> <-]. exists l. auto.
Qed.
Lemma forwarded_negotiate g : forwarded negotiate_parameters g (get_auth_kwargs (lit "negotiate") negotiate_kwargs (g_kwargs g)).
Proof. apply forwarded_gen; [apply nodup_ok; vm_compute; reflexivity|vm_compute; reflexivity]. Qed.
Lemma forwarded_credssp g : forwarded credssp_parameters g (get_auth_kwargs (lit "credssp") credssp_kwargs (g_kwargs g)).
Proof. apply forwarded_gen; [apply nodup_ok; vm_compute; reflexivity|vm_compute; reflexivity]. Qed.

(* ---- taking a connection apart ---- *)
Lemma connect_ok ipv6 v g t z : connect ipv6 v g = Ok (t, z) ->
  transport_init ipv6 (g_settings g) = Ok t /\ make_session v t g = Ok z.
Proof.
  unfold connect. intros H. apply bind_ok in H as (t' & H1 & H). apply bind_ok in H as (z' & H2 & H).
  apply Ok_pair_inj in H as [-> ->]. auto.
Qed.
Lemma session_parts v t g z : make_session v t g = Ok z ->
  exists h, build_auth t g = Ok (z_auth z, z_cert z, h) /\
    z_headers z = [(lit "User-Agent", lit "Python PSRP Client"); (lit "Accept-Encoding", lit "identity")]
                     ++ match h with Some x => [(lit "Authorization", x)] | None => [] end /\
    z_proxies z = match g_proxy g with
      | Some p => [(if s_ssl (t_settings t) then lit "https" else lit "http", Some p)]
      | None => if g_no_proxy g then [(if s_ssl (t_settings t) then lit "https" else lit "http", None)]
                else map (fun e => (fst e, Some (snd e))) (v_proxies v) end /\
    z_verify z = match g_verify g, v_verify v with VerifyBool true, Some e => e | x, _ => x end /\
    z_retry_total z = g_retries g /\ z_retry_connect z = g_retries g /\ z_retry_status z = g_retries g /\
    z_retry_read z = 0%Z /\ z_backoff z = g_backoff g /\ z_statuses z = [425; 429; 503]%Z /\ z_key_password z = g_key_password g.
Proof.
  unfold make_session. intros H. apply bind_ok in H as (((a & c) & h) & H1 & H).
  apply Ok_inj in H. exists h. subst z. cbn. rewrite H1. auto 20.
Qed.

Lemma session_verify ipv6 v g t z : connect ipv6 v g = Ok (t, z) ->
  (forall p, g_verify g = VerifyPath p -> z_verify z = VerifyPath p) /\
  (g_verify g = VerifyBool false -> z_verify z = VerifyBool false) /\
  (g_verify g = VerifyBool true -> z_verify z = match v_verify v with Some e => e | None => VerifyBool true end) /\
  (z_verify z = VerifyBool false ->
     g_verify g = VerifyBool false \/ (g_verify g = VerifyBool true /\ v_verify v = Some (VerifyBool false))).
Proof.
  intros H. apply connect_ok in H as [_ H]. apply session_parts in H as (h & _ & _ & _ & E & _).
  rewrite E. destruct (g_verify g) as [[]|q], (v_verify v) as [e|];
    (split; [intros p [= <-]; reflexivity || (intros; discriminate)|]) || (split; [intros; discriminate|]);
    repeat split; intros; try discriminate; auto; try (right; split; congruence).
Qed.
Lemma session_proxies ipv6 v g t z : connect ipv6 v g = Ok (t, z) ->
  let scheme := if s_ssl (g_settings g) then lit "https" else lit "http" in
  (forall p, g_proxy g = Some p -> z_proxies z = [(scheme, Some p)]) /\
  (g_proxy g = None -> g_no_proxy g = true -> z_proxies z = [(scheme, None)]) /\
  (g_proxy g = None -> g_no_proxy g = false -> z_proxies z = map (fun e => (fst e, Some (snd e))) (v_proxies v)).
Proof.
  intros H. apply connect_ok in H as [I H]. apply init_wrap in I as [_ I].
  apply session_parts in H as (h & _ & _ & E & _). rewrite I in E. cbv zeta. rewrite E.
  destruct (g_proxy g), (g_no_proxy g); repeat split; intros; congruence.
Qed.
Lemma session_retries ipv6 v g t z : connect ipv6 v g = Ok (t, z) ->
  z_retry_read z = 0%Z /\ z_retry_connect z = g_retries g /\ z_retry_total z = g_retries g /\ z_retry_status z = g_retries g /\
  z_backoff z = g_backoff g /\ z_statuses z = [425; 429; 503]%Z.
Proof. intros H. apply connect_ok in H as [I H]. apply session_parts in H as (h & H). tauto. Qed.

(* ---- authenticators ---- *)
Lemma auth_cases t g a c h : build_auth t g = Ok (a, c, h) ->
  let s := t_settings t in
  (s_auth s = lit "basic" /\ exists u p, s_username s = Some u /\ s_password s = Some p /\ a = Basic u p /\ c = None /\ h = None) \/
  (s_auth s = lit "certificate" /\ s_ssl s = true /\ exists k p, s_key_pem s = Some k /\ s_pem s = Some p /\ a = NoAuth /\ c = Some (p, k) /\
     h = Some (lit "http://schemas.dmtf.org/wbem/wsman/1/wsman/secprofile/https/mutual")) \/
  (s_auth s = lit "credssp" /\ exists u p, s_username s = Some u /\ s_password s = Some p /\
     a = CredSSP u p (get_auth_kwargs (lit "credssp") credssp_kwargs (g_kwargs g)) /\ c = None /\ h = None) \/
  (s_auth s <> lit "basic" /\ s_auth s <> lit "certificate" /\ s_auth s <> lit "credssp" /\
     a = Negotiate (s_username s) (s_password s) (s_auth s) (t_wrap t) (get_auth_kwargs (lit "negotiate") negotiate_kwargs (g_kwargs g)) /\
     c = None /\ h = None).
Proof.
  unfold build_auth. cbv zeta. set (s := t_settings t).
  destruct (str_eqb (s_auth s) (lit "basic")) eqn:E1.
  { apply str_eqb_spec in E1. destruct (s_username s), (s_password s); try discriminate.
    intros H. apply Ok_inj in H. apply pair_inj in H as [H <-]. apply pair_inj in H as [<- <-]. left. eauto 10. }
  destruct (str_eqb (s_auth s) (lit "certificate")) eqn:E2.
  { apply str_eqb_spec in E2. destruct (s_key_pem s), (s_pem s), (s_ssl s); try discriminate.
    intros H. apply Ok_inj in H. apply pair_inj in H as [H <-]. apply pair_inj in H as [<- <-]. right; left. eauto 12. }
  destruct (str_eqb (s_auth s) (lit "credssp")) eqn:E3.
  { apply str_eqb_spec in E3. destruct (s_username s), (s_password s); try discriminate.
    intros H. apply Ok_inj in H. apply pair_inj in H as [H <-]. apply pair_inj in H as [<- <-]. right; right; left. eauto 10. }
  intros H. apply Ok_inj in H. apply pair_inj in H as [H <-]. apply pair_inj in H as [<- <-]. right; right; right.
  repeat split; try reflexivity; intros E; rewrite E, str_eqb_refl in *; discriminate.
Qed.
Lemma auth_error t g e : build_auth t g = Err e -> e = ValueError /\ ~ equipped (t_settings t).
Proof.
  unfold build_auth, equipped. set (s := t_settings t).
  destruct (str_eqb (s_auth s) (lit "basic")) eqn:E1.
  { apply str_eqb_spec in E1. destruct (s_username s), (s_password s); intros H; inversion H; (split; [reflexivity|]);
      intros [Q _]; destruct (Q (or_introl E1)); congruence. }
  destruct (str_eqb (s_auth s) (lit "certificate")) eqn:E2.
  { apply str_eqb_spec in E2. destruct (s_key_pem s), (s_pem s), (s_ssl s); intros H; inversion H; (split; [reflexivity|]);
      intros [_ Q]; destruct (Q E2) as (? & ? & ?); congruence. }
  destruct (str_eqb (s_auth s) (lit "credssp")) eqn:E3; [|discriminate].
  apply str_eqb_spec in E3. destruct (s_username s), (s_password s); intros H; inversion H; (split; [reflexivity|]);
      intros [Q _]; destruct (Q (or_intror E3)); congruence.
Qed.
Lemma auth_lits : lit "basic" <> lit "certificate" /\ lit "basic" <> lit "credssp" /\ lit "certificate" <> lit "credssp".
Proof. repeat split; intros H; apply (f_equal (@length N)) in H; discriminate H || (vm_compute in H; discriminate H). Qed.
Lemma auth_equipped t g x : build_auth t g = Ok x -> equipped (t_settings t).
Proof.
  destruct x as [[a c] h]. intros H. apply auth_cases in H. cbv zeta in H.
  destruct auth_lits as (L1 & L2 & L3). unfold equipped.
  destruct H as [(E & u & p & U & P & _)|[(E & S & k & p & K & P & _)|[(E & u & p & U & P & _)|(N1 & N2 & N3 & _)]]].
  - rewrite E, U, P. split; [intros _; split; discriminate|intros Q; destruct (L1 Q)].
  - rewrite E, K, P, S. split; [intros [Q|Q]; [destruct L1; auto|destruct (L3 Q)]|]. intros _. repeat split; discriminate.
  - rewrite E, U, P. split; [intros _; split; discriminate|intros Q; destruct L3; auto].
  - split; [intros [Q|Q]; contradiction|intros Q; contradiction].
Qed.
Lemma connects_iff ipv6 v g :
  ((exists tz, connect ipv6 v g = Ok tz) <-> acceptable (g_settings g) /\ equipped (g_settings g)) /\
  (forall e, connect ipv6 v g = Err e -> e = ValueError).
Proof.
  split; [split|].
  - intros [[t z] H]. apply connect_ok in H as [I H]. split; [apply (init_accepts ipv6); eauto|].
    apply session_parts in H as (h & H & _). apply auth_equipped in H. apply init_wrap in I as [_ I]. rewrite I in H. exact H.
  - intros [A Q]. apply (init_accepts ipv6) in A as [t I]. unfold connect. rewrite I. cbn [bind].
    apply init_wrap in I as [_ I]. unfold make_session. destruct (build_auth t g) as [[[a c] h]|e] eqn:B.
    + cbn [bind]. eauto.
    + apply auth_error in B as [_ B]. rewrite I in B. contradiction.
  - unfold connect. intros e. destruct (transport_init ipv6 (g_settings g)) as [t|e'] eqn:I; cbn [bind].
    2:{ intros [= <-]. exact (init_error _ _ _ I). }
    unfold make_session. destruct (build_auth t g) as [[[a c] h]|e'] eqn:B; cbn [bind]; [discriminate|].
    intros [= <-]. apply auth_error in B. tauto.
Qed.

Lemma session_auth ipv6 v g t z : connect ipv6 v g = Ok (t, z) ->
  let s := g_settings g in
  match z_auth z with
  | NoAuth => s_auth s = lit "certificate" /\ s_ssl s = true /\
      exists k c, s_key_pem s = Some k /\ s_pem s = Some c /\ z_cert z = Some (c, k)
  | Basic u p => s_auth s = lit "basic" /\ s_username s = Some u /\ s_password s = Some p /\ z_cert z = None
  | CredSSP u p kw => s_auth s = lit "credssp" /\ s_username s = Some u /\ s_password s = Some p /\ z_cert z = None /\
      forwarded credssp_parameters g kw
  | Negotiate u p provider wrap kw => In (s_auth s) [lit "kerberos"; lit "negotiate"; lit "ntlm"] /\ provider = s_auth s /\
      u = s_username s /\ p = s_password s /\ z_cert z = None /\ (wrap = true <-> encryption_required s) /\
      forwarded negotiate_parameters g kw
  end.
Proof.
  intros H. apply connect_ok in H as [I H]. pose proof (proj1 (init_accepts ipv6 _) (ex_intro _ t I)) as A.
  apply init_wrap in I as [W I]. apply session_parts in H as (h & H & _). apply auth_cases in H. rewrite I in H. cbv zeta in H |- *.
  destruct H as [(E & u & p & U & P & Ea & Ec & _)|[(E & S & k & p & K & P & Ea & Ec & _)|[(E & u & p & U & P & Ea & Ec & _)|(N1 & N2 & N3 & Ea & Ec & _)]]];
    rewrite Ea, Ec.
  - auto.
  - split; [exact E|]. split; [exact S|]. exists k, p. auto.
  - repeat (split; [assumption || reflexivity|]). apply forwarded_credssp.
  - split. { destruct A as [[A|[A|A]] _]; [|contradiction|contradiction]. destruct A as [A|A]; [congruence|exact A]. }
    repeat (split; [assumption || reflexivity|]). apply forwarded_negotiate.
Qed.
Lemma headers_never_leak ipv6 v g t z : connect ipv6 v g = Ok (t, z) ->
  forall value, In (lit "Authorization", value) (z_headers z) ->
    s_auth (g_settings g) = lit "certificate" /\ value = lit "http://schemas.dmtf.org/wbem/wsman/1/wsman/secprofile/https/mutual".
Proof.
  intros H value. apply connect_ok in H as [I H]. apply init_wrap in I as [W I].
  apply session_parts in H as (h & H & E & _). apply auth_cases in H. rewrite I in H. cbv zeta in H. rewrite E.
  assert (D : forall x : list N, In (lit "Authorization", value) ([(lit "User-Agent", lit "Python PSRP Client"); (lit "Accept-Encoding", lit "identity")] ++ []) -> False).
  { intros _ [Q|[Q|[]]]; apply pair_inj in Q as [Q _]; vm_compute in Q; discriminate Q. }
  destruct H as [H|[H|[H|H]]]; intros Hi.
  - destruct H as (_ & u & p & _ & _ & _ & _ & ->). destruct (D [] Hi).
  - destruct H as (A & _ & k & p & _ & _ & _ & _ & ->). split; [exact A|].
    apply in_app_iff in Hi as [Hi|[Hi|[]]].
    + destruct (D []). apply in_app_iff. left. exact Hi.
    + apply pair_inj in Hi as [_ ->]. reflexivity.
  - destruct H as (_ & u & p & _ & _ & _ & _ & ->). destruct (D [] Hi).
  - destruct H as (_ & _ & _ & _ & _ & ->). destruct (D [] Hi).
Qed.

Lemma init_same ipv6 s s' : s_auth s = s_auth s' -> s_encryption s = s_encryption s' -> s_ssl s = s_ssl s' ->
  match transport_init ipv6 s, transport_init ipv6 s' with
  | Ok t, Ok t' => t_wrap t = t_wrap t' /\ t_settings t = s /\ t_settings t' = s'
  | Err e, Err e' => e = e'
  | _, _ => False
  end.
Proof.
  intros E1 E2 E3. unfold transport_init. rewrite E1, E2, E3.
  destruct (negb (one_of (s_auth s') supported_auths)); [reflexivity|].
  destruct (negb (one_of (s_encryption s') _)); [reflexivity|].
  match goal with |- context [if ?b then Err _ else _] => destruct b end; [reflexivity|]. cbn. auto.
Qed.
Lemma certificate_alone ipv6 v g u p : s_auth (g_settings g) = lit "certificate" ->
  session_of (connect ipv6 v (with_credentials u p g)) = session_of (connect ipv6 v g).
Proof.
  intros E. unfold connect.
  pose proof (init_same ipv6 (g_settings (with_credentials u p g)) (g_settings g) eq_refl eq_refl eq_refl) as S.
  destruct (transport_init ipv6 (g_settings (with_credentials u p g))) as [t|e], (transport_init ipv6 (g_settings g)) as [t'|e']; try contradiction.
  2:{ cbn. congruence. }
  destruct S as (Sw & S1 & S2). cbn [bind].
  unfold make_session, build_auth. rewrite S1, S2. unfold with_credentials.
  cbn [g_settings g_verify g_proxy g_no_proxy g_retries g_backoff g_key_password g_kwargs s_auth s_ssl s_key_pem s_pem].
  rewrite E. destruct auth_lits as (L1 & L2 & L3).
  rewrite (str_eqb_neq (lit "certificate") (lit "basic")) by congruence. rewrite str_eqb_refl.
  destruct (s_key_pem (g_settings g)), (s_pem (g_settings g)), (s_ssl (g_settings g)); reflexivity.
Qed.
Lemma credentials_alone ipv6 v g k c : s_auth (g_settings g) <> lit "certificate" ->
  session_of (connect ipv6 v (with_certificate k c g)) = session_of (connect ipv6 v g).
Proof.
  intros E. unfold connect.
  pose proof (init_same ipv6 (g_settings (with_certificate k c g)) (g_settings g) eq_refl eq_refl eq_refl) as S.
  destruct (transport_init ipv6 (g_settings (with_certificate k c g))) as [t|e], (transport_init ipv6 (g_settings g)) as [t'|e']; try contradiction.
  2:{ cbn. congruence. }
  destruct S as (Sw & S1 & S2). cbn [bind].
  unfold make_session, build_auth. rewrite S1, S2, Sw. unfold with_certificate.
  cbn [g_settings g_verify g_proxy g_no_proxy g_retries g_backoff g_key_password g_kwargs s_auth s_ssl s_username s_password].
  rewrite (str_eqb_neq (s_auth (g_settings g)) (lit "certificate")) by congruence.
  destruct (str_eqb (s_auth (g_settings g)) (lit "basic")), (str_eqb (s_auth (g_settings g)) (lit "credssp")),
    (s_username (g_settings g)), (s_password (g_settings g)), (s_ssl (g_settings g)); reflexivity.
Qed.
Lemma basic_in_clear ipv6 v g t z u p : connect ipv6 v g = Ok (t, z) -> z_auth z = Basic u p ->
  s_ssl (g_settings g) = true \/ s_encryption (g_settings g) = lit "never".
Proof.
  intros H Ha. pose proof (session_auth _ _ _ _ _ H) as B. cbv zeta in B. rewrite Ha in B. destruct B as (B & _).
  apply connect_ok in H as [I _]. pose proof (proj1 (init_accepts ipv6 _) (ex_intro _ t I)) as (_ & K & C).
  destruct (s_ssl (g_settings g)) eqn:S; [left; reflexivity|right].
  assert (Hn : ~ can_encrypt (s_auth (g_settings g))).
  { rewrite B. intros [Q|[Q|[Q|[Q|[]]]]]; vm_compute in Q; discriminate Q. }
  destruct K as [K|[K|[K|[]]]]; [| |congruence]; exfalso; apply Hn, C; [right|left]; auto.
Qed.

(* ---- the security context ---- *)
Section Cbt.
  Context (signature_hash : bytes -> res (option (list N))) (digest : list N -> bytes -> bytes).
  Lemma hash_spec der h : get_certificate_hash signature_hash digest der = Ok h <->
    exists a n, signature_hash der = Ok a /\ end_point_hash a n /\ h = digest n der.
  Proof.
    unfold get_certificate_hash. split.
    - intros H. apply bind_ok in H as (a & Ha & H). apply Ok_inj in H. subst h. exists a.
      destruct a as [n|]; [|exists (lit "sha256"); repeat split; [exact Ha|constructor]].
      destruct (str_eqb n (lit "md5")) eqn:E1, (str_eqb n (lit "sha1")) eqn:E2; cbn [orb];
        try apply str_eqb_spec in E1; try apply str_eqb_spec in E2.
      + exists (lit "sha256"). repeat split; [exact Ha|constructor; auto].
      + exists (lit "sha256"). repeat split; [exact Ha|constructor; auto].
      + exists (lit "sha256"). repeat split; [exact Ha|constructor; auto].
      + exists n. repeat split; [exact Ha|]. constructor; intros ->; rewrite str_eqb_refl in *; discriminate.
    - intros (a & n & -> & P & ->). cbn [bind]. destruct P as [n [->| ->]|n N1 N2|].
      + rewrite str_eqb_refl. reflexivity.
      + rewrite str_eqb_refl, orb_true_r. reflexivity.
      + rewrite !str_eqb_neq by assumption. reflexivity.
      + reflexivity.
  Qed.
  Lemma option_of_given name d kw v : dict_get str_eqb (lit name) kw = Some v -> option_of name d kw = v.
  Proof. unfold option_of. intros ->. reflexivity. Qed.

  Lemma context_spec u p provider wrap kw offered host c ca :
    context_args signature_hash digest u p provider wrap kw offered host c = Ok ca ->
    ca_username ca = u /\ ca_password ca = p /\ ca_wrap ca = wrap /\
    choose_protocol provider offered = Ok (ca_protocol ca) /\
    ca_service ca = option_of "service" (KwText (lit "host")) kw /\
    ca_delegate ca = truthy (option_of "delegate" (KwBool false) kw) /\
    ca_hostname ca = match option_of "hostname_override" (KwText []) kw with KwText (x :: s) => x :: s | _ => host end /\
    (forall b, ca_bindings ca = Some b <->
       truthy (option_of "send_cbt" (KwBool true) kw) = true /\
       exists der a n, c = TlsSocket der /\ signature_hash der = Ok a /\ end_point_hash a n /\
         b = lit "tls-server-end-point:" ++ digest n der).
  Proof.
    unfold context_args. intros H. apply bind_ok in H as (pr & Hp & H). apply bind_ok in H as (cbt & Hc & H).
    apply Ok_inj in H. subst ca. cbn [ca_username ca_password ca_wrap ca_protocol ca_service ca_delegate ca_hostname ca_bindings].
    repeat (split; [assumption || reflexivity|]). intros b.
    destruct (truthy (option_of "send_cbt" (KwBool true) kw)).
    2:{ apply Ok_inj in Hc. subst cbt. split; [discriminate|intros [Q _]; discriminate]. }
    destruct c as [| | |der]; cbn [get_cbt_data] in Hc;
      try (apply Ok_inj in Hc; subst cbt; split; [discriminate|intros (_ & d & a & n & Q & _); discriminate]).
    apply bind_ok in Hc as (h & Hh & Hc). apply Ok_inj in Hc. subst cbt.
    change (lit "tls-server-end-point:" ++ h) with (hd 0%N (lit "tls-server-end-point:") :: (tl (lit "tls-server-end-point:") ++ h)).
    cbv beta iota. pose proof Hh as Hh'. apply hash_spec in Hh' as (a & n & A1 & A2 & A3). split.
    - intros Q. apply Some_inj in Q. subst b. split; [reflexivity|]. exists der, a, n. subst h. auto.
    - intros (_ & d & a' & n' & Q & B1 & B2 & ->). inversion Q; subst d.
      assert (E : get_certificate_hash signature_hash digest der = Ok (digest n' der)) by (apply hash_spec; eauto 6).
      rewrite Hh in E. apply Ok_inj in E. subst h. rewrite E. reflexivity.
  Qed.

  (* from the arguments of WSMan to those of spnego.client *)
  Definition given (g : config) (name : String.string) (default : kwvalue) : kwvalue :=
    match dict_get str_eqb (lit name) (g_kwargs g) with Some (Some x) => x | _ => default end.
  Lemma given_option (g : config) kw long short d : forwarded negotiate_parameters g kw ->
    (forall l, In (l, lit short) negotiate_parameters <-> l = lit long) ->
    option_of short d kw = given g long d.
  Proof.
    intros F P. unfold option_of, given.
    destruct (dict_get str_eqb (lit long) (g_kwargs g)) as [[x|]|] eqn:G.
    - assert (K : dict_get str_eqb (lit short) kw = Some x); [|rewrite K; reflexivity].
      apply F. exists (lit long). split; [apply P; reflexivity|exact G].
    - destruct (dict_get str_eqb (lit short) kw) eqn:K; [|reflexivity].
      apply F in K as (l & Hl & Hg). apply P in Hl. subst l. congruence.
    - destruct (dict_get str_eqb (lit short) kw) eqn:K; [|reflexivity].
      apply F in K as (l & Hl & Hg). apply P in Hl. subst l. congruence.
  Qed.
End Cbt.
Ltac named := intros l; split;
  [ intros [Q|[Q|[Q|[Q|[]]]]]; apply pair_inj in Q as [Q1 Q2]; first [exact (eq_sym Q1) | vm_compute in Q2; discriminate Q2]
  | intros ->; vm_compute; tauto ].
Lemma named_service l : In (l, lit "service") negotiate_parameters <-> l = lit "negotiate_service".
Proof. revert l. named. Qed.
Lemma named_delegate l : In (l, lit "delegate") negotiate_parameters <-> l = lit "negotiate_delegate".
Proof. revert l. named. Qed.
Lemma named_host l : In (l, lit "hostname_override") negotiate_parameters <-> l = lit "negotiate_hostname_override".
Proof. revert l. named. Qed.
Lemma named_cbt l : In (l, lit "send_cbt") negotiate_parameters <-> l = lit "negotiate_send_cbt".
Proof. revert l. named. Qed.

Lemma connection_context (signature_hash : bytes -> res (option (list N))) (digest : list N -> bytes -> bytes)
    ipv6 v g t z u p provider wrap kw offered host c ca :
  connect ipv6 v g = Ok (t, z) -> z_auth z = Negotiate u p provider wrap kw ->
  context_args signature_hash digest u p provider wrap kw offered host c = Ok ca ->
  ca_username ca = s_username (g_settings g) /\ ca_password ca = s_password (g_settings g) /\
  (ca_wrap ca = true <-> encryption_required (g_settings g)) /\
  ca_service ca = given g "negotiate_service" (KwText (lit "host")) /\
  ca_delegate ca = truthy (given g "negotiate_delegate" (KwBool false)) /\
  ca_hostname ca = match given g "negotiate_hostname_override" (KwText []) with KwText (x :: s) => x :: s | _ => host end /\
  (forall b, ca_bindings ca = Some b <->
     truthy (given g "negotiate_send_cbt" (KwBool true)) = true /\
     exists der a n, c = TlsSocket der /\ signature_hash der = Ok a /\ end_point_hash a n /\
       b = lit "tls-server-end-point:" ++ digest n der).
Proof.
  intros H Ha Hc. pose proof (session_auth _ _ _ _ _ H) as S. cbv zeta in S. rewrite Ha in S.
  destruct S as (_ & _ & -> & -> & _ & W & F). apply context_spec in Hc as (E1 & E2 & E3 & _ & E4 & E5 & E6 & E7).
  rewrite E3. rewrite <- (given_option g kw "negotiate_service" "service" _ F named_service).
  rewrite <- (given_option g kw "negotiate_delegate" "delegate" _ F named_delegate).
  rewrite <- (given_option g kw "negotiate_hostname_override" "hostname_override" _ F named_host).
  rewrite <- (given_option g kw "negotiate_send_cbt" "send_cbt" _ F named_cbt).
  auto 10.
Qed.
