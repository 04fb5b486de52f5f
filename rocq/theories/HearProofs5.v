(* C69: a pool takes from a message what the message says. *)
From Verif Require Import Base BaseProofs Lit NumModel TextModel TextSpec Utf8Model MsgModel MsgSpec XmlModel SerModel SerSpec SerSpec2 SerClasses SendClasses WireModel WireSpec WireProofs ShellModel ObjModel TellModel LibModel RdSpec RdProofs4 HearSpec HearProofs HearProofs2 HearSpec2.
From Verif Require UtilModel TextProofs2 PoolModel PoolSpec SerProofs5.
Require Import Lia ZifyBool ZifyNat ZifyN.
Local Open Scope list_scope.

Definition call_fields : list (list N * meta) := [(lit "ci", pm "I64" "ci" false); (lit "mi", cm "HostMethodIdentifier" "mi" false); (lit "mp", lm "mp" false any_meta ["System.Object[]"; "System.Array"; "System.Object"]%string)].
Lemma init_class : option_map cd_extended (sending (lit "RunspacePoolInitData")) = Some [(lit "min_runspaces", pm "I32" "MinRunspaces" false); (lit "max_runspaces", pm "I32" "MaxRunspaces" false)].
Proof. vm_compute. reflexivity. Qed.
Lemma pool_state_class : option_map cd_extended (sending (lit "RunspacePoolStateMessage")) = Some [(lit "state", pm "I32" "RunspaceState" false); (lit "error_record", Meta KPlain (lit "Obj") None true (Some (lit "ErrorRecord")))].
Proof. vm_compute. reflexivity. Qed.
Lemma capability_class : option_map cd_extended (sending (lit "SessionCapability")) = Some [(lit "protocol_version", pm "Version" "protocolversion" false); (lit "ps_version", pm "Version" "PSVersion" false); (lit "serialization_version", pm "Version" "SerializationVersion" false); (lit "time_zone", pm "BA" "TimeZone" true)].
Proof. vm_compute. reflexivity. Qed.
Lemma key_class : option_map cd_extended (sending (lit "EncryptedSessionKey")) = Some [(lit "session_key", pm "S" "EncryptedSessionKey" false)].
Proof. vm_compute. reflexivity. Qed.
Lemma availability_class : option_map cd_extended (sending (lit "RunspaceAvailability")) = Some [(lit "response", pm "*" "SetMinMaxRunspacesResponse" false); (lit "ci", pm "I64" "ci" false)].
Proof. vm_compute. reflexivity. Qed.
Lemma pool_call_class : option_map cd_extended (sending (lit "RunspacePoolHostCall")) = Some call_fields.
Proof. vm_compute. reflexivity. Qed.
Lemma pipe_call_class : option_map cd_extended (sending (lit "PipelineHostCall")) = Some call_fields.
Proof. vm_compute. reflexivity. Qed.

Section Told.
  Context {HS RK : Type} (x : outside HS RK) (key : option bytes).
  Let ci := option_map (x_cipher x) key.
  Lemma whole_spelled tag z v : In tag (map lit ["I32"; "I64"]%string) -> spelled ci (x_float x) tag (Some (py_str z)) v -> v = VInt z.
  Proof.
    intros T H. inversion H; subst; cbn [map In] in T; try (exfalso; destruct T as [T|[T|[]]]; discriminate T);
      try solve [exfalso; match goal with K : In _ _ |- _ => clear - K T; destruct T as [<-|[<-|[]]]; vm_compute in K; repeat (destruct K as [K|K]; [discriminate K|]); destruct K end].
    match goal with K : py_str _ = py_str _ |- _ => apply (f_equal py_int) in K; rewrite !NumProofs.py_int_str in K; apply Ok_inj in K; subst; reflexivity end.
  Qed.
  Lemma version_spelled s v : spelled ci (x_float x) (lit "Version") (Some s) v -> v = VStr s.
  Proof.
    intros H. inversion H; subst; try discriminate; try reflexivity;
      try solve [exfalso; match goal with K : In _ _ |- _ => vm_compute in K; repeat (destruct K as [K|K]; [discriminate K|]); destruct K end].
  Qed.
  Lemma truth_spelled (b : bool) v : spelled ci (x_float x) (lit "B") (Some (if b then lit "true" else lit "false")) v -> v = VBool b.
  Proof.
    intros H. destruct b; (inversion H; subst; try discriminate); try reflexivity;
      try solve [exfalso; match goal with K : In _ _ |- _ => vm_compute in K; repeat (destruct K as [K|K]; [discriminate K|]); destruct K end].
  Qed.
  Lemma serialized_back s s0 : scalars s -> ~ has_straddle s -> scalars s0 -> ~ has_straddle s0 -> text_of (serialize_string s0) = text_of (serialize_string s) -> s0 = s.
  Proof.
    intros Sc St Sc0 St0 H. assert (E : serialize_string s0 = serialize_string s).
    { destruct (serialize_string s0), (serialize_string s); try discriminate H; [reflexivity|apply Some_inj in H; exact H]. }
    pose proof (TextProofs2.string_roundtrip s Sc St) as R. pose proof (TextProofs2.string_roundtrip s0 Sc0 St0) as R0. congruence.
  Qed.
  Lemma string_spelled s v : scalars s -> ~ has_straddle s -> spelled ci (x_float x) (lit "S") (text_of (serialize_string s)) v -> v = VStr s.
  Proof.
    intros Sc St H. inversion H; subst; try discriminate;
      try solve [exfalso; match goal with K : In (lit "S") _ |- _ => vm_compute in K; repeat (destruct K as [K|K]; [discriminate K|]); destruct K end].
    f_equal. apply serialized_back; assumption.
  Qed.
  (* the attribute of an instance that a property is for *)
  Lemma given e g c d (f : String.string) m (nm : String.string) t r' : kind_of (fst e) = Some (Instance c) -> sending c = Some d -> In (lit f, m) (cd_extended d) ->
    fst e <> PUBLIC_KEY_REQUEST -> fst e <> PIPELINE_OUTPUT -> fit ci (x_float x) e -> had_message ci (x_float x) e g ->
    (exists n a c, In (fst e, c) protocol /\ snd g = VObj n /\ nth_error (fst g) n = Some (HCls c a)) ->
    says_property (snd e) nm t -> suits m (Some (lit nm), t) -> as_reading m = Some r' ->
    exists env, holds ci (x_float x) sending 0 (fst g) env r' t (attribute f g).
  Proof.
    intros K D I1 Np No (_ & F) (r & Kr & env & H) (n & a & c' & C & V & At) (id & n1 & txt & sets & ad & ex & Eo & Iz) Sz Rr.
    rewrite K in Kr. apply Some_inj in Kr. subst r.
    destruct F as [F|(r & s' & Kr & R & _)]; [congruence|]. rewrite K in Kr. apply Some_inj in Kr. subst r.
    rewrite Eo in *.
    assert (Q : exists s3 s4, thread (filled (readable ci (x_float x) sending) (with_name ex)) s3 (cd_extended d) s4).
    { inversion R; subst; cbn [taken] in *; try congruence.
      match goal with Z : Some (Instance _) = Some (Instance ?c0) |- _ => assert (c0 = c) as -> by congruence end.
      match goal with Z : sending c = Some ?d0 |- _ => lazymatch d0 with d => fail | _ => assert (d0 = d) as -> by congruence end end. eauto. }
    destruct Q as (s3 & s4 & Th).
    rewrite V in H. inversion H as [| | |r0 id0 n0 text0 sets0 ad0 ex0 k0 c0 d0 attrs Tk Cl B0 Nk Gi Tx An Ho| | | |]; subst; cbn [taken] in *; try congruence.
    assert (c0 = c) as -> by congruence. rewrite Cl in D. apply Some_inj in D. subst d0. rewrite Nk in At. apply Some_inj in At.
    assert (attrs = a) as -> by congruence. assert (c' = c) as -> by congruence. clear At.
    assert (G : attribute f g = match dict_get str_eqb (lit f) a with Some v => v | None => VNone end).
    { unfold attribute, instance_of. rewrite V, Nk. reflexivity. }
    assert (J : In (with_name ex, (lit f, m)) (map (fun e => (without sets, e)) (cd_sets d) ++ map (fun e => (with_name ad, e)) (cd_adapted d) ++ map (fun e => (with_name ex, e)) (cd_extended d))).
    { apply in_or_app. right. apply in_or_app. right. apply in_map_iff. exists (lit f, m). split; [reflexivity|exact I1]. }
    assert (Iw : In (Some (lit nm), t) (with_name ex)) by (apply in_map_iff; exists (lit nm, t); split; [reflexivity|exact Iz]).
    destruct (thread_in _ _ _ _ Th (lit f, m) I1) as (s1 & s2 & Fi).
    inversion Fi as [s0 a0 m0 t0 r1 s0' On Rr' Rd|s0 a0 m0 Ns _]; subst; [|exfalso; exact (Ns _ Iw Sz)].
    destruct On as (nm1 & On1 & On2 & On3). pose proof (On3 _ Iw Sz) as Eq. assert (t0 = t) as -> by congruence.
    destruct (An _ _ _ J) as (Ex & _). rewrite G. destruct (dict_get str_eqb (lit f) a) as [v|] eqn:Dv; [|contradiction].
    exists env. apply (Ho _ _ _ _ _ _ J); [exists nm1; split; [exact On1|split; [exact On2|exact On3]]|exact Rr|exact Dv].
  Qed.
  (* the number of an enumeration *)
  Lemma constant_held h env t z v : constant_of t z -> holds ci (x_float x) sending 0 h env (Instance (lit "HostMethodIdentifier")) t v -> number (attribute "value" (h, v)) = z.
  Proof.
    intros (id & n & txt & ad & ex & ->) H.
    inversion H as [| | |r0 id0 n0 text0 sets0 ad0 ex0 k0 c0 d0 attrs Tk Cl B0 Nk Gi Tx An Ho| | | |]; subst; cbn [taken] in *; try congruence.
    assert (c0 = lit "HostMethodIdentifier") as -> by congruence.
    assert (Ed : option_map cd_sets (sending (lit "HostMethodIdentifier")) = Some [(lit "value", plain "I32")]) by (vm_compute; reflexivity).
    rewrite Cl in Ed. cbn [option_map] in Ed. apply Some_inj in Ed.
    assert (J : In (without [integer "I32" z], (lit "value", plain "I32")) (map (fun e => (without [integer "I32" z], e)) (cd_sets d0) ++ map (fun e => (with_name ad, e)) (cd_adapted d0) ++ map (fun e => (with_name ex, e)) (cd_extended d0))).
    { apply in_or_app. left. rewrite Ed. left. reflexivity. }
    unfold attribute, instance_of. cbn [fst snd]. rewrite Nk. destruct (An _ _ _ J) as (Ex & _). destruct (dict_get str_eqb (lit "value") attrs) as [v|] eqn:Dv; [|contradiction].
    assert (Hv : exists r1, holds ci (x_float x) sending 0 h env r1 (integer "I32" z) v).
    { eexists. apply (Ho _ _ _ _ _ _ J); [|reflexivity|exact Dv]. exists None. split; [left; reflexivity|]. split; [split; [right; left; reflexivity|left; reflexivity]|].
      intros e [<-|[]] _. reflexivity. }
    destruct Hv as (r1 & Hv). inversion Hv as [r0 tag0 text0 v0 Sp| | | | | | |]; subst. rewrite (int_spelled x key _ _ _ eq_refl Sp). reflexivity.
  Qed.

  Lemma given_in e g c l (f : String.string) m (nm : String.string) t r' : fst e <> PUBLIC_KEY_REQUEST -> fst e <> PIPELINE_OUTPUT -> kind_of (fst e) = Some (Instance c) ->
    option_map cd_extended (sending c) = Some l -> In (lit f, m) l -> m_name m = Some (lit nm) -> m_tag m = star \/ In (tag_of t) (property_tags m) -> as_reading m = Some r' ->
    fit ci (x_float x) e -> had_message ci (x_float x) e g ->
    (exists n a c, In (fst e, c) protocol /\ snd g = VObj n /\ nth_error (fst g) n = Some (HCls c a)) ->
    says_property (snd e) nm t -> exists env, holds ci (x_float x) sending 0 (fst g) env r' t (attribute f g).
  Proof.
    intros Np No K D I1 Nm Tg Rr F H In1 Sy. destruct (sending c) as [d|] eqn:Ed; [|discriminate D]. cbn [option_map] in D. apply Some_inj in D. subst l.
    apply (given e g c d f m nm t r' K Ed I1 Np No F H In1 Sy); [split; [exact Tg|right; exact Nm]|exact Rr].
  Qed.
End Told.

Section Said.
  Context {HS RK : Type} (x : outside HS RK) (fuel : nat) (heap : list hobj) (hs : option host) (key : option bytes).
  Let ci := option_map (x_cipher x) key.
  Let E := library_env x fuel heap hs.
  Context (e : Z * item) (g : graph).
  Context (F : fit ci (x_float x) e) (H : had_message ci (x_float x) e g)
    (In1 : exists n a c, In (fst e, c) protocol /\ snd g = VObj n /\ nth_error (fst g) n = Some (HCls c a)).
  Lemma whole_attr (f nm tag : String.string) c l m z r' : fst e <> PUBLIC_KEY_REQUEST -> fst e <> PIPELINE_OUTPUT -> kind_of (fst e) = Some (Instance c) ->
    option_map cd_extended (sending c) = Some l -> In (lit f, m) l -> m_name m = Some (lit nm) -> m_tag m = star \/ In (lit tag) (property_tags m) -> as_reading m = Some r' ->
    In (lit tag) (map lit ["I32"; "I64"]%string) -> says_property (snd e) nm (integer tag z) -> attribute f g = VInt z.
  Proof.
    intros Np No K D I1 Nm Tg Rr T Sy. destruct (given_in x key e g c l f m nm (integer tag z) r' Np No K D I1 Nm Tg Rr F H In1 Sy) as (env & Hv).
    inversion Hv as [r0 tag0 text0 v0 Sp| | | | | | |]; subst. exact (whole_spelled x key _ _ _ T Sp).
  Qed.
  Lemma version_attr (f nm : String.string) c l m v r' : fst e <> PUBLIC_KEY_REQUEST -> fst e <> PIPELINE_OUTPUT -> kind_of (fst e) = Some (Instance c) ->
    option_map cd_extended (sending c) = Some l -> In (lit f, m) l -> m_name m = Some (lit nm) -> m_tag m = star \/ In (lit "Version") (property_tags m) -> as_reading m = Some r' ->
    says_property (snd e) nm (version v) -> attribute f g = VStr v.
  Proof.
    intros Np No K D I1 Nm Tg Rr Sy. destruct (given_in x key e g c l f m nm (version v) r' Np No K D I1 Nm Tg Rr F H In1 Sy) as (env & Hv).
    inversion Hv as [r0 tag0 text0 v0 Sp| | | | | | |]; subst. exact (version_spelled x key _ _ Sp).
  Qed.
  Ltac pick := repeat (first [left; reflexivity | right]).
  Ltac at_type Ty := rewrite Ty; first [discriminate | reflexivity].
  Lemma init_told : fst e = RUNSPACEPOOL_INIT_DATA -> forall mn mx,
    says_property (snd e) "MinRunspaces" (integer "I32" mn) -> says_property (snd e) "MaxRunspaces" (integer "I32" mx) -> PoolModel.ev_init E g = (mn, mx).
  Proof.
    intros Ty mn mx S1 S2. cbn [E library_env PoolModel.ev_init].
    assert (A : attribute "min_runspaces" g = VInt mn) by (apply (whole_attr "min_runspaces" "MinRunspaces" "I32" _ _ (pm "I32" "MinRunspaces" false) _ Free ltac:(at_type Ty) ltac:(at_type Ty) ltac:(at_type Ty) init_class); [pick|reflexivity|right; pick|reflexivity|pick|exact S1]).
    assert (B : attribute "max_runspaces" g = VInt mx) by (apply (whole_attr "max_runspaces" "MaxRunspaces" "I32" _ _ (pm "I32" "MaxRunspaces" false) _ Free ltac:(at_type Ty) ltac:(at_type Ty) ltac:(at_type Ty) init_class); [pick|reflexivity|right; pick|reflexivity|pick|exact S2]).
    rewrite A, B. reflexivity.
  Qed.
  Lemma state_told : fst e = RUNSPACEPOOL_STATE -> forall z, says_property (snd e) "RunspaceState" (integer "I32" z) -> PoolModel.ev_pool_state E g = z.
  Proof.
    intros Ty z S1. cbn [E library_env PoolModel.ev_pool_state].
    assert (A : attribute "state" g = VInt z) by (apply (whole_attr "state" "RunspaceState" "I32" _ _ (pm "I32" "RunspaceState" false) _ Free ltac:(at_type Ty) ltac:(at_type Ty) ltac:(at_type Ty) pool_state_class); [pick|reflexivity|right; pick|reflexivity|pick|exact S1]).
    rewrite A. reflexivity.
  Qed.
  Lemma capability_told : fst e = SESSION_CAPABILITY -> forall p v s, says_property (snd e) "protocolversion" (version p) -> says_property (snd e) "PSVersion" (version v) ->
    says_property (snd e) "SerializationVersion" (version s) -> PoolModel.ev_capability E g = (Some p, Some v, Some s).
  Proof.
    intros Ty p v s S1 S2 S3. cbn [E library_env PoolModel.ev_capability].
    assert (A : attribute "protocol_version" g = VStr p) by (apply (version_attr "protocol_version" "protocolversion" _ _ (pm "Version" "protocolversion" false) _ Free ltac:(at_type Ty) ltac:(at_type Ty) ltac:(at_type Ty) capability_class); [pick|reflexivity|right; pick|reflexivity|exact S1]).
    assert (B : attribute "ps_version" g = VStr v) by (apply (version_attr "ps_version" "PSVersion" _ _ (pm "Version" "PSVersion" false) _ Free ltac:(at_type Ty) ltac:(at_type Ty) ltac:(at_type Ty) capability_class); [pick|reflexivity|right; pick|reflexivity|exact S2]).
    assert (C : attribute "serialization_version" g = VStr s) by (apply (version_attr "serialization_version" "SerializationVersion" _ _ (pm "Version" "SerializationVersion" false) _ Free ltac:(at_type Ty) ltac:(at_type Ty) ltac:(at_type Ty) capability_class); [pick|reflexivity|right; pick|reflexivity|exact S3]).
    rewrite A, B, C. reflexivity.
  Qed.
  Lemma key_told : fst e = ENCRYPTED_SESSION_KEY -> forall s, scalars s -> ~ has_straddle s ->
    says_property (snd e) "EncryptedSessionKey" (Scalar (lit "S") (text_of (serialize_string s))) -> PoolModel.ev_session_key E g = s.
  Proof.
    intros Ty s Sc St Sy. cbn [E library_env PoolModel.ev_session_key].
    assert (A : exists env, holds ci (x_float x) sending 0 (fst g) env Free (Scalar (lit "S") (text_of (serialize_string s))) (attribute "session_key" g)).
    { destruct (given_in x key e g _ _ "session_key" (pm "S" "EncryptedSessionKey" false) "EncryptedSessionKey" (Scalar (lit "S") (text_of (serialize_string s))) Free ltac:(at_type Ty) ltac:(at_type Ty) ltac:(at_type Ty) key_class ltac:(pick) eq_refl ltac:(right; pick) eq_refl F H In1 Sy) as (env & Hv); eauto. }
    destruct A as (env & A). inversion A as [r0 tag0 text0 v0 Sp| | | | | | |]; subst. rewrite (string_spelled x key _ _ Sc St Sp). reflexivity.
  Qed.
  Lemma number_told : fst e = RUNSPACE_AVAILABILITY -> forall c z tag, In tag ["I32"; "I64"]%string -> says_property (snd e) "ci" (integer "I64" c) ->
    says_property (snd e) "SetMinMaxRunspacesResponse" (integer tag z) -> PoolModel.ev_availability E g = (c, PoolModel.VInt z).
  Proof.
    intros Ty c z tag T S1 S2. cbn [E library_env PoolModel.ev_availability].
    assert (A : attribute "ci" g = VInt c) by (apply (whole_attr "ci" "ci" "I64" _ _ (pm "I64" "ci" false) _ Free ltac:(at_type Ty) ltac:(at_type Ty) ltac:(at_type Ty) availability_class); [pick|reflexivity|right; pick|reflexivity|pick|exact S1]).
    assert (B : attribute "response" g = VInt z).
    { apply (whole_attr "response" "SetMinMaxRunspacesResponse" tag _ _ (pm "*" "SetMinMaxRunspacesResponse" false) _ Open ltac:(at_type Ty) ltac:(at_type Ty) ltac:(at_type Ty) availability_class); [pick|reflexivity|left; reflexivity|reflexivity|exact (in_map lit _ _ T)|exact S2]. }
    rewrite A, B. reflexivity.
  Qed.
  Lemma truth_told : fst e = RUNSPACE_AVAILABILITY -> forall c b, says_property (snd e) "ci" (integer "I64" c) ->
    says_property (snd e) "SetMinMaxRunspacesResponse" (truth b) -> PoolModel.ev_availability E g = (c, PoolModel.VBool b).
  Proof.
    intros Ty c b S1 Sy. cbn [E library_env PoolModel.ev_availability].
    assert (A : attribute "ci" g = VInt c) by (apply (whole_attr "ci" "ci" "I64" _ _ (pm "I64" "ci" false) _ Free ltac:(at_type Ty) ltac:(at_type Ty) ltac:(at_type Ty) availability_class); [pick|reflexivity|right; pick|reflexivity|pick|exact S1]).
    assert (B : exists env, holds ci (x_float x) sending 0 (fst g) env Open (truth b) (attribute "response" g)).
    { destruct (given_in x key e g _ _ "response" (pm "*" "SetMinMaxRunspacesResponse" false) "SetMinMaxRunspacesResponse" (truth b) Open ltac:(at_type Ty) ltac:(at_type Ty) ltac:(at_type Ty) availability_class ltac:(pick) eq_refl ltac:(left; reflexivity) eq_refl F H In1 Sy) as (env & Hv); eauto. }
    destruct B as (env & B). inversion B as [r0 tag0 text0 v0 Sp| | | | | | |]; subst. rewrite A, (truth_spelled x key _ _ Sp). reflexivity.
  Qed.
  Lemma call_told : fst e = RUNSPACEPOOL_HOST_CALL \/ fst e = PIPELINE_HOST_CALL -> forall c mi m ps, says_property (snd e) "ci" (integer "I64" c) ->
    says_property (snd e) "mi" m -> constant_of m mi -> says_property (snd e) "mp" ps -> tag_of ps = lit "Obj" ->
    exists v, PoolModel.ev_host_call E g = (c, mi, (fst g, v)) /\ had ci (x_float x) (ListOf Free) ps (fst g, v).
  Proof.
    intros Ty0 c mi m ps S1 S2 Cm S3 Tp. cbn [E library_env PoolModel.ev_host_call].
    assert (Q : exists cl, fst e <> PUBLIC_KEY_REQUEST /\ fst e <> PIPELINE_OUTPUT /\ kind_of (fst e) = Some (Instance cl) /\ option_map cd_extended (sending cl) = Some call_fields).
    { destruct Ty0 as [Ty|Ty]; eexists; (split; [at_type Ty|]); (split; [at_type Ty|]); (split; [at_type Ty|]); [exact pool_call_class|exact pipe_call_class]. }
    destruct Q as (cl & Q1 & Q2 & Q3 & Q4).
    assert (A : attribute "ci" g = VInt c).
    { apply (whole_attr "ci" "ci" "I64" _ _ (pm "I64" "ci" false) _ Free Q1 Q2 Q3 Q4); [pick|reflexivity|right; pick|reflexivity|pick|exact S1]. }
    assert (To : tag_of m = lit "Obj") by (destruct Cm as (? & ? & ? & ? & ? & ->); reflexivity).
    destruct (given_in x key e g _ _ "mi" (cm "HostMethodIdentifier" "mi" false) "mi" m (Instance (lit "HostMethodIdentifier")) Q1 Q2 Q3 Q4 ltac:(pick) eq_refl ltac:(rewrite To; right; pick) eq_refl F H In1 S2) as (env & B).
    destruct (given_in x key e g _ _ "mp" (lm "mp" false any_meta ["System.Object[]"; "System.Array"; "System.Object"]%string) "mp" ps (ListOf Free) Q1 Q2 Q3 Q4 ltac:(pick) eq_refl ltac:(rewrite Tp; right; pick) eq_refl F H In1 S3) as (env' & C).
    rewrite A, (constant_held x key _ _ _ _ _ Cm B). exists (attribute "mp" g). split; [reflexivity|]. exists env'. exact C.
  Qed.
End Said.

(* what the pool has after a message was handled *)
Section Pool.
  Context {HS RK : Type} (x : outside HS RK) (fuel : nat) (heap : list hobj) (hs : option host) (key : option bytes).
  Let ci := option_map (x_cipher x) key.
  Let E := library_env x fuel heap hs.
  Theorem told e b : written e b -> fit ci (x_float x) e -> fst e <> PUBLIC_KEY_REQUEST -> fst e <> PIPELINE_OUTPUT ->
    exists m g, message_unpack (library_codec x fuel key []) b = Ok m /\ PoolSpec.carries (fst e) m g /\
      (fst e = RUNSPACEPOOL_INIT_DATA -> forall mn mx, says_property (snd e) "MinRunspaces" (integer "I32" mn) -> says_property (snd e) "MaxRunspaces" (integer "I32" mx) -> PoolModel.ev_init E g = (mn, mx)) /\
      (fst e = RUNSPACEPOOL_STATE -> forall z, says_property (snd e) "RunspaceState" (integer "I32" z) -> PoolModel.ev_pool_state E g = z) /\
      (fst e = SESSION_CAPABILITY -> forall p v s, says_property (snd e) "protocolversion" (version p) -> says_property (snd e) "PSVersion" (version v) ->
        says_property (snd e) "SerializationVersion" (version s) -> PoolModel.ev_capability E g = (Some p, Some v, Some s)) /\
      (fst e = ENCRYPTED_SESSION_KEY -> forall s, scalars s -> ~ has_straddle s ->
        says_property (snd e) "EncryptedSessionKey" (Scalar (lit "S") (text_of (serialize_string s))) -> PoolModel.ev_session_key E g = s) /\
      (fst e = RUNSPACE_AVAILABILITY -> forall c, says_property (snd e) "ci" (integer "I64" c) ->
        (forall z tag, In tag ["I32"; "I64"]%string -> says_property (snd e) "SetMinMaxRunspacesResponse" (integer tag z) -> PoolModel.ev_availability E g = (c, PoolModel.VInt z)) /\
        (forall b, says_property (snd e) "SetMinMaxRunspacesResponse" (truth b) -> PoolModel.ev_availability E g = (c, PoolModel.VBool b))) /\
      (fst e = RUNSPACEPOOL_HOST_CALL \/ fst e = PIPELINE_HOST_CALL -> forall c mi t ps, says_property (snd e) "ci" (integer "I64" c) ->
        says_property (snd e) "mi" t -> constant_of t mi -> says_property (snd e) "mp" ps -> tag_of ps = lit "Obj" ->
        exists v, PoolModel.ev_host_call E g = (c, mi, (fst g, v)) /\ had ci (x_float x) (ListOf Free) ps (fst g, v)).
  Proof.
    intros W F Np No. destruct (message_heard x fuel key e b W F) as (m & U & Ty & [Pk|(g & Cg & Hg & Hi)]); [contradiction|]. specialize (Hi No).
    exists m, g. split; [exact U|]. split; [split; [exact Ty|exact Cg]|].
    split; [exact (init_told x fuel heap hs key e g F Hg Hi)|]. split; [exact (state_told x fuel heap hs key e g F Hg Hi)|].
    split; [exact (capability_told x fuel heap hs key e g F Hg Hi)|]. split; [exact (key_told x fuel heap hs key e g F Hg Hi)|].
    split; [|exact (call_told x fuel heap hs key e g F Hg Hi)].
    intros T c Sc. split.
    - intros z tag Tg Sz. exact (number_told x fuel heap hs key e g F Hg Hi T c z tag Tg Sc Sz).
    - intros v Sv. exact (truth_told x fuel heap hs key e g F Hg Hi T c v Sc Sv).
  Qed.
End Pool.

(* handling a message of these types, for any environment *)
Section Handled.
  Import PoolModel.
  Context {Obj Cmd HS RK : Type} (E : env Obj Cmd HS RK).
  Lemma init_handled pl m o mn mx w : PoolSpec.carries RUNSPACEPOOL_INIT_DATA m o -> ev_init E o = (mn, mx) ->
    fst (handle E pl m w) = Ret tt /\ rp_min (w_pool (snd (handle E pl m w))) = VInt mn /\ rp_max (w_pool (snd (handle E pl m w))) = VInt mx.
  Proof.
    intros (T & C) I1. unfold handle, process_message. rewrite T. unfold PoolSpec.carried in C. destruct (m_data m); apply Some_inj in C || discriminate C; subst; cbn [data_obj];
      unfold process_init_data; cbn; rewrite I1; cbn; repeat split.
  Qed.
  Lemma state_handled pl m o w : PoolSpec.carries RUNSPACEPOOL_STATE m o -> rp_state (w_pool (snd (handle E pl m w))) = ev_pool_state E o.
  Proof.
    intros (T & C). unfold handle, process_message. rewrite T. unfold PoolSpec.carried in C. destruct (m_data m); apply Some_inj in C || discriminate C; subst; cbn [data_obj];
      unfold process_pool_state; cbn; destruct (Z.eqb _ rs_broken); reflexivity.
  Qed.
  Lemma capability_processed o p v s w : ev_capability E o = (p, v, s) ->
    let x := w_pool (snd (process_session_capability E o w)) in rp_protocol x = p /\ rp_psver x = v /\ rp_server x = s.
  Proof.
    intros I1. unfold process_session_capability. rewrite I1. generalize (match p with Some t => t | None => [] end). intros t.
    unfold mbind at 1, updp, upd. unfold mbind at 1. unfold lift. destruct (UtilModel.version_equal_or_newer t (lit "2.2")) as [n|z]; [|repeat split; reflexivity].
    unfold mbind at 1, getp, mbind, get. destruct n; [|repeat split; reflexivity]. cbn [andb ret]. match goal with |- context [Z.eqb ?a ?b] => destruct (Z.eqb a b) end; repeat split; reflexivity.
  Qed.
  Lemma capability_handled pl m o p v s w : PoolSpec.carries SESSION_CAPABILITY m o -> ev_capability E o = (p, v, s) ->
    let x := w_pool (snd (handle E pl m w)) in rp_protocol x = p /\ rp_psver x = v /\ rp_server x = s.
  Proof.
    intros (T & C) I1.
    assert (Q : process_message E pl m = process_session_capability E o).
    { unfold process_message. rewrite T. change (Z.eqb SESSION_CAPABILITY SESSION_CAPABILITY) with true. unfold PoolSpec.carried in C.
      destruct (m_data m); try discriminate C; apply Some_inj in C; subst; reflexivity. }
    unfold handle. rewrite Q. exact (capability_processed o p v s _ I1).
  Qed.
End Handled.
