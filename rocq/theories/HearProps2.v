(* C69: what a pool takes from a message is what the message says. *)
From Verif Require Import Base BaseProofs Lit NumModel TextModel TextSpec Utf8Model MsgModel MsgSpec XmlModel SerModel SerSpec SerClasses SendClasses WireModel WireSpec ShellModel ObjModel TellModel LibModel RdSpec RdProofs4 HearSpec HearSpec2 HearProofs5.
From Verif Require PoolModel PoolSpec SerProofs5 ClsProofs3 RdProps.
Local Open Scope list_scope.

(* A message in any spelling of its document that is of one of these types and has
   these properties: the bounds of the pool, its state, the versions of the
   server, the session key, the answer to a call and which call it is for (of
   either kind of answer), and of a call to the host its number, its method and
   its parameters.  The pool and the pipelines take exactly these (ev_ is what
   their handlers read: C24, C25, C39, C54 say what they do with it). *)
Theorem C69_told : forall HS RK (x : outside HS RK) fuel heap hs key e b,
  let ci := option_map (x_cipher x) key in
  let E := library_env x fuel heap hs in
  written e b -> fit ci (x_float x) e -> fst e <> PUBLIC_KEY_REQUEST -> fst e <> PIPELINE_OUTPUT ->
    exists m g, message_unpack (library_codec x fuel key []) b = Ok m /\ PoolSpec.carries (fst e) m g /\
      (fst e = RUNSPACEPOOL_INIT_DATA -> forall mn mx, says_property (snd e) "MinRunspaces" (integer "I32" mn) -> says_property (snd e) "MaxRunspaces" (integer "I32" mx) -> PoolModel.ev_init E g = (mn, mx)) /\
      (fst e = RUNSPACEPOOL_STATE -> forall z, says_property (snd e) "RunspaceState" (integer "I32" z) -> PoolModel.ev_pool_state E g = z) /\
      (fst e = SESSION_CAPABILITY -> forall p v s, says_property (snd e) "protocolversion" (version p) -> says_property (snd e) "PSVersion" (version v) ->
        says_property (snd e) "SerializationVersion" (version s) -> PoolModel.ev_capability E g = (Some p, Some v, Some s)) /\
      (fst e = ENCRYPTED_SESSION_KEY -> forall s, scalars s -> ~ has_straddle s ->
        says_property (snd e) "EncryptedSessionKey" (Scalar (lit "S") (text_of (serialize_string s))) -> PoolModel.ev_session_key E g = s) /\
      (fst e = RUNSPACE_AVAILABILITY -> forall c, says_property (snd e) "ci" (integer "I64" c) ->
        (forall z tag, In tag ["I32"; "I64"]%string -> says_property (snd e) "SetMinMaxRunspacesResponse" (integer tag z) -> PoolModel.ev_availability E g = (c, PoolModel.VInt z)) /\
        (forall b, says_property (snd e) "SetMinMaxRunspacesResponse" (truth b) -> PoolModel.ev_availability E g = (c, PoolModel.VBool b))) /\
      (fst e = RUNSPACEPOOL_HOST_CALL \/ fst e = PIPELINE_HOST_CALL -> forall c mi t ps, says_property (snd e) "ci" (integer "I64" c) ->
        says_property (snd e) "mi" t -> constant_of t mi -> says_property (snd e) "mp" ps -> tag_of ps = lit "Obj" ->
        exists v, PoolModel.ev_host_call E g = (c, mi, (fst g, v)) /\ had ci (x_float x) (ListOf Free) ps (fst g, v)).
Proof. intros HS RK x fuel heap hs key e b. exact (told x fuel heap hs key e b). Qed.
Print Assumptions C69_told.

(* The bounds, the state and the versions that the pool has after a message. *)
Theorem C69_pool : forall Obj Cmd HS RK (E : PoolModel.env Obj Cmd HS RK) pl m o w,
  let x := PoolModel.w_pool (snd (PoolModel.handle E pl m w)) in
  (forall mn mx, PoolSpec.carries RUNSPACEPOOL_INIT_DATA m o -> PoolModel.ev_init E o = (mn, mx) ->
     fst (PoolModel.handle E pl m w) = Ret tt /\ PoolModel.rp_min x = PoolModel.VInt mn /\ PoolModel.rp_max x = PoolModel.VInt mx) /\
  (PoolSpec.carries RUNSPACEPOOL_STATE m o -> PoolModel.rp_state x = PoolModel.ev_pool_state E o) /\
  (forall p v s, PoolSpec.carries SESSION_CAPABILITY m o -> PoolModel.ev_capability E o = (p, v, s) ->
     PoolModel.rp_protocol x = p /\ PoolModel.rp_psver x = v /\ PoolModel.rp_server x = s).
Proof.
  intros Obj Cmd HS RK E pl m o w x. split; [|split].
  - intros mn mx. exact (init_handled E pl m o mn mx w).
  - exact (state_handled E pl m o w).
  - intros p v s. exact (capability_handled E pl m o p v s w).
Qed.
Print Assumptions C69_pool.

(* ---- a case: a call to the host, and the bounds of a pool ---- *)
Definition hp_call : item :=
  Object (lit "0") Untyped None [] []
    [(lit "ci", integer "I64" 41);
     (lit "mi", Object (lit "1") (Named (lit "0") (map lit ["System.Management.Automation.Remoting.RemoteHostMethodId"; "System.Enum"; "System.ValueType"; "System.Object"]%string))
        (Some (Some (lit "WriteLine2"))) [integer "I32" 16] [] []);
     (lit "mp", Members (lit "2") (Named (lit "1") (map lit ["System.Object[]"; "System.Array"; "System.Object"]%string)) (lit "LST") [Scalar (lit "S") (Some (lit "hello"))] [])].
Definition hp_bounds : item :=
  Object (lit "0") Untyped None [] [] [(lit "MaxRunspaces", integer "I32" 5); (lit "MinRunspaces", integer "I32" 2)].
Local Ltac str s := apply (sp_str None (fun f => Ok f) (lit "S") s); [left; reflexivity|apply SerProofs5.ascii_scalars; vm_compute; reflexivity|apply ClsProofs3.ascii_kept; vm_compute; reflexivity].
Local Ltac int t z := apply (sp_int None (fun f => Ok f) (lit t) z); vm_compute; tauto.
Local Ltac scalar t := eapply rd_scalar; t.
Local Ltac next := eapply th_cons.
Local Ltac none K := vm_compute in K; repeat (destruct K as [K|K]; [discriminate K|]); destruct K.
Local Ltac absent := let K := fresh in intros K; none K.
Local Ltac fresh_names := let K := fresh in let t := fresh in intros t K; none K.
Local Ltac attribute k :=
  next; [cbv beta; lazymatch goal with
         | |- filled _ ?ps _ _ _ =>
             let ps' := eval vm_compute in ps in
             let a := eval vm_compute in (firstn k ps') in
             let b := eval vm_compute in (skipn (S k) ps') in
             let e := eval vm_compute in (nth_error ps' k) in
             lazymatch e with Some (?n, ?t) => eapply fi_some; [apply (only_computed _ ps a n t b); vm_compute; reflexivity|vm_compute; reflexivity|] end
         end|].
Local Ltac listed := lazymatch goal with |- thread ?R ?s ?l ?s' => let l' := eval vm_compute in l in change (thread R s l' s') end.
Definition hp_read (c : String.string) (t : item) : graph :=
  match deserialize None (fun _ => []) (fun s => Ok s) sending [] (write None t) (class_meta (lit c)) with Ok (v, h) => (h, v) | Err _ => ([], VNone) end.
Example C69_told_case :
  fit None (fun f => Ok f) (RUNSPACEPOOL_HOST_CALL, hp_call) /\ fit None (fun f => Ok f) (RUNSPACEPOOL_INIT_DATA, hp_bounds) /\
  says_property hp_call "ci" (integer "I64" 41) /\
  (exists t, says_property hp_call "mi" t /\ constant_of t 16) /\
  (exists ps, says_property hp_call "mp" ps /\ tag_of ps = lit "Obj") /\
  says_property hp_bounds "MinRunspaces" (integer "I32" 2) /\ says_property hp_bounds "MaxRunspaces" (integer "I32" 5) /\
  (let g := hp_read "RunspacePoolHostCall" hp_call in attribute "ci" g = VInt 41 /\ attribute "value" (fst g, attribute "mi" g) = VInt 16 /\ attribute "mp" g = VList [VStr (lit "hello")]).
Proof.
  split; [|split].
  - split; [discriminate|]. right. exists (Instance (lit "RunspacePoolHostCall")). eexists. split; [reflexivity|]. split; [|right; reflexivity].
    unfold hp_call. cbn [snd]. eapply rd_instance; [reflexivity|vm_compute; reflexivity|apply class_okb_ok; vm_compute; reflexivity|cbn [snd In]; tauto|apply na_none|exact Logic.I|apply Forall_nil|listed; apply th_nil|listed; apply th_nil|].
    listed. attribute 0%nat; [scalar ltac:(int "I64"%string 41%Z)|]. attribute 1%nat.
    { eapply rd_instance; [vm_compute; reflexivity|vm_compute; reflexivity|apply class_okb_ok; vm_compute; reflexivity|absent|apply na_full; [discriminate|fresh_names]|exists (lit "WriteLine2"); str (lit "WriteLine2")| | | |].
      - apply Forall_cons; [|apply Forall_nil]. split; [vm_compute; tauto|discriminate].
      - listed. attribute 0%nat; [scalar ltac:(int "I32"%string 16%Z)|apply th_nil].
      - listed. apply th_nil.
      - listed. apply th_nil. }
    attribute 2%nat; [|apply th_nil]. eapply rd_list; [reflexivity|apply na_full; [discriminate|fresh_names]| | |apply Forall_nil].
    { next; [scalar ltac:(str (lit "hello"))|apply th_nil]. }
    absent.
  - split; [discriminate|]. right. exists (Instance (lit "RunspacePoolInitData")). eexists. split; [reflexivity|]. split; [|right; reflexivity].
    unfold hp_bounds. cbn [snd]. eapply rd_instance; [reflexivity|vm_compute; reflexivity|apply class_okb_ok; vm_compute; reflexivity|cbn [snd In]; tauto|apply na_none|exact Logic.I|apply Forall_nil|listed; apply th_nil|listed; apply th_nil|].
    listed. attribute 1%nat; [scalar ltac:(int "I32"%string 2%Z)|]. attribute 0%nat; [scalar ltac:(int "I32"%string 5%Z)|apply th_nil].
  - split; [do 6 eexists; split; [reflexivity|left; reflexivity]|].
    split; [eexists; split; [do 6 eexists; split; [reflexivity|right; left; reflexivity]|do 5 eexists; reflexivity]|].
    split; [eexists; split; [do 6 eexists; split; [reflexivity|right; right; left; reflexivity]|reflexivity]|].
    split; [do 6 eexists; split; [reflexivity|right; left; reflexivity]|]. split; [do 6 eexists; split; [reflexivity|left; reflexivity]|].
    cbv zeta. split; [vm_compute; reflexivity|]. split; vm_compute; reflexivity.
Qed.
