(* Every message of a client can be packed and is understood. *)
From Verif Require Import Base BaseProofs Lit NumModel TextModel TextSpec TextProofs Utf8Model MsgModel MsgSpec MsgProofs XmlModel SerModel SerClasses SerSpec SerSpec2 SerProofs3 SerProofs5 ClsSpec ClsProofs ClsProofs2 ClsProofs3 XtModel XtSpec WfModel WfSpec WfProofs WfProofs2 WfProofs3 FragModel FragSpec WireModel WireProofs SendClasses ObjModel ObjSpec ObjProofs ObjProofs2 StartModel StartSpec StartProofs StartProofs2 StartProofs3 TellModel TellSpec TellProofs.
From Verif Require PoolModel.
Import PoolModel (omsg, OCapability, OInit, OConnect, OSetMin, OSetMax, OAvailable, OReset, OPublicKey, OPoolResponse, OPipelineResponse, OCreate, OMetadata, OInput, OEnd).
Local Open Scope list_scope.

Lemma server_range : (0 <= dest_server < 2 ^ 32)%Z. Proof. split; [discriminate|reflexivity]. Qed.
(* the types of messages and what they carry *)
Definition message_type {C} (o : omsg graph C) : Z :=
  match o with
  | OCapability _ _ _ => SESSION_CAPABILITY | OInit _ _ _ _ _ => INIT_RUNSPACEPOOL | OConnect => CONNECT_RUNSPACEPOOL | OSetMin _ _ => SET_MIN_RUNSPACES
  | OSetMax _ _ => SET_MAX_RUNSPACES | OAvailable _ => GET_AVAILABLE_RUNSPACES | OReset _ => RESET_RUNSPACE_STATE | OPublicKey _ => PUBLIC_KEY
  | OPoolResponse _ _ _ => RUNSPACEPOOL_HOST_RESPONSE | OPipelineResponse _ _ _ => PIPELINE_HOST_RESPONSE | OCreate _ _ _ _ _ _ _ _ => CREATE_PIPELINE
  | OMetadata _ => GET_COMMAND_METADATA | OInput _ => PIPELINE_INPUT | OEnd => END_OF_PIPELINE_INPUT
  end.
Definition contents (heap : list hobj) (hs : option host) (o : omsg graph (command value)) : mdata graph :=
  match o with OInput g => DInput g | _ => DObj (message_type o) (sent heap hs o) end.

Section Message.
  Context (ci : option cipher) (show : value -> list N) (xml_text : xml -> list N) (float_of : list N -> res (list N)) (reg : list (list N * list N)).
  Context (U : usable_registry reg).
  Notation wire := (wire ci show xml_text float_of sending reg).
  Notation C h := (conforms ci float_of sending sending_canon h said raw).
  Context (r p : bytes) (Gr : is_guid r) (Gp : is_guid p).
  Local Ltac listed := lazymatch goal with |- Forall2 ?P ?l ?m => let l' := eval vm_compute in l in change (Forall2 P l' m) end.
  Local Ltac int := apply cf_scalar, be_int; vm_compute; tauto.
  Local Ltac none := apply cf_none; vm_compute; tauto.
  Local Ltac field := apply Forall_cons; [cbn [fst snd]; split; [vm_compute; reflexivity|]; eexists; split; [reflexivity|]; intros y Hy|].

  (* the message can be packed and then P holds of its bytes, for every reader *)
  Definition comes_out (m : message graph) (P : (list hobj -> codec graph) -> bytes -> Prop) : Prop :=
    exists f0, forall fuel, (f0 <= fuel)%nat -> exists b, (forall heap0, message_pack (wire fuel heap0) m = Ok b) /\ forall fuel', P (wire fuel') b.

  Lemma object_comes ty c h n (P : list hobj -> nat -> value -> Prop) : class_of_type ty = Some c ->
    ~ In ty [PUBLIC_KEY_REQUEST; PIPELINE_INPUT; PIPELINE_OUTPUT; END_OF_PIPELINE_INPUT; CONNECT_RUNSPACEPOOL] ->
    C h (class_meta c) (VObj n) -> (forall h' k w, copy sending h k h' (VObj n) w -> P h' k w) ->
    comes_out (mkMsg dest_server ty r p (DObj ty (h, VObj n))) (fun rd b => reads_object rd r p b ty P).
  Proof.
    intros Hc Ns Cf H. destruct (object_told ci show xml_text float_of reg U dest_server ty r p c h n server_range Gr Gp Hc Ns Cf) as (f0 & K).
    exists f0. intros fuel L. destruct (K fuel L) as (b & Pk & Un). exists b. split; [exact Pk|]. intros fuel' heap0. destruct (Un heap0 fuel') as (n' & e & Eu & Cp).
    exists n', e. split; [exact Eu|exact (H _ _ _ Cp)].
  Qed.
  (* instances without others in them *)
  Lemma made_comes ty cls attrs vals (l : list (String.string * (value -> Prop))) : class_of_type ty = Some (lit cls) ->
    ~ In ty [PUBLIC_KEY_REQUEST; PIPELINE_INPUT; PIPELINE_OUTPUT; END_OF_PIPELINE_INPUT; CONNECT_RUNSPACEPOOL] -> sknown (lit cls) = true -> memb (lit cls) irregular = false ->
    let made := map (fun e => (lit (fst e), snd e)) attrs in
    fair_text said (cd_text (sdescribed (lit cls)) made) -> map (fun e => dict_get str_eqb (fst e) made) (attributes (sdescribed (lit cls))) = map Some vals ->
    Forall2 (fun e x => C [HCls (lit cls) made] (snd e) x) (attributes (sdescribed (lit cls))) vals ->
    Forall (fun f : String.string * (value -> Prop) => memb (lit (fst f)) (map fst (attributes (sdescribed (lit cls)))) = true /\
      exists x, dict_get str_eqb (lit (fst f)) made = Some x /\ forall h' k y, copy sending [HCls (lit cls) made] k h' x y -> snd f y) l ->
    comes_out (mkMsg dest_server ty r p (DObj ty (put [] (instance cls attrs)))) (fun rd b => reads_object rd r p b ty (fun h _ => has h cls l)).
  Proof.
    intros Hc Ns K I made Ft Hm F2 F. assert (A : at_ [HCls (lit cls) made] (VObj 0) (HCls (lit cls) made)) by (exists 0; split; reflexivity).
    apply (object_comes ty (lit cls) [HCls (lit cls) made] 0); [exact Hc|exact Ns|exact (made_fits ci float_of _ _ _ _ _ _ _ _ (or_introl eq_refl) A K I Ft Hm F2)|].
    intros h' k w Cp. apply (made_has _ k h' (VObj 0) cls made w l A K Cp). eapply Forall_impl; [|exact F]. intros f (M & x & G & H). split; [exact M|]. exists x. split; [exact G|]. intros y. apply H.
  Qed.
  Local Ltac plain_message v := apply (made_comes _ _ _ v);
    [reflexivity|intros H; cbn [In] in H; repeat (destruct H as [H|H]; [discriminate H|]); exact H|vm_compute; reflexivity|vm_compute; reflexivity|left; reflexivity|vm_compute; reflexivity|listed|].
  Local Ltac field0 := apply Forall_cons; [cbn [fst snd]; split; [vm_compute; reflexivity|]; eexists; split; [reflexivity|]; intros h' k y Hy|].

  (* messages without an object *)
  Lemma text_comes ty (d : mdata graph) t tb : (0 <= ty < 2 ^ 32)%Z -> utf8_encode t = Ok tb -> no_bom t -> (forall fuel heap0, message_text (wire fuel heap0) ty d = Ok tb) ->
    comes_out (mkMsg dest_server ty r p d) (fun _ b => reads_text r p b ty t).
  Proof.
    intros Hty Et Nb Mt. exists 0. intros fuel _. destruct (packed float_of (wire fuel []) dest_server ty r p d tb server_range Hty (Mt fuel [])) as (dd & tt & Ld & Lt & Vd & Vt & Pk).
    eexists. split; [intros heap0; rewrite <- Pk; unfold message_pack; cbn [m_type m_data m_dest m_rpid m_pid]; rewrite !Mt; reflexivity|]. intros _. unfold reads_text.
    unfold guid_bytes_le. rewrite (unpack_header_text dd tt (swap_le r) (swap_le p) t tb Ld Lt); [|rewrite swap_le_length; exact (proj1 Gr)|rewrite swap_le_length; exact (proj1 Gp)|exact Et|exact Nb].
    rewrite Vd, Vt, !swap_le_involutive. reflexivity.
  Qed.

  Lemma method_written z t : host_method z t -> cd_text (sdescribed (lit "HostMethodIdentifier")) [(lit "value", VInt z)] = Ok (VStr t) /\ printable t = true.
  Proof.
    intros (s & H & ->). unfold method_map in H. cbn [In] in H.
    repeat (destruct H as [H|H]; [apply pair_inj in H; destruct H as (<- & <-); split; vm_compute; reflexivity|]). destruct H.
  Qed.
  Lemma response_comes cls ty cid mi mr : (cls = "RunspacePoolHostResponse" /\ ty = RUNSPACEPOOL_HOST_RESPONSE \/ cls = "PipelineHostResponse" /\ ty = PIPELINE_HOST_RESPONSE)%string ->
    fit_response ci float_of mi mr -> comes_out (mkMsg dest_server ty r p (DObj ty (put_response cls cid mi mr))) (fun rd b => responds rd r p b cls ty cid mi mr).
  Proof.
    intros Hk (Hm & Cm). apply in_map_iff in Hm. destruct Hm as ((z & s) & <- & Hs). cbn [fst] in *.
    assert (Hn : host_method z (lit s)) by (exists s; split; [exact Hs|reflexivity]). destruct (method_written _ _ Hn) as (Wt & Pt).
    unfold put_response. destruct (put_enum "HostMethodIdentifier" (fst mr) z) as [h1 m] eqn:E1. unfold put_enum in E1. destruct (put_at _ _ _ _ E1) as (X1 & A1).
    destruct (put h1 _) as [h2 v] eqn:E2. destruct (put_at _ _ _ _ E2) as (X2 & A2). pose proof A2 as (n & -> & _).
    assert (X : exists e, h2 = fst mr ++ e) by (destruct X1 as (e1 & ->); destruct X2 as (e2 & ->); exists (e1 ++ e2); rewrite app_assoc; reflexivity). destruct X as (e & ->).
    pose proof (at_ext _ _ _ _ X2 A1) as A1'.
    assert (Cf : C (fst mr ++ e) (class_meta (lit cls)) (VObj n)).
    { apply (made_fits ci float_of _ (VObj n) (lit cls) [(lit "ci", VInt cid); (lit "mi", m); (lit "mr", snd mr); (lit "me", VNone); (lit "_to_string", VNone)] [VInt cid; m; snd mr; VNone]);
        [left; reflexivity|exact A2|destruct Hk as [(-> & _)|(-> & _)]; vm_compute; reflexivity..| | |]; [destruct Hk as [(-> & _)|(-> & _)]; left; reflexivity|destruct Hk as [(-> & _)|(-> & _)]; reflexivity|].
      replace (attributes (sdescribed (lit cls))) with (attributes host_response) by (destruct Hk as [(-> & _)|(-> & _)]; vm_compute; reflexivity). listed.
      constructor; [cbn [snd]; int|].
      constructor; [cbn [snd]; refine (enum_fits ci float_of _ m "HostMethodIdentifier" _ _ (lit s) _ _ (or_introl eq_refl) A1' _ _ _ Wt Pt); vm_compute; reflexivity|].
      constructor; [cbn [snd]; refine (conforms_ext _ _ _ _ _ _ _ _ _ _ _ Cm); exists e; reflexivity|]. constructor; [cbn [snd]; none|constructor]. }
    apply (object_comes ty (lit cls) (fst mr ++ e) n); [destruct Hk as [(-> & ->)|(-> & ->)]; reflexivity| |exact Cf|].
    { destruct Hk as [(_ & ->)|(_ & ->)]; intros [H|[H|[H|[H|[H|[]]]]]]; discriminate H. }
    intros h' k w Cp.
    apply (made_has _ k h' (VObj n) cls [(lit "ci", VInt cid); (lit "mi", m); (lit "mr", snd mr); (lit "me", VNone); (lit "_to_string", VNone)] w _ A2); [destruct Hk as [(-> & _)|(-> & _)]; vm_compute; reflexivity|exact Cp|].
    replace (sdescribed (lit cls)) with host_response by (destruct Hk as [(-> & _)|(-> & _)]; vm_compute; reflexivity).
    field; [exact (int_copied _ _ _ _ _ Hy)|].
    field; [exists (lit s); split; [exact Hn|]; refine (enum_copied _ _ _ _ "HostMethodIdentifier" _ _ _ A1' _ _ Wt Hy); vm_compute; reflexivity|].
    field; [exact (copy_shrink ci float_of said raw sending sending_canon _ _ _ _ _ _ _ Cm Hy)|]. field; [exact (none_copied _ _ _ _ Hy)|apply Forall_nil].
  Qed.
  Lemma init_comes hs mn mx t a args : fit_message ci float_of [] hs (OInit mn mx t a args) ->
    comes_out (mkMsg dest_server INIT_RUNSPACEPOOL r p (DObj INIT_RUNSPACEPOOL (sent [] hs (OInit mn mx t a args)))) (fun rd b => understood rd r p b [] hs (OInit mn mx t a args)).
  Proof.
    intros ((x & ->) & (y & ->) & Fh & Fa & Ft & Fg). cbn [understood]. set (g := given args).
    change (sent [] hs (OInit (PoolModel.VInt x) (PoolModel.VInt y) t a args)) with (put_open (fst g) (mkPool a t x y hs) (snd g)).
    assert (Fg' : fit_arguments ci float_of (fst g) (snd g)) by (subst g; destruct args as [g|]; [exact Fg|left; reflexivity]).
    destruct (open_told ci show xml_text float_of reg U dest_server r p (fst g) (mkPool a t x y hs) (snd g) server_range Gr Gp) as (made & n & Em & f0 & K); [split; [exact Fa|split; [exact Ft|exact Fh]]|exact Fg'|].
    exists f0. intros fuel L. destruct (K fuel L) as (b & Pk & Un). exists b. split.
    { intros heap0. rewrite <- (Pk heap0), Em. reflexivity. }
    intros fuel'. exists x, y. split; [reflexivity|]. split; [reflexivity|]. intros heap0. destruct (Un heap0 fuel') as (n' & e & Eu & Ro). exists n', e. split; [exact Eu|].
    subst g. destruct args as [g|]; cbn [given fst snd] in *; revert Ro; apply open_weaken; intros w.
    - destruct Fg as [->|(d & -> & Fk & Dk & Fd)]; [apply (flat_shrink ); exact I|]. intros Cp.
      refine (copy_shrink ci float_of said raw sending sending_canon _ _ _ _ _ _ _ (cf_dict ci float_of sending sending_canon (fst g) said raw None false d Fk Dk _) Cp). intros e0 He. rewrite Forall_forall in Fd. exact (Fd e0 He).
    - exact (none_copied _ _ _ w).
  Qed.
  Lemma create_comes heap hs ni ap op hi cs ne ht rt : let o := OCreate ni ap op hi cs ne ht rt in fit_message ci float_of heap hs o ->
    comes_out (mkMsg dest_server CREATE_PIPELINE r p (DObj CREATE_PIPELINE (sent heap hs o))) (fun rd b => understood rd r p b heap hs o).
  Proof.
    intros o (Fh & Fa & Ft & Fn & Fc). subst o. cbn [sent understood]. change (stream_options op) with (match op with Some z => z | None => 15%Z end). set (oz := match op with Some z => z | None => 15%Z end).
    set (q := mkStart (Some (negb ni)) hi None rt oz ne ht cs).
    destruct (start_told ci show xml_text float_of reg U dest_server r p heap (mkPool ap 0 1 1 hs) q server_range Gr Gp) as (made & n & ss & Em & Cut & f0 & K).
    { split; [exact Fa|]. split; [left; reflexivity|exact Fh]. }
    { split; [intros z H; discriminate H|]. split; [exact Ft|]. split; [exact Fn|exact Fc]. }
    exists f0. intros fuel L. destruct (K fuel L) as (b & Pk & Un). exists b. rewrite Em. split; [exact Pk|].
    intros fuel'. exists ss. split; [exact Cut|]. intros heap0. destruct (Un heap0 fuel') as (n' & e & Eu & Rs). exists n', e. split; [exact Eu|].
    change (apartment_used (mkPool ap 0 1 1 hs) q) with ap in Rs. revert Rs. apply start_weaken. intros s c a w Hs Hc Ha Cp.
    pose proof (cut_fits ci float_of heap cs ss Cut Fc) as Fs. rewrite Forall_forall in Fs. specialize (Fs s Hs). rewrite Forall_forall in Fs. destruct (Fs c Hc) as (_ & _ & Fv).
    rewrite Forall_forall in Fv. exact (copy_shrink ci float_of said raw sending sending_canon _ _ _ _ _ _ _ (proj2 (Fv a Ha)) Cp).
  Qed.
  Lemma message_comes heap hs o : fit_message ci float_of heap hs o ->
    comes_out (mkMsg dest_server (message_type o) r p (contents heap hs o)) (fun rd b => understood rd r p b heap hs o).
  Proof.
    destruct o as [pv ps ser|mn mx t a args| |v cid|v cid|cid|cid|key|cid mi mr|cid mi mr|ni ap op hi cs ne ht rt|g|g|]; intros F; cbn [message_type contents].
    - destruct F as ((A1 & A2) & (B1 & B2) & (D1 & D2)). cbn [understood sent]. plain_message [VStr pv; VStr ps; VStr ser; VNone].
      + constructor; [cbn [snd]; apply cf_scalar, be_raw; [vm_compute; tauto|exact A1|exact A2]|]. constructor; [cbn [snd]; apply cf_scalar, be_raw; [vm_compute; tauto|exact B1|exact B2]|].
        constructor; [cbn [snd]; apply cf_scalar, be_raw; [vm_compute; tauto|exact D1|exact D2]|]. constructor; [cbn [snd]; none|constructor].
      + field0; [exact (str_copied _ _ _ _ _ Hy)|]. field0; [exact (str_copied _ _ _ _ _ Hy)|]. field0; [exact (str_copied _ _ _ _ _ Hy)|]. field0; [exact (none_copied _ _ _ _ Hy)|apply Forall_nil].
    - exact (init_comes hs mn mx t a args F).
    - apply (text_comes CONNECT_RUNSPACEPOOL _ (lit "<S />") (lit "<S />")); [split; [discriminate|reflexivity]|vm_compute; reflexivity|vm_compute; discriminate|]. intros fuel heap0. reflexivity.
    - cbn [understood sent]. plain_message [VInt v; VInt cid]; [constructor; [cbn [snd]; int|constructor; [cbn [snd]; int|constructor]]|].
      field0; [exact (int_copied _ _ _ _ _ Hy)|]. field0; [exact (int_copied _ _ _ _ _ Hy)|apply Forall_nil].
    - cbn [understood sent]. plain_message [VInt v; VInt cid]; [constructor; [cbn [snd]; int|constructor; [cbn [snd]; int|constructor]]|].
      field0; [exact (int_copied _ _ _ _ _ Hy)|]. field0; [exact (int_copied _ _ _ _ _ Hy)|apply Forall_nil].
    - cbn [understood sent]. plain_message [VInt cid]; [constructor; [cbn [snd]; int|constructor]|]. field0; [exact (int_copied _ _ _ _ _ Hy)|apply Forall_nil].
    - cbn [understood sent]. plain_message [VInt cid]; [constructor; [cbn [snd]; int|constructor]|]. field0; [exact (int_copied _ _ _ _ _ Hy)|apply Forall_nil].
    - cbn [understood sent]. plain_message [VStr key]; [constructor; [cbn [snd]; exact (text_fits ci float_of _ _ _ _ F)|constructor]|]. field0; [exact (str_copied _ _ _ _ _ Hy)|apply Forall_nil].
    - exact (response_comes _ _ cid mi mr (or_introl (conj eq_refl eq_refl)) F).
    - exact (response_comes _ _ cid mi mr (or_intror (conj eq_refl eq_refl)) F).
    - exact (create_comes heap hs ni ap op hi cs ne ht rt F).
    - destruct F as ((n & Eg) & Cf). destruct g as [h v]. cbn [fst snd] in *. subst v. cbn [understood sent fst snd].
      apply (object_comes GET_COMMAND_METADATA (lit "GetCommandMetadata") h n); [reflexivity|intros [H|[H|[H|[H|[H|[]]]]]]; discriminate H|exact Cf|]. intros h' k w Cp. exact Cp.
    - destruct g as [h v]. cbn [fit_message fst snd] in F.
      destruct (data_message ci show xml_text float_of sending sending_canon reg U sending_tidy (sending_coded _ (or_introl eq_refl)) (sending_coded _ (or_intror (or_introl eq_refl))) dest_server r p h v false server_range Gr Gp F) as (f0 & K).
      exists f0. intros fuel L. destruct (K fuel L) as (b & Pk & Un). exists b. split; [exact Pk|]. intros fuel' heap0. exact (Un heap0 fuel').
    - apply (text_comes END_OF_PIPELINE_INPUT _ [] []); [split; [discriminate|reflexivity]|reflexivity|exact I|]. intros fuel heap0. reflexivity.
  Qed.
End Message.
