(* Property theorem C07: the PSRP message envelope. *)
From Coq Require Import Lia.
From Verif Require Import Base BaseProofs Lit TextSpec Utf8Model MsgModel MsgSpec MsgProofs.

(* Packing gives the layout of MS-PSRP 2.2.1. *)
Theorem C07_message_layout : forall Obj (cd : codec Obj) m b,
  m_type m = data_type (m_data m) -> (forall o, m_data m <> DObj PUBLIC_KEY_REQUEST o) ->
  length (m_rpid m) = 16 -> length (m_pid m) = 16 ->
  message_pack cd m = Ok b ->
  exists d t body text,
    b = d ++ t ++ stored_guid (m_rpid m) ++ stored_guid (m_pid m) ++ body /\
    length d = 4 /\ length t = 4 /\
    Z.of_N (little_endian d) = m_dest m /\ Z.of_N (little_endian t) = m_type m /\
    carries cd (m_data m) text /\ utf8_encode text = Ok body.
Proof. exact @message_pack_layout. Qed.
Print Assumptions C07_message_layout.

(* Reading the header back recovers every field and the text. *)
Theorem C07_header_roundtrip : forall Obj (cd : codec Obj) m b,
  m_type m = data_type (m_data m) -> (forall o, m_data m <> DObj PUBLIC_KEY_REQUEST o) ->
  is_guid (m_rpid m) -> is_guid (m_pid m) ->
  message_pack cd m = Ok b ->
  exists text, carries cd (m_data m) text /\
    (no_bom text ->
     unpack_header b = Ok (mkHeader (m_dest m) (m_type m) (guid_str (m_rpid m)) (guid_str (m_pid m)) text)).
Proof. exact @header_roundtrip. Qed.
Print Assumptions C07_header_roundtrip.

(* The whole message comes back whenever the serializer inverts itself on the
   object carried. *)
Theorem C07_message_roundtrip : forall Obj (cd : codec Obj) m b,
  m_type m = data_type (m_data m) ->
  In (m_type m) known_types ->
  (forall ty o, m_data m = DObj ty o ->
     ~ In ty [PUBLIC_KEY_REQUEST; PIPELINE_INPUT; PIPELINE_OUTPUT; END_OF_PIPELINE_INPUT] /\
     ~ (ty = CONNECT_RUNSPACEPOOL /\ cd_limits cd o = (None, None))) ->
  is_guid (m_rpid m) -> is_guid (m_pid m) ->
  inverts cd (m_data m) ->
  (forall t, carries cd (m_data m) t -> no_bom t) ->
  message_pack cd m = Ok b -> message_unpack cd b = Ok m.
Proof. exact @message_roundtrip. Qed.
Print Assumptions C07_message_roundtrip.

(* A leading byte order mark is ignored, and nothing else. *)
Theorem C07_byte_order_mark : forall d t r p text b,
  length d = 4 -> length t = 4 -> length r = 16 -> length p = 16 ->
  utf8_encode text = Ok b ->
  unpack_header (d ++ t ++ r ++ p ++ [239; 187; 191]%N ++ b) =
    Ok (mkHeader (Z.of_N (le_val d)) (Z.of_N (le_val t)) (guid_str (swap_le r)) (guid_str (swap_le p)) text) /\
  (no_bom text ->
   unpack_header (d ++ t ++ r ++ p ++ b) =
     Ok (mkHeader (Z.of_N (le_val d)) (Z.of_N (le_val t)) (guid_str (swap_le r)) (guid_str (swap_le p)) text)).
Proof.
  exact (fun d t r p text b Ld Lt Lr Lp E =>
    conj (unpack_header_bom d t r p text b Ld Lt Lr Lp E)
         (fun Hn => unpack_header_text d t r p text b Ld Lt Lr Lp E Hn)).
Qed.
Print Assumptions C07_byte_order_mark.

(* GUIDs survive their textual form. *)
Theorem C07_guid_text : forall g, is_guid g -> guid_parse (guid_str g) = Ok g.
Proof. exact guid_parse_str. Qed.
Print Assumptions C07_guid_text.

(* A missing pipeline id is the all-zero GUID. *)
Theorem C07_missing_pipeline : forall Obj (d : mdata Obj) dest rpid m,
  message_new dest rpid None d = Ok m ->
  m_pid m = repeat 0%N 16 /\ m_dest m = dest /\ m_data m = d /\ m_type m = data_type d.
Proof. exact @message_new_missing. Qed.
Print Assumptions C07_missing_pipeline.

(* Only headers whose fields fit are packed; short or unknown data is
   rejected. *)
Theorem C07_pack_range : forall Obj (cd : codec Obj) m b,
  message_pack cd m = Ok b -> (0 <= m_dest m < 2 ^ 32)%Z /\ (0 <= m_type m < 2 ^ 32)%Z.
Proof. exact @message_pack_total. Qed.
Print Assumptions C07_pack_range.

Theorem C07_short_data : forall Obj (cd : codec Obj) data,
  length data < 40 -> exists e, message_unpack cd data = Err e /\
    (length data < 8 -> e = StructError) /\ (8 <= length data -> e = ValueError).
Proof. exact @short_message. Qed.
Print Assumptions C07_short_data.

Theorem C07_unknown_type : forall Obj (cd : codec Obj) data h,
  unpack_header data = Ok h -> ~ In (h_type h) known_types -> message_unpack cd data = Err KeyError.
Proof. exact @unknown_type. Qed.
Print Assumptions C07_unknown_type.

(* What is received keeps the type and ids of its header. *)
Theorem C07_received_header : forall Obj (cd : codec Obj) data m,
  (forall ty t o, cd_deser_class cd ty t = Ok o -> cd_type cd o = None \/ cd_type cd o = Some ty) ->
  message_unpack cd data = Ok m ->
  exists h, unpack_header data = Ok h /\ m_dest m = h_dest h /\ m_type m = h_type h /\
            guid_parse (h_rpid h) = Ok (m_rpid m) /\ guid_parse (h_pid h) = Ok (m_pid m) /\
            In (m_type m) known_types.
Proof. exact @unpack_type. Qed.
Print Assumptions C07_received_header.

(* A codec whose objects are their own text, and a message through it. *)
Definition text_codec : codec (Z * list N) :=
  mkCodec _ (fun o => Ok (Some (snd o))) (fun t => Ok (0%Z, t)) (fun t => Ok (0%Z, t))
          (fun ty t => Ok (ty, t)) (fun o => Some (fst o)) (fun _ => (None, None)).

Example C07_case :
  let m := mkMsg 2 CREATE_PIPELINE [1;2;3;4;5;6;7;8;9;10;11;12;13;14;15;16]%N (repeat 0%N 16)
                 (DObj CREATE_PIPELINE (CREATE_PIPELINE, [60; 233; 62]%N)) in
  message_pack text_codec m =
    Ok [2;0;0;0; 6;16;2;0; 4;3;2;1;6;5;8;7;9;10;11;12;13;14;15;16;
        0;0;0;0;0;0;0;0;0;0;0;0;0;0;0;0; 60;195;169;62]%N /\
  inverts text_codec (m_data m) /\ (forall t, carries text_codec (m_data m) t -> no_bom t) /\
  is_guid (m_rpid m) /\
  guid_str (m_rpid m) = lit "01020304-0506-0708-090a-0b0c0d0e0f10".
Proof.
  cbv zeta. split; [vm_compute; reflexivity|]. split; [|split; [|split]].
  - split; [reflexivity|]. intros t [E|[E _]]; [|discriminate].
    cbn in E. apply Ok_inj in E. inversion E. reflexivity.
  - intros t H. cbn [m_data] in H.
    destruct (carries_obj _ _ _ _ H) as [->|[->|[E|[E _]]]]; try discriminate.
    + exact I.
    + cbn in E. apply Ok_inj in E. inversion E. discriminate.
  - split; [reflexivity|]. cbn [m_rpid]. repeat (apply Forall_cons; [lia|]). apply Forall_nil.
  - vm_compute. reflexivity.
Qed.
