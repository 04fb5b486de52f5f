(* Properties of serializing a value and reading it back. *)
From Verif Require Import Base Lit NumModel TextModel TextSpec MsgModel XmlModel SerModel SerClasses SerSpec SerProofs5.

(* ---- C13: which of these values come back.  All are serialized; exactly those
   come back that have no list or dictionary as a member of a list, no empty byte
   string and no text that C09 excludes. ---- *)
Theorem C13_roundtrip_iff ci show xml_text float_of classes heap v : claimed v ->
  exists f0, forall fuel, (f0 <= fuel)%nat -> exists x, serialize ci show classes [] fuel v any_meta = Ok (Some x) /\
    (deserialize ci xml_text float_of classes heap (reparse x) any_meta = Ok (v, heap) <-> flat v).
Proof. exact (value_roundtrip ci show xml_text float_of classes heap v). Qed.
Definition sample : value :=
  VDict [(VStr (lit "a"), VDict [(VInt (-1), VList [VNone; VBool true; VBytes [0; 255]%N]); (VNone, VStr [])]);
         (VBool false, VList [VStr (lit "x_y"); VInt 12345678901234567890]); (VStr [], VDict [])].
Local Ltac go := lazymatch goal with
  | |- Forall _ (_ :: _) => apply Forall_cons; cbn [fst snd]
  | |- Forall _ [] => apply Forall_nil
  | |- claimed (VDict _) => apply c_dict
  | |- claimed (VList _) => apply c_list
  | |- claimed _ => apply c_scalar
  | |- scalar_value VNone => apply sv_none
  | |- scalar_value (VBool _) => apply sv_bool
  | |- scalar_value (VInt _) => apply sv_int
  | |- scalar_value (VStr _) => apply sv_str; apply ascii_scalars; vm_compute; reflexivity
  | |- scalar_value (VBytes _) => apply sv_bytes; apply small_bytes; vm_compute; reflexivity
  | |- True => exact I
  | |- distinct_keys [] => exact I
  | |- distinct_keys (_ :: _) => cbn [distinct_keys]
  | |- key_eqb _ _ = false => vm_compute; reflexivity
  | |- _ /\ _ => split
  end.
Local Ltac fl := lazymatch goal with
  | |- Forall _ (_ :: _) => apply Forall_cons; cbn [fst snd]
  | |- Forall _ [] => apply Forall_nil
  | |- flat (VDict _) => apply f_dict
  | |- flat (VList _) => apply f_list
  | |- kept (VStr _) => apply short_kept; vm_compute; repeat constructor
  | |- kept (VBytes _) => cbn [kept]; discriminate
  | |- kept _ => exact I
  | |- flat _ => apply f_scalar
  | |- _ /\ _ => split
  end.
Example C13_case : claimed sample /\ flat sample /\
  exists x, serialize None (fun _ => []) library [] 5 sample any_meta = Ok (Some x) /\
    deserialize None (fun _ => []) (fun s => Ok s) library [] (reparse x) any_meta = Ok (sample, []).
Proof.
  split; [unfold sample; repeat go|].
  split; [unfold sample; repeat fl|].
  eexists. split; [vm_compute; reflexivity|]. vm_compute; reflexivity.
Qed.
Print Assumptions C13_roundtrip_iff.

(* A list in a list comes back as a generic object that holds XML text. *)
Theorem C13_nested_list_refuted : exists v x w h, claimed v /\
  serialize None (fun _ => []) library [] 5 v any_meta = Ok (Some x) /\
  deserialize None (fun _ => []) (fun s => Ok s) library [] (reparse x) any_meta = Ok (w, h) /\ v = VList [VList [VInt 1]] /\ w = VList [VObj 0].
Proof.
  exists (VList [VList [VInt 1]]). do 3 eexists. split; [repeat go|]. split; [vm_compute; reflexivity|].
  split; [vm_compute; reflexivity|split; reflexivity].
Qed.
Print Assumptions C13_nested_list_refuted.

(* An empty byte string cannot be read. *)
Theorem C13_empty_bytes_refuted : exists v x, claimed v /\
  serialize None (fun _ => []) library [] 5 v any_meta = Ok (Some x) /\
  deserialize None (fun _ => []) (fun s => Ok s) library [] (reparse x) any_meta = Err TypeError.
Proof. exists (VBytes []). eexists. split; [repeat go|]. split; [vm_compute; reflexivity|]. vm_compute; reflexivity. Qed.
Print Assumptions C13_empty_bytes_refuted.

(* A list in a list hides the type names of its members: a later dictionary
   refers to names the reader has not seen. *)
Theorem C13_hidden_types_refuted : exists v x, claimed v /\
  serialize None (fun _ => []) library [] 5 v any_meta = Ok (Some x) /\
  deserialize None (fun _ => []) (fun s => Ok s) library [] (reparse x) any_meta = Err KeyError.
Proof.
  exists (VList [VList [VDict []]; VDict []]). eexists. split; [repeat go|]. split; [vm_compute; reflexivity|]. vm_compute; reflexivity.
Qed.
Print Assumptions C13_hidden_types_refuted.
