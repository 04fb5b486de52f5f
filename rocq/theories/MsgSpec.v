(* Independent specification for the message envelope. *)
From Verif Require Import Base Lit TextSpec Utf8Model MsgModel.

(* value of bytes, least significant first *)
Fixpoint little_endian (l : list N) : N :=
  match l with [] => 0%N | b :: l' => (b + 256 * little_endian l')%N end.

(* A GUID: 16 bytes. *)
Definition is_guid (g : list N) : Prop := length g = 16 /\ bytes_ok g.

(* The order in which .NET stores the bytes of a GUID: entry i of the stored
   form is entry [net_order i] of the textual form. *)
Definition net_order : list nat := [3; 2; 1; 0; 5; 4; 7; 6; 8; 9; 10; 11; 12; 13; 14; 15].
Definition stored_guid (g : list N) : list N := map (fun i => nth i g 0%N) net_order.

(* The text of an object: what the serializer gives, or nothing. *)
Definition serialized {Obj} (cd : codec Obj) (o : Obj) (t : list N) : Prop :=
  cd_ser cd o = Ok (Some t) \/ cd_ser cd o = Ok None /\ t = [].

(* The text a message carries. *)
Inductive carries {Obj} (cd : codec Obj) : mdata Obj -> list N -> Prop :=
| ca_key_request : carries cd DPublicKeyRequest (lit "<S />")
| ca_end : forall o, carries cd (DObj END_OF_PIPELINE_INPUT o) []
| ca_connect : forall o, cd_limits cd o = (None, None) ->
    carries cd (DObj CONNECT_RUNSPACEPOOL o) (lit "<S />")
| ca_input : forall o t, serialized cd o t -> carries cd (DInput o) t
| ca_output : forall o t, serialized cd o t -> carries cd (DOutput o) t
| ca_obj : forall ty o t,
    ty <> END_OF_PIPELINE_INPUT -> ty <> PUBLIC_KEY_REQUEST ->
    ~ (ty = CONNECT_RUNSPACEPOOL /\ cd_limits cd o = (None, None)) ->
    serialized cd o t -> carries cd (DObj ty o) t.

(* A text that does not itself begin with a byte order mark. *)
Definition no_bom (t : list N) : Prop := match t with c :: _ => c <> 65279%N | [] => True end.

(* The serializer inverts itself on the object of a message. *)
Definition inverts {Obj} (cd : codec Obj) (d : mdata Obj) : Prop :=
  match d with
  | DPublicKeyRequest => True
  | DInput o | DOutput o => forall t, serialized cd o t -> cd_deser cd t = Ok o
  | DObj ty o => cd_type cd o = Some ty /\
                 forall t, serialized cd o t -> cd_deser_class cd ty t = Ok o
  end.
