(* Model of the PSRP message envelope, /repo/src/pypsrp/messages.py:37-228. *)
From Verif Require Import Base Lit TextModel Utf8Model.

(* ------------------------------------------------------------------ *)
(* messages.py:37-81 *)
Definition dest_client : Z := 1.
Definition dest_server : Z := 2.

Definition SESSION_CAPABILITY : Z := 0x00010002.
Definition INIT_RUNSPACEPOOL : Z := 0x00010004.
Definition PUBLIC_KEY : Z := 0x00010005.
Definition ENCRYPTED_SESSION_KEY : Z := 0x00010006.
Definition PUBLIC_KEY_REQUEST : Z := 0x00010007.
Definition CONNECT_RUNSPACEPOOL : Z := 0x00010008.
Definition RUNSPACEPOOL_INIT_DATA : Z := 0x002100B.
Definition RESET_RUNSPACE_STATE : Z := 0x0002100C.
Definition SET_MAX_RUNSPACES : Z := 0x00021002.
Definition SET_MIN_RUNSPACES : Z := 0x00021003.
Definition RUNSPACE_AVAILABILITY : Z := 0x00021004.
Definition RUNSPACEPOOL_STATE : Z := 0x00021005.
Definition CREATE_PIPELINE : Z := 0x00021006.
Definition GET_AVAILABLE_RUNSPACES : Z := 0x00021007.
Definition USER_EVENT : Z := 0x00021008.
Definition APPLICATION_PRIVATE_DATA : Z := 0x00021009.
Definition GET_COMMAND_METADATA : Z := 0x0002100A.
Definition RUNSPACEPOOL_HOST_CALL : Z := 0x00021100.
Definition RUNSPACEPOOL_HOST_RESPONSE : Z := 0x00021101.
Definition PIPELINE_INPUT : Z := 0x00041002.
Definition END_OF_PIPELINE_INPUT : Z := 0x00041003.
Definition PIPELINE_OUTPUT : Z := 0x00041004.
Definition ERROR_RECORD : Z := 0x00041005.
Definition PIPELINE_STATE : Z := 0x00041006.
Definition DEBUG_RECORD : Z := 0x00041007.
Definition VERBOSE_RECORD : Z := 0x00041008.
Definition WARNING_RECORD : Z := 0x00041009.
Definition PROGRESS_RECORD : Z := 0x00041010.
Definition INFORMATION_RECORD : Z := 0x00041011.
Definition PIPELINE_HOST_CALL : Z := 0x00041100.
Definition PIPELINE_HOST_RESPONSE : Z := 0x00041101.

(* messages.py:167-200: the keys of the class table.  Each key is the
   MESSAGE_TYPE of the class it maps to (messages.py:231-935), so the class is
   identified with its key. *)
Definition known_types : list Z :=
  [SESSION_CAPABILITY; INIT_RUNSPACEPOOL; PUBLIC_KEY; ENCRYPTED_SESSION_KEY;
   PUBLIC_KEY_REQUEST; SET_MAX_RUNSPACES; SET_MIN_RUNSPACES; RUNSPACE_AVAILABILITY;
   RUNSPACEPOOL_STATE; CREATE_PIPELINE; GET_AVAILABLE_RUNSPACES; USER_EVENT;
   APPLICATION_PRIVATE_DATA; GET_COMMAND_METADATA; RUNSPACEPOOL_HOST_CALL;
   RUNSPACEPOOL_HOST_RESPONSE; PIPELINE_INPUT; END_OF_PIPELINE_INPUT; PIPELINE_OUTPUT;
   ERROR_RECORD; PIPELINE_STATE; DEBUG_RECORD; VERBOSE_RECORD; WARNING_RECORD;
   PROGRESS_RECORD; INFORMATION_RECORD; PIPELINE_HOST_CALL; PIPELINE_HOST_RESPONSE;
   CONNECT_RUNSPACEPOOL; RUNSPACEPOOL_INIT_DATA; RESET_RUNSPACE_STATE].

(* ------------------------------------------------------------------ *)
(* Python's uuid.UUID: the 16 bytes in the order of the textual form. *)
Notation guid := (list N) (only parsing).

Definition guid_zero : guid := repeat 0%N 16.

(* UUID.bytes_le and UUID(bytes_le=...): the first three fields byte-swapped;
   the constructor wants exactly 16 bytes. *)
Definition swap_le (b : bytes) : bytes :=
  match b with
  | b0 :: b1 :: b2 :: b3 :: b4 :: b5 :: b6 :: b7 :: r =>
      b3 :: b2 :: b1 :: b0 :: b5 :: b4 :: b7 :: b6 :: r
  | _ => b
  end.
Definition guid_bytes_le (g : guid) : bytes := swap_le g.
Definition guid_of_bytes_le (b : bytes) : res guid :=
  if Nat.eqb (length b) 16 then Ok (swap_le b) else Err ValueError.

(* str(uuid): lower-case hexadecimal in groups 8-4-4-4-12. *)
Definition hex_digit_lower (d : N) : N := if N.ltb d 10 then (48 + d)%N else (87 + d)%N.
Definition hexlify (b : bytes) : list N :=
  flat_map (fun x => [hex_digit_lower (x / 16); hex_digit_lower (x mod 16)]%N) b.
Definition guid_str (g : guid) : list N :=
  hexlify (firstn 4 g) ++ [45]%N ++ hexlify (firstn 2 (skipn 4 g)) ++ [45]%N ++
  hexlify (firstn 2 (skipn 6 g)) ++ [45]%N ++ hexlify (firstn 2 (skipn 8 g)) ++ [45]%N ++
  hexlify (skipn 10 g).

(* uuid.UUID(text): braces stripped, dashes removed, 32 hexadecimal digits.
   Simplified: the "urn:" and "uuid:" decorations and what int(_, 16) tolerates
   inside the 32 characters (signs, underscores, blanks, 0x) raise ValueError
   here. *)
Definition is_brace (c : N) : bool := (N.eqb c 123 || N.eqb c 125)%bool.
Fixpoint lstrip_brace (s : list N) : list N :=
  match s with c :: s' => if is_brace c then lstrip_brace s' else s | [] => [] end.
Definition strip_braces (s : list N) : list N := rev (lstrip_brace (rev (lstrip_brace s))).
Definition guid_parse (s : list N) : res guid :=
  let h := filter (fun c => negb (N.eqb c 45)) (strip_braces s) in
  if Nat.eqb (length h) 32 then unhexlify h else Err ValueError.

(* ------------------------------------------------------------------ *)
(* The objects carried: [Obj] stands for the Python objects the serializer
   handles, with the serializer as an oracle. *)
Record codec (Obj : Type) := mkCodec {
  cd_ser : Obj -> res (option (list N));        (* ET.tostring of serialize(obj); None when it gives None *)
  cd_deser : list N -> res Obj;                 (* deserialize(text) *)
  cd_deser_generic : list N -> res Obj;         (* deserialize(text, GenericComplexObject) *)
  cd_deser_class : Z -> list N -> res Obj;      (* deserialize(text, class of that message type) *)
  cd_type : Obj -> option Z;                    (* its MESSAGE_TYPE attribute, if it has one *)
  cd_limits : Obj -> option Z * option Z        (* min_runspaces, max_runspaces of a ConnectRunspacePool *)
}.
Arguments cd_ser {Obj}. Arguments cd_deser {Obj}. Arguments cd_deser_generic {Obj}.
Arguments cd_deser_class {Obj}. Arguments cd_type {Obj}. Arguments cd_limits {Obj}.

(* the data of a Message: the wrappers with a [data] attribute
   (messages.py:351-359, 666-681, 694-706), and any other message object with
   its type. *)
Inductive mdata (Obj : Type) :=
| DPublicKeyRequest
| DInput (o : Obj)
| DOutput (o : Obj)
| DObj (ty : Z) (o : Obj).
Arguments DPublicKeyRequest {Obj}. Arguments DInput {Obj}. Arguments DOutput {Obj}. Arguments DObj {Obj}.

Definition data_type {Obj} (d : mdata Obj) : Z :=
  match d with
  | DPublicKeyRequest => PUBLIC_KEY_REQUEST
  | DInput _ => PIPELINE_INPUT
  | DOutput _ => PIPELINE_OUTPUT
  | DObj ty _ => ty
  end.

Record message (Obj : Type) := mkMsg {
  m_dest : Z; m_type : Z; m_rpid : guid; m_pid : guid; m_data : mdata Obj }.
Arguments mkMsg {Obj}. Arguments m_dest {Obj}. Arguments m_type {Obj}.
Arguments m_rpid {Obj}. Arguments m_pid {Obj}. Arguments m_data {Obj}.

(* messages.py:85-113: Message.__init__ *)
Definition message_new {Obj} (dest : Z) (rpid pid : option (list N)) (d : mdata Obj)
  : res (message Obj) :=
  do r <- match rpid with Some s => guid_parse s | None => Ok guid_zero end;
  do p <- match pid with Some s => guid_parse s | None => Ok guid_zero end;
  Ok (mkMsg dest (data_type d) r p d).

(* messages.py:115-138: the message text.  ET.tostring(ET.Element("S"),
   encoding="utf-8") is the text <S />; the serializer's element is given as
   its text.  A wrapper for output is never packed by the client: like any
   other object it would be handed to the serializer. *)
Definition empty_s : list N := lit "<S />".

Definition is_none {A} (o : option A) : bool := match o with None => true | Some _ => false end.

Definition ser_text {Obj} (cd : codec Obj) (o : Obj) : res bytes :=
  do t <- cd_ser cd o;
  match t with Some x => utf8_encode x | None => Ok [] end.

Definition message_text {Obj} (cd : codec Obj) (ty : Z) (d : mdata Obj) : res bytes :=
  if Z.eqb ty PUBLIC_KEY_REQUEST then utf8_encode empty_s
  else if Z.eqb ty END_OF_PIPELINE_INPUT then Ok []
  else match d with
       | DInput o => ser_text cd o
       | DOutput o => ser_text cd o
       | DObj _ o =>
           if (Z.eqb ty CONNECT_RUNSPACEPOOL &&
               is_none (fst (cd_limits cd o)) && is_none (snd (cd_limits cd o)))%bool
           then utf8_encode empty_s else ser_text cd o
       | DPublicKeyRequest => utf8_encode empty_s
       end.

(* messages.py:115-147: Message.pack *)
Definition message_pack {Obj} (cd : codec Obj) (m : message Obj) : res bytes :=
  do text <- message_text cd (m_type m) (m_data m);
  do d <- struct_pack_le 4 (m_dest m);
  do t <- struct_pack_le 4 (m_type m);
  Ok (d ++ t ++ guid_bytes_le (m_rpid m) ++ guid_bytes_le (m_pid m) ++ text).

(* messages.py:149-165: the header part of Message.unpack: destination, type,
   the two ids as text, and the message text without byte order mark. *)
Record header := mkHeader {
  h_dest : Z; h_type : Z; h_rpid : list N; h_pid : list N; h_text : list N }.

Definition unpack_header (data : bytes) : res header :=
  do dest <- struct_unpack_le 4 (py_slice data 0 4);
  do ty <- struct_unpack_le 4 (py_slice data 4 8);
  do rp <- guid_of_bytes_le (py_slice data 8 24);
  do p <- guid_of_bytes_le (py_slice data 24 40);
  do text <- (if str_eqb (py_slice data 40 43) [239; 187; 191]%N
              then utf8_decode (slice_from data 43)
              else utf8_decode (slice_from data 40));
  Ok (mkHeader (Z.of_N dest) (Z.of_N ty) (guid_str rp) (guid_str p) text).

(* messages.py:202-226: decoding the text by message type *)
Definition unpack_data {Obj} (cd : codec Obj) (ty : Z) (text : list N) : res (mdata Obj) :=
  if negb (existsb (Z.eqb ty) known_types) then Err KeyError
  else if Z.eqb ty PIPELINE_OUTPUT then
    match cd_deser cd text with
    | Ok o => Ok (DOutput o)
    | Err SerializationError => do o <- cd_deser_generic cd text; Ok (DOutput o)
    | Err e => Err e
    end
  else if Z.eqb ty PIPELINE_INPUT then do o <- cd_deser cd text; Ok (DInput o)
  else if Z.eqb ty PUBLIC_KEY_REQUEST then Ok DPublicKeyRequest
  else
    do o <- cd_deser_class cd ty text;
    (* Message.__init__ reads data.MESSAGE_TYPE *)
    match cd_type cd o with
    | Some ty' => Ok (DObj ty' o)
    | None => Err AttributeError
    end.

(* messages.py:149-228: Message.unpack *)
Definition message_unpack {Obj} (cd : codec Obj) (data : bytes) : res (message Obj) :=
  do h <- unpack_header data;
  do d <- unpack_data cd (h_type h) (h_text h);
  message_new (h_dest h) (Some (h_rpid h)) (Some (h_pid h)) d.
