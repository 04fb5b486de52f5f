(* Specification vocabulary for WSMan requests, responses and faults. *)
From Verif Require Import Base Lit NumModel XmlModel WsmanModel.

(* [y] lies below [x] along the tags [path] *)
Fixpoint reaches (path : list (list N)) (x y : xml) : Prop :=
  match path with
  | [] => x = y
  | t :: path' => exists c, In c (x_children x) /\ x_tag c = t /\ reaches path' c y
  end.

(* [y] is the first such element in document order *)
Fixpoint first_at (path : list (list N)) (x y : xml) : Prop :=
  match path with
  | [] => x = y
  | t :: path' =>
      exists before c after, x_children x = before ++ c :: after /\ x_tag c = t /\ first_at path' c y /\
        (forall c', In c' before -> x_tag c' = t -> forall z, ~ reaches path' c' z)
  end.
Definition lookup (path : list (list N)) (x : xml) (o : option xml) : Prop :=
  match o with Some y => first_at path x y | None => forall y, ~ reaches path x y end.

Definition soap (name : list N) : list N := lit "{http://www.w3.org/2003/05/soap-envelope}" ++ name.
Definition addressing (name : list N) : list N := lit "{http://schemas.xmlsoap.org/ws/2004/08/addressing}" ++ name.
Definition dmtf (name : list N) : list N := lit "{http://schemas.dmtf.org/wbem/wsman/1/wsman.xsd}" ++ name.
Definition microsoft (name : list N) : list N := lit "{http://schemas.microsoft.com/wbem/wsman/1/wsman.xsd}" ++ name.
Definition faulted (name : list N) : list N := lit "{http://schemas.microsoft.com/wbem/wsman/1/wsmanfault}" ++ name.

(* the answer names the request [id] it relates to *)
Definition relates_to (x : xml) (id : list N) : Prop :=
  exists y, first_at [soap (lit "Header"); addressing (lit "RelatesTo")] x y /\ x_text y = Some id.

(* a header field: exactly one child of the header has this tag, with this text *)
Definition header_field (request : xml) (tag text : list N) : Prop :=
  exists header before c after, first_at [soap (lit "Header")] request header /\
    x_children header = before ++ c :: after /\ x_tag c = tag /\ x_text c = Some text /\
    (forall c', In c' (before ++ after) -> x_tag c' <> tag).

(* the value read from the text of an error code *)
Definition code_read (t : option (list N)) (c : fcode) : Prop :=
  match t with
  | None => c = CNone
  | Some s => (exists z, py_int s = Ok z /\ c = CInt z) \/ ((forall z, py_int s <> Ok z) /\ c = CText s)
  end.
(* a text, stripped of blanks; none when there is none or it is empty *)
Definition text_read (t r : option (list N)) : Prop :=
  match t with
  | Some (c :: s) => r = Some (py_strip (c :: s))
  | _ => r = None
  end.
Definition attr (k : list N) (x : option xml) : option (list N) :=
  match x with Some (Elem _ a _ _) => dict_get str_eqb k a | None => None end.
Definition text_of (x : option xml) : option (list N) := match x with Some (Elem _ _ t _) => t | None => None end.

(* what a response text says about a fault *)
Definition fault_said (x : xml) (f : fault) : Prop :=
  exists fl, lookup [soap (lit "Body"); soap (lit "Fault")] x fl /\
  match fl with
  | None => f = {| f_code := CNone; f_machine := None; f_reason := None; f_provider := None; f_path := None; f_pfault := None |}
  | Some fl => exists sub base rea det msg prov,
      lookup [soap (lit "Code"); soap (lit "Subcode"); soap (lit "Value")] fl sub /\
      lookup [soap (lit "Code"); soap (lit "Value")] fl base /\
      lookup [soap (lit "Reason"); soap (lit "Text")] fl rea /\
      lookup [soap (lit "Detail"); faulted (lit "WSManFault")] fl det /\
      match det with
      | Some d => lookup [faulted (lit "Message")] d msg /\
                  lookup [faulted (lit "Message"); faulted (lit "ProviderFault")] d prov
      | None => msg = None /\ prov = None
      end /\
      (* the code: of the WSManFault, else of the subcode, else of the code *)
      (forall c, attr (lit "Code") det = Some c -> code_read (Some c) (f_code f)) /\
      (attr (lit "Code") det = None -> sub <> None -> code_read (text_of sub) (f_code f)) /\
      (attr (lit "Code") det = None -> sub = None -> code_read (text_of base) (f_code f)) /\
      (* the reason: the message, else the reason *)
      (forall c s, text_of msg = Some (c :: s) -> text_read (text_of msg) (f_reason f)) /\
      ((forall c s, text_of msg <> Some (c :: s)) -> text_read (text_of rea) (f_reason f)) /\
      f_machine f = attr (lit "Machine") det /\
      f_provider f = attr (lit "provider") prov /\ f_path f = attr (lit "path") prov /\
      text_read (text_of prov) (f_pfault f)
  end.

(* details of a fault that are there, labelled *)
Definition supplied (label : list N) (t : option (list N)) (l : list (list N)) : Prop :=
  match t with Some (c :: s) => l = [label ++ c :: s] | _ => l = [] end.
Definition shown_code (c : fcode) : option (list N) :=
  match c with CNone => None | CText s => Some s | CInt z => Some (py_str z) end.

(* a set as the user builds it: entries added one after the other *)
Definition built (s : wset) (entries : list (list N * list N * list (list N * list N))) : wset :=
  fold_left (fun s e => add_option s (fst (fst e)) (snd (fst e)) (snd e)) entries s.
(* what the child of an entry must look like *)
Definition carries (tag : list N) (entry : list N * list N * list (list N * list N)) (c : xml) : Prop :=
  x_tag c = tag /\ x_text c = Some (snd (fst entry)) /\ x_children c = [] /\
  attr (lit "Name") (Some c) = Some (fst (fst entry)) /\
  (forall k, k <> lit "Name" -> attr k (Some c) = dict_get str_eqb k (snd entry)).

(* the only element of the header with this tag *)
Definition sole_in_header (request : xml) (tag : list N) (y : xml) : Prop :=
  forall z, reaches [soap (lit "Header"); tag] request z <-> z = y.
Definition is_lower (s : list N) : Prop := Forall (fun c => ~ (65 <= c <= 90)%N) s.

(* the actions of WS-Transfer, WS-Enumeration and MS-WSMV *)
Definition standard_action (o : wop) : list N :=
  match o with
  | OpGet => lit "http://schemas.xmlsoap.org/ws/2004/09/transfer/Get"
  | OpPut => lit "http://schemas.xmlsoap.org/ws/2004/09/transfer/Put"
  | OpCreate => lit "http://schemas.xmlsoap.org/ws/2004/09/transfer/Create"
  | OpDelete => lit "http://schemas.xmlsoap.org/ws/2004/09/transfer/Delete"
  | OpEnumerate => lit "http://schemas.xmlsoap.org/ws/2004/09/enumeration/Enumerate"
  | OpPull => lit "http://schemas.xmlsoap.org/ws/2004/09/enumeration/Pull"
  | OpCommand => lit "http://schemas.microsoft.com/wbem/wsman/1/windows/shell/Command"
  | OpConnect => lit "http://schemas.microsoft.com/wbem/wsman/1/windows/shell/Connect"
  | OpDisconnect => lit "http://schemas.microsoft.com/wbem/wsman/1/windows/shell/Disconnect"
  | OpReceive => lit "http://schemas.microsoft.com/wbem/wsman/1/windows/shell/Receive"
  | OpReconnect => lit "http://schemas.microsoft.com/wbem/wsman/1/windows/shell/Reconnect"
  | OpSend => lit "http://schemas.microsoft.com/wbem/wsman/1/windows/shell/Send"
  | OpSignal => lit "http://schemas.microsoft.com/wbem/wsman/1/windows/shell/Signal"
  end.
