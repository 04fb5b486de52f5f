(* Model of Serializer.deserialize on a text: src/pypsrp/serializer.py:168-190. *)
From Verif Require Import Base Lit NumModel TextModel Utf8Model MsgModel XmlModel SerModel XtModel.
Local Open Scope list_scope.

(* A text that is no XML is itself the result, serializer.py:177-182; the log
   message is not modelled.  Simplified: where the text of the element becomes the
   value, it is that of ET.tostring and not the one that was given. *)
Definition deserialize_text (ci : option cipher) (xml_text : xml -> list N) (float_of : list N -> res (list N)) (classes : list N -> option cdesc)
  (heap : list hobj) (text : list N) (m : meta) : res (value * list hobj) :=
  match xml_parse text with
  | None => Ok (VStr text, heap)
  | Some x => deserialize ci xml_text float_of classes heap x m
  end.
(* ET.tostring(serialize(value, metadata), encoding="utf-8", method="xml") and
   to_string of it, as in messages.py:202-214 *)
Definition serialize_text (ci : option cipher) (show : value -> list N) (classes : list N -> option cdesc) (reg : list (list N * list N))
  (heap : list hobj) (fuel : nat) (v : value) (m : meta) : res (option (list N)) :=
  do ox <- serialize ci show classes heap fuel v m;
  match ox with
  | None => Ok None
  | Some x => do b <- tostring reg x; do s <- utf8_decode b; Ok (Some s)
  end.
