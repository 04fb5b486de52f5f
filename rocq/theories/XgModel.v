(* ElementTree.fromstring of bytes: the body of a response, wsman.py:511 (with
   wsman.py:914-933, which hand the bytes on).  Simplified: only UTF-8 is read;
   expat also knows UTF-16, US-ASCII and ISO-8859-1, and Python other charsets
   that the XML declaration may name.  Here these are refused. *)
From Verif Require Import Base Lit TextModel Utf8Model XmlModel XtModel.

(* the encoding the declaration names *)
Definition named_encoding (s : list N) : option (list N) :=
  match after_word (lit "<?xml") s with
  | Some s1 =>
      match pseudo (lit "version") s1 with
      | Some (_, s2) => match pseudo (lit "encoding") s2 with Some (v, _) => Some v | None => None end
      | None => None
      end
  | None => None
  end.
Definition body_tree (b : bytes) : option xml :=
  match utf8_decode b with
  | Ok s =>
      match named_encoding (eol (drop_bom s)) with
      | Some n => if str_eqb (map lower n) (lit "utf-8") then xml_parse s else None
      | None => xml_parse s
      end
  | Err _ => None
  end.
