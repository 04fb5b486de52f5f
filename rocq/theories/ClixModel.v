(* Model of Client.sanitise_clixml on characters: src/pypsrp/client.py:296-321 with
   the reader of XtModel.v. *)
From Verif Require Import Base Lit TextModel XmlModel XtModel ClientModel.
Local Open Scope list_scope.

(* ET.fromstring on a str; [OtherError] stands for ET.ParseError *)
Definition fromstring (text : list N) : res xml := match xml_parse text with Some x => Ok x | None => Err OtherError end.
(* client.py:296-321 on a str.  Simplified: a bytes object, which to_unicode also
   takes, is not modelled. *)
Definition sanitise_clixml_text (clixml : list N) : res (list N) := sanitise_clixml fromstring clixml.
