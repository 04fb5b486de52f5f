(* The bytes of a WSMan request: src/pypsrp/wsman.py:260-418, 470-491. *)
From Verif Require Import Base Lit XmlModel XtModel WsmanModel ShellModel.

(* Each of the methods of wsman.py:260-418 calls invoke with its action;
   wsman.py:470-491 writes the envelope.  A missing ResourceUri and an empty one
   are written the same way. *)
Definition request_bytes (w : wsman) (uuid : list N) (q : sreq) : res bytes :=
  tostring library_registry
    (envelope w uuid (op_action (q_op q)) (match q_uri q with Some u => u | None => [] end) (q_body q)
       (q_options q) (q_selectors q) (q_timeout q)).
