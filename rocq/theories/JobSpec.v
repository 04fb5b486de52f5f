(* What the server is asked by a pool: stated on the element tree it reads. *)
From Verif Require Import Base Lit NumModel TextModel XmlModel WsmanModel ShellModel ShellSpec WsmanSpec EnvModel EnvSpec.

(* a pipeline with this id to be started, its first argument these bytes *)
Definition launches (id : list N) (f : bytes) (body : xml) : Prop :=
  exists c command arg, x_children body = [c] /\ x_tag c = rshell (lit "CommandLine") /\ attr (lit "CommandId") (Some c) = Some id /\
    x_children c = [command; arg] /\ leaf (rshell (lit "Command")) [] [] command /\
    x_tag arg = rshell (lit "Arguments") /\ x_children arg = [] /\ b64decode (words arg) = Ok f.
(* a shell with these settings to be created, these bytes to be given to it *)
Definition opens (s : shell) (f : bytes) (body : xml) : Prop :=
  settles s None body /\
  exists c d, x_children body = [c] /\ sole (lit "{http://schemas.microsoft.com/powershell}creationXml") c d /\ b64decode (words d) = Ok f.

(* the request is written, and read as one for this shell with these options,
   its body as [P] says *)
Definition request_read (s : shell) (op : wop) (options selectors : option (list entry)) (timeout : option Z) (P : xml -> Prop) (q : sreq) : Prop :=
  forall w uuid, fit_wsman w -> fit uuid -> exists b, request_bytes w uuid q = Ok b /\
    received b (fun y => exists body,
      asks w uuid {| a_op := op; a_uri := match sh_uri s with Some u => u | None => [] end;
                     a_options := options; a_selectors := selectors; a_timeout := timeout |} y body /\ P body).
