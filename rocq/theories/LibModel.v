(* A pool with the serializer in it: the environment of PoolModel.v whose
   messages are the graphs of TellModel.v and whose codec is that of WireModel.v.

   Simplified: an attribute that is missing or is not of the type its metadata
   says is read as 0, no text or None.  Each message has instances of its own;
   none exist before it is read.  The classes that are only sent (SendClasses.v)
   have no numbers among the messages that a client is sent. *)
From Verif Require Import Base Lit NumModel TextModel MsgModel XmlModel WsmanModel ShellModel SerModel SerClasses WireModel SendClasses ObjModel StartModel TellModel.
From Verif Require PoolModel.
Import PoolModel (env, mkEnv).
Local Open Scope list_scope.

(* message.data.attribute: powershell.py:797-925, 1574-1586 *)
Definition attribute (a : String.string) (g : graph) : value :=
  match instance_of g with
  | Some (_, attrs) => match dict_get str_eqb (lit a) attrs with Some v => v | None => VNone end
  | None => VNone
  end.
Definition number (v : value) : Z := match v with VInt z => z | _ => 0%Z end.
Definition text (v : value) : option (list N) := match v with VStr s => Some s | _ => None end.
Definition answer (v : value) : PoolModel.rval :=
  match v with VBool b => PoolModel.VBool b | VInt z => PoolModel.VInt z | _ => PoolModel.VNone end.
(* not obj: bool() of the values of SerModel.v; a float is its repr *)
Definition untrue (v : value) : bool :=
  match v with
  | VNone => true
  | VBool b => negb b
  | VInt z => Z.eqb z 0
  | VFloat t => (str_eqb t (lit "0.0") || str_eqb t (lit "-0.0"))%bool
  | VStr s => match s with [] => true | _ => false end
  | VBytes b => match b with [] => true | _ => false end
  | VList l => match l with [] => true | _ => false end
  | VTuple l | VDict l => match l with [] => true | _ => false end
  | _ => false
  end.

(* what remains outside: the server, the cryptography, the registry of types, the
   host and the clock *)
Record outside (HS RK : Type) := mkOutside {
  x_srv : bool -> history -> sreq -> wresult;
  x_cipher : bytes -> cipher;                  (* AES-256-CBC with this key *)
  x_show : value -> list N;
  x_xml : xml -> list N;
  x_float : list N -> res (list N);
  x_registry : list (list N * list N);
  x_host : option (HS -> Z -> graph -> option (list N) -> out (option graph) * HS);
  x_keygen : history -> RK; x_modulus : RK -> N; x_exponent : RK -> N; x_decrypt : RK -> bytes -> res bytes;
  x_clock : history -> Z;
  x_skeleton : Z }.
Arguments x_srv {HS RK}. Arguments x_cipher {HS RK}. Arguments x_show {HS RK}. Arguments x_xml {HS RK}. Arguments x_float {HS RK}. Arguments x_registry {HS RK}.
Arguments x_host {HS RK}. Arguments x_keygen {HS RK}. Arguments x_modulus {HS RK}. Arguments x_exponent {HS RK}. Arguments x_decrypt {HS RK}. Arguments x_clock {HS RK}. Arguments x_skeleton {HS RK}.

Section Env.
  Context {HS RK : Type} (x : outside HS RK).
  (* the serializer with the session key, powershell.py:904-925 *)
  Definition library_codec (fuel : nat) (key : option bytes) (heap0 : list hobj) : codec graph :=
    wire (option_map (x_cipher x) key) (x_show x) (x_xml x) (x_float x) sending (x_registry x) fuel heap0.
  (* [fuel]: how deep the serializer may go; [heap], [hs]: see TellModel.v *)
  Definition library_env (fuel : nat) (heap : list hobj) (hs : option host) : env graph (command value) HS RK :=
    mkEnv (x_srv x) (fun key => library_codec fuel key []) (sent heap hs)
      (fun g => (text (attribute "protocol_version" g), text (attribute "ps_version" g), text (attribute "serialization_version" g)))
      (fun g => match text (attribute "session_key" g) with Some t => t | None => [] end)
      (fun g => (number (attribute "min_runspaces" g), number (attribute "max_runspaces" g)))
      (fun g => (number (attribute "ci" g), answer (attribute "response" g)))
      (fun g => number (attribute "state" g))
      (fun g => (number (attribute "ci" g), number (attribute "value" (fst g, attribute "mi" g)), (fst g, attribute "mp" g)))
      (fun g => (number (attribute "state" g), match attribute "error_record" g with VNone => None | v => Some (fst g, v) end))
      (x_host x) (x_keygen x) (x_modulus x) (x_exponent x) (x_decrypt x) (x_clock x) (fun g => untrue (snd g)) (x_skeleton x).
End Env.
