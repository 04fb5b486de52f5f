(* The decoding of the streams of a process: Client.execute_cmd,
   src/pypsrp/client.py:145-179, with to_unicode, src/pypsrp/_utils.py:30-43. *)
From Verif Require Import Base Lit NumModel TextModel Utf8Model XmlModel WsmanModel ShellModel.
Local Open Scope list_scope.

(* Python's codec for the codepage 437 (Lib/encodings/cp437.py): the upper half, in
   the order of the bytes *)
Definition cp437_upper : list N :=
  [199; 252; 233; 226; 228; 224; 229; 231; 234; 235; 232; 239; 238; 236; 196; 197;
   201; 230; 198; 244; 246; 242; 251; 249; 255; 214; 220; 162; 163; 165; 8359; 402;
   225; 237; 243; 250; 241; 209; 170; 186; 191; 8976; 172; 189; 188; 161; 171; 187;
   9617; 9618; 9619; 9474; 9508; 9569; 9570; 9558; 9557; 9571; 9553; 9559; 9565; 9564; 9563; 9488;
   9492; 9524; 9516; 9500; 9472; 9532; 9566; 9567; 9562; 9556; 9577; 9574; 9568; 9552; 9580; 9575;
   9576; 9572; 9573; 9561; 9560; 9554; 9555; 9579; 9578; 9496; 9484; 9608; 9604; 9612; 9616; 9600;
   945; 223; 915; 960; 931; 963; 181; 964; 934; 920; 937; 948; 8734; 966; 949; 8745;
   8801; 177; 8805; 8804; 8992; 8993; 247; 8776; 176; 8729; 183; 8730; 8319; 178; 9632; 160]%N.
Definition cp437 (b : N) : N := if N.ltb b 128 then b else nth (N.to_nat (b - 128)) cp437_upper 0%N.

(* _utils.py:30-43 of bytes: bytes.decode(encoding).  Two encodings are modelled,
   under the names of the default and of UTF-8; [other] is Python's for the rest. *)
Definition decoded (other : list N -> bytes -> res (list N)) (encoding : list N) (b : bytes) : res (list N) :=
  if str_eqb encoding (lit "437") then Ok (map cp437 b)
  else if str_eqb encoding (lit "utf-8") then utf8_decode b
  else other encoding b.

(* client.py:145-179: after the shell was closed; a text that is not in the
   encoding raises UnicodeDecodeError, a ValueError *)
Definition execute_cmd_text srv (other : list N -> bytes -> res (list N)) (fuel : nat) (command encoding : list N) (environment : option (list (list N * list N))) (h : history)
  : out (list N * list N * Z) * history :=
  let '(r, h) := execute_cmd srv fuel command environment h in
  match r with
  | Raise x => (Raise x, h)
  | Ret (o, e, rc) =>
      match decoded other encoding o with
      | Err x => (Raise (XExn x), h)
      | Ok o => match decoded other encoding e with Err x => (Raise (XExn x), h) | Ok e => (Ret (o, e, rc), h) end
      end
  end.
