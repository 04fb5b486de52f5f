(* How a peer reads a string: MS-PSRP 2.2.5.3.2.  Characters stand for themselves,
   _xHHHH_ for the UTF-16 code unit with that number, and a pair of surrogates for
   one character.  Nothing of TextModel.v is used. *)
From Verif Require Import Base.

Definition hex_value (c : N) : option N :=
  if (N.leb 48 c && N.leb c 57)%bool then Some (c - 48)%N
  else if (N.leb 65 c && N.leb c 70)%bool then Some (c - 55)%N
  else if (N.leb 97 c && N.leb c 102)%bool then Some (c - 87)%N
  else None.
Definition unit_value (h1 h2 h3 h4 : N) : option N :=
  match hex_value h1, hex_value h2, hex_value h3, hex_value h4 with
  | Some a, Some b, Some c, Some d => Some (a * 4096 + b * 256 + c * 16 + d)%N
  | _, _, _, _ => None
  end.
Fixpoint code_units (t : list N) : list N :=
  match t with
  | [] => []
  | c :: t' =>
      match t' with
      | x :: h1 :: h2 :: h3 :: h4 :: e :: r =>
          if (N.eqb c 95 && (N.eqb x 120 || N.eqb x 88) && N.eqb e 95)%bool then
            match unit_value h1 h2 h3 h4 with Some u => u :: code_units r | None => c :: code_units t' end
          else c :: code_units t'
      | _ => c :: code_units t'
      end
  end.
Definition high (u : N) : bool := (N.leb 55296 u && N.leb u 56319)%bool.
Definition low (u : N) : bool := (N.leb 56320 u && N.leb u 57343)%bool.
Fixpoint characters (us : list N) : list N :=
  match us with
  | [] => []
  | u :: us' =>
      match us' with
      | v :: r => if (high u && low v)%bool then (65536 + (u - 55296) * 1024 + (v - 56320))%N :: characters r else u :: characters us'
      | [] => [u]
      end
  end.
Definition peer_reads (t : list N) : list N := characters (code_units t).
