(* Model of src/pypsrp/_utils.py: version_equal_or_newer and get_pwsh_script. *)
From Verif Require Import Base NumModel.

(* parts.extend(["0"] * (n - len(parts))) -- _utils.py 74-79 *)
Definition pad_parts (n : nat) (parts : list (list N)) : list (list N) :=
  parts ++ repeat [48%N] (n - length parts).

(* the comparison loop -- _utils.py 81-89.  Only parts that are reached are
   converted; the reference part is converted first. *)
Fixpoint version_loop (vs rs : list (list N)) : res bool :=
  match vs with
  | [] => Ok true
  | v :: vs' =>
      match rs with
      | [] => Err IndexError
      | r :: rs' =>
          do cur <- py_int r;
          do x <- py_int v;
          if Z.ltb x cur then Ok false
          else if Z.ltb cur x then Ok true
          else version_loop vs' rs'
      end
  end.

(* version_equal_or_newer(version, reference_version) -- _utils.py 54-90 *)
Definition version_equal_or_newer (version reference : list N) : res bool :=
  let vs := split_on 46 version in
  let rs := split_on 46 reference in
  let vs := if Nat.ltb (length vs) (length rs) then pad_parts (length rs) vs else vs in
  let rs := if Nat.ltb (length rs) (length vs) then pad_parts (length vs) rs else rs in
  version_loop vs rs.

(* the line filter of get_pwsh_script -- _utils.py 106-116 *)
Fixpoint script_lines (block : bool) (lines : list (list N)) : list (list N) :=
  match lines with
  | [] => []
  | l :: ls =>
      let line := py_strip l in
      if block then script_lines (negb (ends_with [35; 62]%N line)) ls
      else if starts_with [60; 35]%N line then script_lines true ls
      else if (negb (Nat.eqb (length line) 0) && negb (starts_with [35]%N line))%bool
           then line :: script_lines false ls
           else script_lines false ls
  end.

(* get_pwsh_script(name) after the resource has been read and decoded
   -- _utils.py 97-118.  Reading the package resource is not modelled. *)
Definition get_pwsh_script (script : list N) : list N :=
  join [10%N] (script_lines false (splitlines script)).
