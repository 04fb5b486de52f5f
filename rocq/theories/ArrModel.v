(* complex_objects.py:1431-1524: Array, the multi-dimensional arrays of the host
   methods (buffer contents). *)
From Verif Require Import Base BaseProofs Lit NumModel MsgModel XmlModel SerModel SerClasses SendClasses.
Local Open Scope list_scope.

(* ---- flattening: complex_objects.py:1501-1509, _get_list_entries.  The argument
   of the first call is a list; isinstance(value, list) is true of lists alone. ---- *)
Fixpoint list_entries (v : value) : list value :=
  match v with
  | VList l => flat_map list_entries l
  | _ => [v]
  end.
(* complex_objects.py:1511-1523, _get_list_count: the lengths along the first entries *)
Fixpoint list_count (v : value) : res (list Z) :=
  match v with
  | VList l =>
      match l with
      | [] => Err IndexError
      | x :: _ => do c <- list_count x; Ok (Z.of_nat (length l) :: c)
      end
  | _ => Ok []
  end.

(* ---- building: complex_objects.py:1482-1499, _build_array ---- *)
(* complex_objects.py:1488-1490: range(0, length) and mae.pop(0) *)
Fixpoint pop_front (n : nat) (mae : list value) : res (list value * list value) :=
  match n with
  | 0 => Ok ([], mae)
  | S n => match mae with
           | [] => Err IndexError
           | v :: mae => do r <- pop_front n mae; Ok (v :: fst r, snd r)
           end
  end.
(* complex_objects.py:1486-1493: the loop; None when [fuel] turns are not enough *)
Fixpoint pop_rows (fuel : nat) (n : Z) (mae : list value) : option (res (list value)) :=
  match fuel with
  | 0 => None
  | S fuel =>
      match pop_front (Z.to_nat n) mae with
      | Err e => Some (Err e)
      | Ok (entry, []) => Some (Ok [VList entry])
      | Ok (entry, mae) =>
          match pop_rows fuel n mae with
          | Some (Ok values) => Some (Ok (VList entry :: values))
          | other => other
          end
      end
  end.
(* complex_objects.py:1482-1499; [mal] from its end, where it is popped.  That mae
   and mal are emptied is not modelled: nothing else of the object shows them. *)
Fixpoint build_rows (fuel : nat) (lam : list Z) (mae : list value) : option (res value) :=
  match lam with
  | [] => Some (Err IndexError)
  | n :: rest =>
      match pop_rows fuel n mae with
      | None => None
      | Some (Err e) => Some (Err e)
      | Some (Ok values) =>
          match rest with
          | [] => Some (match values with v :: _ => Ok v | [] => Err IndexError end)
          | [_] => Some (Ok (VList values))
          | _ => build_rows fuel rest values
          end
      end
  end.
Definition build_array (fuel : nat) (mae : list value) (mal : list Z) : option (res value) := build_rows fuel (rev mal) mae.

(* ---- the object: complex_objects.py:1432-1480 ---- *)
Record array_obj := mkArr { a_array : option value; a_mae : option (list value); a_mal : option (list Z) }.
(* complex_objects.py:1432-1450 *)
Definition new_array (a : option value) : array_obj := mkArr a None None.
(* complex_objects.py:1452-1457: the array is built once; without mae or mal None has no pop *)
Definition get_array (fuel : nat) (o : array_obj) : option (res (value * array_obj)) :=
  match a_array o with
  | Some a => Some (Ok (a, o))
  | None =>
      match a_mal o with
      | None => Some (Err AttributeError)
      | Some mal =>
          match a_mae o with
          | None => Some (Err AttributeError)
          | Some mae => match build_array fuel mae mal with
                        | None => None
                        | Some (Err e) => Some (Err e)
                        | Some (Ok a) => Some (Ok (a, mkArr (Some a) (a_mae o) (a_mal o)))
                        end
          end
      end
  end.
(* complex_objects.py:1463-1468: of the array as it is stored, None cannot be iterated *)
Definition get_mae (o : array_obj) : res (list value) :=
  match a_array o with Some a => Ok (list_entries a) | None => Err TypeError end.
(* complex_objects.py:1474-1477 *)
Definition get_mal (fuel : nat) (o : array_obj) : option (res (list Z * array_obj)) :=
  match get_array fuel o with
  | None => None
  | Some (Err e) => Some (Err e)
  | Some (Ok (a, o)) => Some (do c <- list_count a; Ok (c, o))
  end.
(* complex_objects.py:1470-1472, 1478-1480 *)
Definition set_mae (l : list value) (o : array_obj) : array_obj := mkArr (a_array o) (Some l) (a_mal o).
Definition set_mal (l : list Z) (o : array_obj) : array_obj := mkArr (a_array o) (a_mae o) (Some l).

(* ---- for the serializer: complex_objects.py:1443-1446 ---- *)
Definition array_desc : cdesc := simple [] []
  [("mae", lm "mae" false any_meta ["System.Object[]"; "System.Array"; "System.Object"]);
   ("mal", lm "mal" false (plain "I32") ["System.Object[]"; "System.Array"; "System.Object"])]%string.
Definition with_arrays (c : list N) : option cdesc := if str_eqb c (lit "Array") then Some array_desc else sending c.
(* what the serializer sees of an array: its attributes are taken in this order,
   serializer.py:424-433 *)
Definition array_seen (fuel : nat) (o : array_obj) : option (res hobj) :=
  match get_mae o with
  | Err e => Some (Err e)
  | Ok mae =>
      match get_mal fuel o with
      | None => None
      | Some (Err e) => Some (Err e)
      | Some (Ok (mal, _)) => Some (Ok (HCls (lit "Array") [(lit "mae", VList mae); (lit "mal", VList (map VInt mal)); (lit "_to_string", VNone)]))
      end
  end.
(* what an instance read by the deserializer is, the attributes having been set in
   order, serializer.py:640-659; lengths that are no integers are not modelled *)
Definition array_read (attrs : list (list N * value)) : option array_obj :=
  match dict_get str_eqb (lit "mae") attrs, dict_get str_eqb (lit "mal") attrs with
  | Some (VList mae), Some (VList mal) =>
      match mapM (fun v => match v with VInt z => Ok z | _ => Err TypeError end) mal with
      | Ok mal => Some (set_mal mal (set_mae mae (new_array None)))
      | Err _ => None
      end
  | _, _ => None
  end.
