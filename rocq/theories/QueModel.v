(* Sending a queue or a stack takes the values out of it: serializer.py:473-509. *)
From Verif Require Import Base Lit XmlModel SerModel.

(* values.get(block=False), or values.pop() with the last value first, until there
   is none left: what comes of it, and what is left in the caller's object.  The
   metadata of the entries is one object for all of them. *)
Fixpoint take_all (rec : value -> meta -> sst -> res (option xml * meta * sst)) (m : meta) (vs : list value) (st : sst)
  : res (list xml * meta * sst) * list value :=
  match vs with
  | [] => (Ok ([], m, st), [])
  | v :: vs' =>
      match rec v m st with
      | Err e => (Err e, vs')
      | Ok (x, m1, st1) =>
          let '(r, l) := take_all rec m1 vs' st1 in
          (do '(xs, m2, st2) <- r; Ok (opt_list x ++ xs, m2, st2), l)
      end
  end.
