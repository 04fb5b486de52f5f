(* The messages of a server: their bytes, what they are taken for, and what a
   client has that heard them.  Apart from Message.unpack, the parser and the
   serializer. *)
From Verif Require Import Base Lit NumModel TextModel Utf8Model MsgModel MsgSpec XmlModel SerModel WireModel WireSpec SendClasses RdSpec.
From Verif Require XgSpec.
Local Open Scope list_scope.

(* ---- bytes: [MS-PSRP] 2.2.1: destination, type, the ids of pool and pipeline,
   and the document in UTF-8, with or without a byte order mark, in any spelling ---- *)
Definition written (e : Z * item) (b : bytes) : Prop :=
  exists dest ty pool pipe mark txt body, b = dest ++ ty ++ stored_guid pool ++ stored_guid pipe ++ mark ++ body /\
    length dest = 4 /\ length ty = 4 /\ Z.of_N (little_endian ty) = fst e /\ is_guid pool /\ is_guid pipe /\
    (mark = [] \/ mark = [239; 187; 191]%N) /\ utf8_encode txt = Ok body /\ no_bom txt /\ XgSpec.says txt (write None (snd e)).

(* ---- what the object of a message is taken for: output is anything, the others
   are of the class of their type ---- *)
Definition kind_of (ty : Z) : option reading :=
  if Z.eqb ty PIPELINE_OUTPUT then Some Open
  else match dict_get Z.eqb ty protocol with Some c => Some (Instance c) | None => None end.

Section Heard.
  Context (ci : option cipher) (float_of : list N -> res (list N)).
  Definition fit (e : Z * item) : Prop :=
    fst e <> PIPELINE_INPUT /\
    (fst e = PUBLIC_KEY_REQUEST \/
     exists r s', kind_of (fst e) = Some r /\ readable ci float_of sending r ([], []) (snd e) s' /\ (fst e = PIPELINE_OUTPUT \/ tag_of (snd e) = lit "Obj")).
  (* new instances only: there were none *)
  Definition had (r : reading) (t : item) (g : graph) : Prop := exists env, holds ci float_of sending 0 (fst g) env r t (snd g).
  Definition had_message (e : Z * item) (g : graph) : Prop := exists r, kind_of (fst e) = Some r /\ had r (snd e) g.
End Heard.

(* ---- what is said of a pipeline ---- *)
Definition of_type (ty : Z) (l : list (Z * item)) : list (Z * item) := filter (fun e => Z.eqb (fst e) ty) l.
(* the state a state message says *)
Definition says_state (t : item) (z : Z) : Prop :=
  exists id n text sets ad ex, t = Object id n text sets ad ex /\ In (lit "PipelineState", Scalar (lit "I32") (Some (py_str z))) ex.
(* the errors: error records, and what a state message says the pipeline failed with *)
Definition failure (t : item) : list (reading * item) :=
  match t with
  | Object _ _ _ _ _ ex =>
      match find (fun p => (str_eqb (fst p) (lit "ExceptionAsErrorRecord") && str_eqb (tag_of (snd p)) (lit "Obj"))%bool) ex with
      | Some p => [(Open, snd p)]
      | None => []
      end
  | _ => []
  end.
Definition error_in (e : Z * item) : list (reading * item) :=
  if Z.eqb (fst e) ERROR_RECORD then [(Instance (lit "ErrorRecordMessage"), snd e)]
  else if Z.eqb (fst e) PIPELINE_STATE then failure (snd e) else [].

(* ---- what a stream has more than before: the objects of the messages of one type ---- *)
Section Gained.
  Context (ci : option cipher) (float_of : list N -> res (list N)).
  Definition gained (ty : Z) (items : list (Z * item)) (before after : list graph) : Prop :=
    exists new, after = before ++ new /\ Forall2 (had_message ci float_of) (of_type ty items) new.
  Definition gained_errors (items : list (Z * item)) (before after : list graph) : Prop :=
    exists new, after = before ++ new /\ Forall2 (fun p => had ci float_of (fst p) (snd p)) (flat_map error_in items) new.
End Gained.
