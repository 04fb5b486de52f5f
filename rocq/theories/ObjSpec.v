(* Specification vocabulary for C37, C38, C42, C43, C44. *)
From Verif Require Import Base Lit ObjModel UtilSpec.

(* ---- arrays ---- *)
(* a rectangular array with the given dimensions, outermost first *)
Fixpoint shaped {A} (ds : list nat) (a : arr A) : Prop :=
  match ds, a with
  | [], Leaf _ => True
  | d :: ds', Node l => length l = d /\ Forall (shaped ds') l
  | _, _ => False
  end.

Fixpoint product (ds : list nat) : nat := match ds with [] => 1%nat | d :: ds' => (d * product ds')%nat end.

(* the element at an index vector *)
Fixpoint at_index {A} (a : arr A) (idx : list nat) : option A :=
  match idx, a with
  | [], Leaf x => Some x
  | i :: idx', Node l => match nth_error l i with Some b => at_index b idx' | None => None end
  | _, _ => None
  end.

(* row-major position of an index vector *)
Fixpoint row_major (ds idx : list nat) : nat :=
  match ds, idx with
  | _ :: ds', i :: idx' => (i * product ds' + row_major ds' idx')%nat
  | _, _ => 0%nat
  end.

Definition in_bounds (ds idx : list nat) : Prop := Forall2 (fun d i => (i < d)%nat) ds idx.

(* ---- statements ---- *)
(* a command without its end-of-statement mark *)
Definition unmarked {V} (c : command V) : command V := set_end false c.

(* [ss] is [cs] cut after every marked command, the last command counting as
   marked *)
Definition cut_at_marks {V} (cs : list (command V)) (ss : list (list (command V))) : Prop :=
  map unmarked (concat ss) = map unmarked cs /\
  Forall (fun s => s <> []) ss /\
  (forall i c, nth_error cs i = Some c -> S i <> length cs ->
     (c_end c = true <-> exists k, (k < length ss)%nat /\ length (concat (firstn (S k) ss)) = S i)).

Definition same_commands {V} (a b : list (list (command V))) : Prop :=
  map (map unmarked) a = map (map unmarked) b.

(* ---- flags ---- *)
(* names of the set bits, lowest bit first *)
Fixpoint named_bits (names : list (list N)) (bit : nat) (v : Z) : list (list N) :=
  match names with
  | [] => []
  | n :: names' =>
      (if Z.testbit v (Z.of_nat bit) then [n] else []) ++ named_bits names' (S bit) v
  end.
Fixpoint comma_separated (l : list (list N)) : list N :=
  match l with
  | [] => []
  | [x] => x
  | x :: l' => x ++ lit ", " ++ comma_separated l'
  end.
Definition stream_option_names : list (list N) :=
  [lit "AddInvocationInfoToErrorRecord"; lit "AddInvocationInfoToWarningRecord";
   lit "AddInvocationInfoToDebugRecord"; lit "AddInvocationInfoToVerboseRecord"].
Definition command_type_names : list (list N) :=
  [lit "Alias"; lit "Function"; lit "Filter"; lit "Cmdlet"; lit "ExternalScript"; lit "Application";
   lit "Script"; lit "Workflow"; lit "Configuration"].

(* ---- merging ---- *)
(* the stream a method sets, the property it is sent as and the protocol
   version it needs *)
Inductive stream : Type := SWarning | SVerbose | SDebug | SInformation.
Definition merge_stream {V} (s : stream) : list N -> bop V :=
  match s with
  | SWarning => merge_warning
  | SVerbose => merge_verbose
  | SDebug => merge_debug
  | SInformation => merge_information
  end.
Definition stream_value {V} (s : stream) (c : command V) : prt :=
  match s with
  | SWarning => c_warning c
  | SVerbose => c_verbose c
  | SDebug => c_debug c
  | SInformation => c_info c
  end.
Definition stream_minimum (s : stream) : list (list N) :=
  match s with
  | SInformation => [lit "2"; lit "3"]
  | _ => [lit "2"; lit "2"]
  end.

(* everything of a command other than the value of stream [s] *)
Definition same_but_stream {V} (s : stream) (c d : command V) : Prop :=
  c_cmd c = c_cmd d /\ c_script c = c_script d /\ c_scope c = c_scope d /\ c_args c = c_args d /\
  c_end c = c_end d /\ c_22 c = c_22 d /\ c_23 c = c_23 d /\
  c_my c = c_my d /\ c_to c = c_to d /\ c_prev c = c_prev d /\ c_error c = c_error d /\
  (forall s', s' <> s -> stream_value s' c = stream_value s' d).

(* the number sent for a target name *)
Definition target_value (to : list N) (z : Z) : Prop :=
  (to = lit "none" /\ z = 0%Z) \/ (to = lit "output" /\ z = 1%Z) \/ (to = lit "null" /\ z = 8%Z).

(* no merging at all for a stream: number 0, text None *)
Definition is_default (p : prt) : Prop := p_value p = 0%Z /\ prt_text p = Ok (lit "None").

(* ---- building a pipeline ---- *)
Fixpoint perform {V} (ops : list (bop V)) (b : builder V) : builder V * outcome :=
  match ops with
  | [] => (b, Done)
  | f :: ops' => let (b1, o) := f b in
                 match o with Done => perform ops' b1 | Raised e => (b1, Raised e) end
  end.
(* the calls that add the commands of one statement and close it *)
Definition statement_calls {V} (g : list (command V)) : list (bop V) := map add_command g ++ [add_statement].
