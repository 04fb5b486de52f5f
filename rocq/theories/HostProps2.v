(* C51, further: what single methods of the default host answer and change. *)
From Verif Require Import Base Lit ShellModel HostModel HostSpec2 HostProofs2.

(* A call that asks for a setting is answered with it, None being no answer, and
   changes nothing. *)
Theorem C51_gets version shown : forall mi f pl st, In (mi, f) asked_for ->
  run_method (default_host version shown) (Some mi) (Ok []) pl st = (Ret (match f st with PNone => None | _ => Some (f st) end), st).
Proof. exact (tells version shown). Qed.
Print Assumptions C51_gets.
Theorem C51_version version shown : forall v pl st, version (hs_version st) = Ok v ->
  run_method (default_host version shown) (Some 2%Z) (Ok []) pl st = (Ret (match v with PNone => None | _ => Some v end), st).
Proof. exact (version_told version shown). Qed.
Print Assumptions C51_version.

(* SetShouldExit keeps the exit code. *)
Theorem C51_exit version shown : forall v pl st, exists st',
  run_method (default_host version shown) (Some 6%Z) (Ok [v]) pl st = (Ret None, st') /\ hs_rc st' = v.
Proof. exact (exit_kept version shown). Qed.
Print Assumptions C51_exit.

(* No call, whatever its arguments, changes what it is not for. *)
Theorem C51_frame version shown : forall mi args pl st r st', (1 <= mi <= 51)%Z ->
  run_method (default_host version shown) (Some mi) (Ok args) pl st = (r, st') ->
  (forall g f, In (g, f) asked_for -> ~ In (mi, g) changed_by -> f st' = f st) /\
  (mi <> 6%Z -> hs_rc st' = hs_rc st) /\ (~ In mi to_stdout -> hs_stdout st' = hs_stdout st) /\ (~ In mi to_stderr -> hs_stderr st' = hs_stderr st) /\
  hs_version st' = hs_version st.
Proof. exact (run_leaves version shown). Qed.
Print Assumptions C51_frame.

(* What needs the user is left to subclasses; notifications and changes of the
   screen's contents are taken and have no effect. *)
Theorem C51_unimplemented version shown : forall mi n args pl st, In (mi, n) for_the_user -> length args = n ->
  run_method (default_host version shown) (Some mi) (Ok args) pl st = (Raise (XExn NotImplementedError), st).
Proof. exact (unanswered version shown). Qed.
Print Assumptions C51_unimplemented.
Theorem C51_ignored version shown : forall mi n args pl st, In (mi, n) without_effect -> length args = n ->
  run_method (default_host version shown) (Some mi) (Ok args) pl st = (Ret None, st).
Proof. exact (ignored version shown). Qed.
Print Assumptions C51_ignored.

(* A title is set and asked for; the exit code is kept; the largest window is not
   the largest that could be; prompting is not there. *)
Example C51_calls_case :
  let st := mkHState (PStr (lit "h")) (PStr (lit "1.0")) PNone PNone PNone PNone [] [] PNone PNone PNone PNone PNone PNone PNone PNone (PSize (PInt 9) (PInt 9)) (PSize (PInt 4) (PInt 5)) PNone in
  fst (run_calls (fun v => Ok v) (fun _ => Err TypeError) [(42, [PStr (lit "t")]); (41, []); (6, [PInt 3]); (43, []); (44, []); (2, []); (26, [PNone; PNone; PNone; PNone]); (51, [PNone; PNone; PNone; PNone]); (27, [])]%Z st) =
    [Ret None; Ret (Some (PStr (lit "t"))); Ret None; Ret (Some (PSize (PInt 4) (PInt 5))); Ret (Some (PSize (PInt 9) (PInt 9))); Ret (Some (PStr (lit "1.0")));
     Raise (XExn NotImplementedError); Ret None; Ret None] /\
  hs_rc (snd (run_calls (fun v => Ok v) (fun _ => Err TypeError) [(42, [PStr (lit "t")]); (6, [PInt 3]); (26, [PNone; PNone; PNone; PNone])]%Z st)) = PInt 3.
Proof. vm_compute. split; reflexivity. Qed.
