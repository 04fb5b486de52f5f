(* Property theorems C27 and C28. *)
From Verif Require Import Base Lit NumModel UtilModel UtilSpec UtilProofs UtilProofs2.

(* C27: the comparison is the numeric lexicographic one, whatever the lengths *)
Theorem C27_version_numeric : forall v r : list (list N), version_parts v -> version_parts r ->
  (version_equal_or_newer (dotted v) (dotted r) = Ok true <-> ~ older v r) /\
  (version_equal_or_newer (dotted v) (dotted r) = Ok false <-> older v r).
Proof. exact version_numeric. Qed.
Print Assumptions C27_version_numeric.

Theorem C27_version_reflexive : forall v : list (list N), version_parts v ->
  version_equal_or_newer (dotted v) (dotted v) = Ok true.
Proof. exact version_reflexive. Qed.
Print Assumptions C27_version_reflexive.

Theorem C27_version_transitive : forall a b c : list (list N),
  version_parts a -> version_parts b -> version_parts c ->
  version_equal_or_newer (dotted a) (dotted b) = Ok true ->
  version_equal_or_newer (dotted b) (dotted c) = Ok true ->
  version_equal_or_newer (dotted a) (dotted c) = Ok true.
Proof. exact version_transitive. Qed.
Print Assumptions C27_version_transitive.

Theorem C27_version_total : forall a b : list (list N), version_parts a -> version_parts b ->
  version_equal_or_newer (dotted a) (dotted b) = Ok true \/
  version_equal_or_newer (dotted b) (dotted a) = Ok true.
Proof. exact version_total. Qed.
Print Assumptions C27_version_total.

(* missing components count as zero, in both directions *)
Theorem C27_version_padding : forall (v r : list (list N)) (k : nat),
  version_parts v -> version_parts r ->
  version_equal_or_newer (dotted (v ++ repeat (lit "0") k)) (dotted r) =
    version_equal_or_newer (dotted v) (dotted r) /\
  version_equal_or_newer (dotted r) (dotted (v ++ repeat (lit "0") k)) =
    version_equal_or_newer (dotted r) (dotted v).
Proof. exact version_padding. Qed.
Print Assumptions C27_version_padding.

(* the empty text (the protocol version before a pool is opened) is no version *)
Theorem C27_version_empty : forall r : list (list N), version_parts r ->
  version_equal_or_newer [] (dotted r) = Err ValueError.
Proof. exact version_empty_error. Qed.
Print Assumptions C27_version_empty.

Example C27_case :
  version_parts [lit "2"; lit "10"] /\ version_parts [lit "2"; lit "9"] /\
  version_equal_or_newer (lit "2.10") (lit "2.9") = Ok true /\
  version_equal_or_newer (lit "2.9") (lit "2.10") = Ok false /\
  version_equal_or_newer (lit "2.2") (lit "2.2.0") = Ok true /\
  older [lit "2"; lit "9"] [lit "2"; lit "10"].
Proof.
  assert (D : forall s, forallb (fun c => N.leb 48 c && N.leb c 57)%bool s = true -> s <> [] -> digit_string s).
  { intros s H Hn. split; [exact Hn|]. apply Forall_forall. intros c Hc. rewrite forallb_forall in H.
    specialize (H c Hc). apply andb_prop in H. destruct H as [H1 H2]. split; apply N.leb_le; assumption. }
  split; [split; [discriminate|]; repeat (apply Forall_cons; [apply D; [reflexivity|discriminate]|]); apply Forall_nil|].
  split; [split; [discriminate|]; repeat (apply Forall_cons; [apply D; [reflexivity|discriminate]|]); apply Forall_nil|].
  split; [vm_compute; reflexivity|]. split; [vm_compute; reflexivity|]. split; [vm_compute; reflexivity|].
  exists 1%nat. split; [|reflexivity]. intros [|j] H; [reflexivity|]. exfalso. apply Nat.succ_lt_mono in H. inversion H.
Qed.

(* C28: a script made of code lines, comment lines, blank lines and block
   comments of at least two lines is reduced to its stripped code lines *)
Theorem C28_script_code_lines : forall ps : list piece, Forall piece_ok ps ->
  get_pwsh_script (text_of (concat (map piece_lines ps))) = lines_joined (concat (map kept ps)).
Proof. exact script_load. Qed.
Print Assumptions C28_script_code_lines.

(* for every text at all: what is kept is a selection, in order, of the
   trimmed lines; none of them is blank or a comment *)
Theorem C28_script_only_lines : forall lines : list (list N), Forall one_line lines ->
  exists kept_lines : list (list N),
    get_pwsh_script (text_of lines) = lines_joined kept_lines /\
    Forall (fun l => l <> [] /\ trimmed l /\ ~ prefix_of (lit "#") l /\ ~ prefix_of (lit "<#") l) kept_lines /\
    exists chosen, selection chosen lines /\
      Forall2 (fun l k => exists a b, l = a ++ k ++ b /\ blanks a /\ blanks b) chosen kept_lines.
Proof. exact script_only_lines. Qed.
Print Assumptions C28_script_only_lines.

(* loading an already loaded script changes nothing *)
Theorem C28_script_idempotent : forall ps : list piece, Forall piece_ok ps ->
  get_pwsh_script (get_pwsh_script (text_of (concat (map piece_lines ps)))) =
  get_pwsh_script (text_of (concat (map piece_lines ps))).
Proof. exact script_idempotent. Qed.
Print Assumptions C28_script_idempotent.

(* finding: a block comment closed on the line that opens it swallows the code
   lines that follow it *)
Theorem C28_one_line_block_refuted : exists (comment code : list N),
  one_line comment /\ one_line code /\ prefix_of (lit "<#") comment /\ suffix_of (lit "#>") comment /\
  code <> [] /\ trimmed code /\ ~ prefix_of (lit "#") code /\ ~ prefix_of (lit "<#") code /\
  get_pwsh_script (text_of [comment; code]) = [].
Proof. exact script_one_line_block. Qed.
Print Assumptions C28_one_line_block_refuted.

Example C28_case :
  let ps := [Block ([], lit " about") [lit "more"] ([], []); Empty (lit "  ");
             Code (lit "  ") (lit "Write-Output 1 # x") (lit " "); Comment (lit " ") (lit " note") [];
             Code [] (lit "exit 0") []] in
  Forall piece_ok ps /\
  get_pwsh_script (text_of (concat (map piece_lines ps))) =
    lit "Write-Output 1 # x" ++ [10%N] ++ lit "exit 0".
Proof. exact script_case. Qed.
