(* Property theorems C16 and C17. *)
From Verif Require Import Base BaseProofs Lit NumModel ReModel EncModel EncSpec EncProofs EncProofs2 EncProofs3.

(* C16: how a message is wrapped: the cut, one context call per piece, the text *)
Theorem C16_wrapped_text : forall (W : Type) (wrap : W -> list N -> res (list N * list N * Z * W))
    (proto m ct body : list N) (w w' : W),
  wrap_message wrap proto w m = Ok (ct, body, w') ->
  exists pieces ps, cut_message proto m pieces /\ sealed wrap w pieces ps w' /\
    Forall (fun p => zlen (p_header p) < 2147483648)%Z ps /\
    (Forall (fun p => 0 <= p_length p)%Z ps -> body_text proto ps body) /\
    (ct = lit "multipart/x-multi-encrypted" /\ (proto = credssp_protocol /\ (16384 < zlen m)%Z) \/
     ct = lit "multipart/encrypted" /\ ~ (proto = credssp_protocol /\ (16384 < zlen m)%Z)).
Proof. exact (fun W wrap proto m ct body w w' => wrap_message_run wrap proto w m ct body w'). Qed.
Print Assumptions C16_wrapped_text.

(* wrapping succeeds whenever the context does *)
Theorem C16_wrap_succeeds : forall (W : Type) (wrap : W -> list N -> res (list N * list N * Z * W))
    (proto : list N) (w : W) (m : list N),
  (forall w0 m0, exists h d pad w', wrap w0 m0 = Ok (h, d, pad, w') /\ (zlen h < 2147483648)%Z) ->
  exists ct body w', wrap_message wrap proto w m = Ok (ct, body, w').
Proof. exact @wrap_total. Qed.
Print Assumptions C16_wrap_succeeds.

(* unwrapping with the matching context gives the message back *)
Theorem C16_roundtrip : forall (W U : Type) (wrap : W -> list N -> res (list N * list N * Z * W))
    (unwrap : U -> list N -> list N -> res (list N * U)) (R : W -> U -> Prop)
    (proto : list N) (w : W) (u : U) (m ct body : list N) (w' : W),
  In proto protocols -> matching wrap unwrap R -> R w u ->
  (forall w m h d pad w1, wrap w m = Ok (h, d, pad, w1) -> pad = 0%Z) ->
  wrap_message wrap proto w m = Ok (ct, body, w') ->
  exists pieces ps, cut_message proto m pieces /\ sealed wrap w pieces ps w' /\
    (Forall (fun p => opaque (part_binary p)) ps ->
     exists u', unwrap_message unwrap (lit "Encrypted Boundary") u body = Ok (m, u') /\ R w' u').
Proof. exact @unwrap_wrapped_exact. Qed.
Print Assumptions C16_roundtrip.

(* with a context that pads, every piece comes back followed by its padding *)
Theorem C16_roundtrip_padded : forall (W U : Type) (wrap : W -> list N -> res (list N * list N * Z * W))
    (unwrap : U -> list N -> list N -> res (list N * U)) (R : W -> U -> Prop)
    (proto : list N) (w : W) (u : U) (m ct body : list N) (w' : W),
  In proto protocols -> matching wrap unwrap R -> R w u ->
  wrap_message wrap proto w m = Ok (ct, body, w') ->
  exists pieces ps, cut_message proto m pieces /\ sealed wrap w pieces ps w' /\ body_text proto ps body /\
    (Forall (fun p => opaque (part_binary p)) ps ->
     exists r u', unwrap_message unwrap (lit "Encrypted Boundary") u body = Ok (r, u') /\ padded pieces r /\ R w' u').
Proof. exact @unwrap_wrapped. Qed.
Print Assumptions C16_roundtrip_padded.

(* C17: any body at all: data comes back only if every announced length is that
   of the decrypted part; it is then the concatenation of the parts *)
Theorem C17_lengths_checked : forall (U : Type) (unwrap : U -> list N -> list N -> res (list N * U))
    (boundary : list N) (u : U) (body r : list N) (u' : U),
  unwrap_message unwrap boundary u body = Ok (r, u') ->
  exists pieces heads payloads ps, cut_at (delimiter boundary) body pieces /\
    alternate (filter (fun p => match p with [] => false | _ => true end) pieces) heads payloads /\
    Forall2 (fun h p => announces bytes_int h (p_length p)) heads ps /\ opened unwrap u ps r u'.
Proof. exact @unwrap_any. Qed.
Print Assumptions C17_lengths_checked.

(* a body made of well formed parts is accepted exactly when the lengths agree *)
Theorem C17_wellformed_iff : forall (U : Type) (unwrap : U -> list N -> list N -> res (list N * U))
    (proto : list N) (ps : list part) (body : list N) (u : U) (r : list N) (u' : U),
  In proto protocols -> body_text proto ps body -> ps <> [] ->
  Forall (fun p => opaque (part_binary p)) ps -> Forall (fun p => zlen (p_header p) < 2147483648)%Z ps ->
  (unwrap_message unwrap (lit "Encrypted Boundary") u body = Ok (r, u') <-> opened unwrap u ps r u').
Proof. exact @unwrap_wellformed. Qed.
Print Assumptions C17_wellformed_iff.

(* and with a context that decrypts everything the error is WinRMError *)
Theorem C17_mismatch_raises : forall (U : Type) (unwrap : U -> list N -> list N -> res (list N * U))
    (proto : list N) (ps : list part) (body : list N) (u : U),
  In proto protocols -> body_text proto ps body -> ps <> [] ->
  Forall (fun p => opaque (part_binary p)) ps -> Forall (fun p => zlen (p_header p) < 2147483648)%Z ps ->
  (forall u0 h d, exists plain u1, unwrap u0 h d = Ok (plain, u1)) ->
  (forall r u', ~ opened unwrap u ps r u') ->
  unwrap_message unwrap (lit "Encrypted Boundary") u body = Err WinRMError.
Proof. exact @unwrap_mismatch. Qed.
Print Assumptions C17_mismatch_raises.

(* ---- a concrete context: two bytes per plain byte, state = message counter ---- *)
Definition toy_wrap (w : nat) (m : list N) : res (list N * list N * Z * nat) :=
  Ok ([1; 2; 3]%N, flat_map (fun b => [200 + b / 16; 200 + b mod 16]%N) m, 0%Z, S w).
Fixpoint toy_decode (d : list N) : list N :=
  match d with a :: b :: d' => ((a - 200) * 16 + (b - 200))%N :: toy_decode d' | _ => [] end.
Definition toy_unwrap (u : nat) (h d : list N) : res (list N * nat) := Ok (toy_decode d, S u).

Example C16_case_matching : matching toy_wrap toy_unwrap eq.
Proof.
  intros w u m h d pad w' <- H. unfold toy_wrap in H.
  apply Ok_inj in H. apply pair_inj in H. destruct H as [H <-]. apply pair_inj in H. destruct H as [H <-].
  apply pair_inj in H. destruct H as [_ <-].
  exists [], (S w). split; [reflexivity|]. split; [|reflexivity]. unfold toy_unwrap. f_equal. f_equal.
  rewrite app_nil_r. induction m as [|b m IH]; [reflexivity|]. cbn [flat_map app toy_decode].
  rewrite IH. f_equal. rewrite N.mul_comm, !(N.add_comm 200), !N.add_sub. symmetry. now apply N.div_mod.
Qed.

Example C16_case_opaque : opaque (part_binary {| p_length := 3; p_header := [1; 2; 3]%N;
                                                 p_data := flat_map (fun b => [200 + b / 16; 200 + b mod 16]%N) (lit "abc") |}).
Proof.
  assert (D : forall x (s : list N), In 45%N x -> existsb (N.eqb 45) s = false -> ~ contains x s).
  { intros x s Hx Hs (a & b & ->). rewrite !existsb_app in Hs.
    apply Bool.orb_false_elim in Hs. destruct Hs as [_ Hs]. apply Bool.orb_false_elim in Hs. destruct Hs as [Hs _].
    assert (T : existsb (N.eqb 45) x = true) by (apply existsb_exists; exists 45%N; split; [exact Hx|reflexivity]).
    congruence. }
  split.
  - intros bl _. apply D; [now left|vm_compute; reflexivity].
  - apply D; [vm_compute; tauto|vm_compute; reflexivity].
Qed.

(* a short SPNEGO message and a CredSSP message of 40000 bytes, in three parts *)
Example C16_case_runs :
  (match wrap_message toy_wrap SPNEGO 0 (lit "abc") with
   | Ok (_, body, _) => unwrap_message toy_unwrap (lit "Encrypted Boundary") 0 body
   | Err e => Err e end) = Ok (lit "abc", 1%nat) /\
  (match wrap_message toy_wrap CREDSSP 0 (repeat 65%N (N.to_nat 40000)) with
   | Ok (_, body, w) =>
       match unwrap_message toy_unwrap (lit "Encrypted Boundary") 0 body with
       | Ok (r, u) => Some (zlen r, u, w, str_eqb r (repeat 65%N (N.to_nat 40000)))
       | Err _ => None
       end
   | Err _ => None end) = Some (40000%Z, 3%nat, 3%nat, true).
Proof. split; vm_compute; reflexivity. Qed.

(* a part whose declared length is wrong *)
Example C17_case :
  unwrap_message toy_unwrap (lit "Encrypted Boundary") 0
    (lit "--Encrypted Boundary" ++ newline ++ lit "	Content-Type: " ++ SPNEGO ++ newline ++
     lit "	OriginalContent: type=application/soap+xml;charset=UTF-8;Length=4" ++ newline ++
     lit "--Encrypted Boundary" ++ newline ++ lit "	Content-Type: application/octet-stream" ++ newline ++
     part_binary {| p_length := 4; p_header := [1; 2; 3]%N;
                    p_data := flat_map (fun b => [200 + b / 16; 200 + b mod 16]%N) (lit "abc") |} ++
     lit "--Encrypted Boundary--" ++ newline) = Err WinRMError.
Proof. vm_compute. reflexivity. Qed.
