(* C10: what the library writes for a string, a peer that follows the protocol
   reads as that string, without exception: the strings of C09_string_roundtrip_refuted
   are misread by the library alone. *)
From Verif Require Import Base TextModel TextSpec PeerSpec PeerProofs.
From Verif Require TextProofs2.
From Coq Require Import Lia.

Theorem C10_peer_reads : forall s, scalars s -> peer_reads (serialize_string s) = s.
Proof. exact peer_roundtrip. Qed.
Print Assumptions C10_peer_reads.

(* "_x0041_", NUL, U+1F600 and U+100 U+5F00 U+7830 U+3000 as in C09 *)
Example C10_peer_case : let s := [95; 120; 48; 48; 52; 49; 95; 0; 128512; 256; 24320; 30768; 12288]%N in scalars s /\ serialize_string s <> s.
Proof.
  split; [|vm_compute; discriminate]. repeat (apply Forall_cons; [unfold scalar; lia|]). apply Forall_nil.
Qed.
