(* Property theorems C09-C12: strings, binary data and secure strings. *)
From Coq Require Import Lia.
From Verif Require Import Base BaseProofs TextModel TextSpec TextProofs TextProofs2.

(* ------------------------------ C09 ------------------------------ *)

(* The full claim, "deserialize (serialize s) = s for every s", fails for the
   strings described by [has_straddle] only; this is the exact extent. *)
Theorem C09_string_roundtrip_iff : forall s,
  scalars s ->
  (deserialize_string (Some (serialize_string s)) = Ok s <-> ~ has_straddle s).
Proof. exact string_roundtrip_iff. Qed.
Print Assumptions C09_string_roundtrip_iff.

(* Full claim: the same without the hypothesis on straddling.  Missing: the
   strings with U+kk00 U+5F00 U+78xx ..., for which it is false (below). *)
Theorem C09_string_roundtrip_partial : forall s,
  scalars s -> ~ has_straddle s ->
  deserialize_string (Some (serialize_string s)) = Ok s.
Proof. exact string_roundtrip. Qed.
Print Assumptions C09_string_roundtrip_partial.

(* In particular every string without the character U+5F00. *)
Theorem C09_string_roundtrip_common : forall s,
  scalars s -> ~ In 24320%N s ->
  deserialize_string (Some (serialize_string s)) = Ok s.
Proof. exact string_roundtrip_common. Qed.
Print Assumptions C09_string_roundtrip_common.

(* "_x0041_" NUL U+1F600 "_X" "_" *)
Example C09_case :
  let s := [95; 120; 48; 48; 52; 49; 95; 0; 128512; 95; 88; 95]%N in
  scalars s /\ ~ In 24320%N s /\
  serialize_string s =
    [95;120;48;48;53;70;95; 120;48;48;52;49;95; 95;120;48;48;48;48;95;
     95;120;68;56;51;68;95; 95;120;68;69;48;48;95; 95;120;48;48;53;70;95; 88; 95]%N.
Proof.
  split; [|split].
  - repeat (apply Forall_cons; [unfold scalar; lia|]). apply Forall_nil.
  - cbn [In]. intros H. repeat (destruct H as [H|H]; [lia|]). exact H.
  - vm_compute. reflexivity.
Qed.

(* Finding: the escape pattern is searched at odd byte offsets too. *)
Theorem C09_string_roundtrip_refuted : exists s,
  scalars s /\ has_straddle s /\
  deserialize_string (Some (serialize_string s)) = Ok [256; 0]%N /\ s <> [256; 0]%N.
Proof. exact string_roundtrip_refuted. Qed.
Print Assumptions C09_string_roundtrip_refuted.

(* ------------------------------ C10 ------------------------------ *)

Theorem C10_escaped_output : forall s, scalars s -> escaped (serialize_string s).
Proof. exact serialize_escaped. Qed.
Print Assumptions C10_escaped_output.

(* Nothing is escaped without need, and exactly then the text is unchanged. *)
Theorem C10_unchanged_iff : forall s,
  scalars s -> (serialize_string s = s <-> harmless s).
Proof. exact serialize_unchanged_iff. Qed.
Print Assumptions C10_unchanged_iff.

(* No control character, DEL, C1 character or character outside the BMP. *)
Theorem C10_plain_characters : forall s c,
  scalars s -> In c (serialize_string s) -> plain_char c.
Proof. exact serialize_plain. Qed.
Print Assumptions C10_plain_characters.

Example C10_case : serialize_string [10; 95; 120]%N = [95;120;48;48;48;65;95; 95;120;48;48;53;70;95; 120]%N /\
  harmless [97; 95; 98; 233]%N.
Proof.
  split; [vm_compute; reflexivity|].
  repeat (apply h_cons; [unfold plain_char; lia|cbn [starts_with_x]; lia|]). apply h_nil.
Qed.

(* Finding: U+FFFE and U+FFFF are sent as they are although XML 1.0 has no
   such characters; every other character sent is an XML character. *)
Theorem C10_xml_characters : forall s c,
  scalars s -> In c (serialize_string s) -> ~ xml_char c -> c = 65534%N \/ c = 65535%N.
Proof. exact serialize_xml. Qed.
Print Assumptions C10_xml_characters.

Theorem C10_xml_characters_refuted : exists s c,
  scalars s /\ In c (serialize_string s) /\ ~ xml_char c.
Proof. exact serialize_xml_refuted. Qed.
Print Assumptions C10_xml_characters_refuted.

(* ------------------------------ C11 ------------------------------ *)

Theorem C11_base64_roundtrip : forall b, bytes_ok b -> b64decode (b64encode b) = Ok b.
Proof. exact b64_roundtrip. Qed.
Print Assumptions C11_base64_roundtrip.

(* line breaks and other foreign characters in the text change nothing *)
Theorem C11_base64_ignores : forall b t, bytes_ok b -> sprinkled (b64encode b) t -> b64decode t = Ok b.
Proof. exact b64_sprinkled. Qed.
Print Assumptions C11_base64_ignores.
Example C11_ignores_case : sprinkled (b64encode [1; 2; 3; 4]%N) [65; 81; 73; 68; 13; 10; 66; 65; 32; 61; 61]%N.
Proof.
  change (b64encode [1; 2; 3; 4]%N) with [65; 81; 73; 68; 66; 65; 61; 61]%N.
  repeat first [apply SprNil | apply SprKeep | apply SprPut; [reflexivity|discriminate|unfold b64_alphabet; lia|]].
Qed.

Theorem C11_base64_alphabet : forall b, bytes_ok b ->
  exists body pad, b64encode b = body ++ pad /\ Forall b64_alphabet body /\
                   (pad = [] \/ pad = [61%N] \/ pad = [61; 61]%N).
Proof. exact b64_chars. Qed.
Print Assumptions C11_base64_alphabet.

Theorem C11_base64_length : forall b, zlen (b64encode b) = (4 * ((zlen b + 2) / 3))%Z.
Proof. exact b64_length. Qed.
Print Assumptions C11_base64_length.

(* The text is the standard one: each group of four characters carries the 24
   bits of three bytes, most significant first. *)
Theorem C11_base64_value : forall x y z b,
  (x < 256)%N -> (y < 256)%N -> (z < 256)%N ->
  exists c1 c2 c3 c4 v1 v2 v3 v4,
    b64encode (x :: y :: z :: b) = [c1; c2; c3; c4] ++ b64encode b /\
    b64_index c1 v1 /\ b64_index c2 v2 /\ b64_index c3 v3 /\ b64_index c4 v4 /\
    (x * 65536 + y * 256 + z = v1 * 262144 + v2 * 4096 + v3 * 64 + v4)%N.
Proof. exact b64_value_standard. Qed.
Print Assumptions C11_base64_value.

(* "Man" is "TWFu"; "Ma" is "TWE=" *)
Example C11_case : b64encode [77; 97; 110; 77; 97]%N = [84; 87; 70; 117; 84; 87; 69; 61]%N.
Proof. vm_compute; reflexivity. Qed.

(* ------------------------------ C12 ------------------------------ *)

Theorem C12_secure_string_roundtrip : forall c s,
  inverts_on_blocks c -> scalars s ->
  exists t, serialize_secure_string (Some c) s = Ok t /\
            deserialize_secure_string (Some c) (Some t) = Ok (Plain s).
Proof. exact secure_string_roundtrip. Qed.
Print Assumptions C12_secure_string_roundtrip.

Theorem C12_no_key_no_output : forall s, serialize_secure_string None s = Err SerializationError.
Proof. exact secure_string_no_key. Qed.
Print Assumptions C12_no_key_no_output.

Theorem C12_no_key_raw_element : forall t, deserialize_secure_string None t = Ok (RawElement t).
Proof. exact secure_string_raw. Qed.
Print Assumptions C12_no_key_raw_element.

(* What is sent depends on the text only through the cipher: it is the base64
   of the encryption of the padded UTF-16 text, whole blocks only. *)
Theorem C12_only_ciphertext_sent : forall c s t,
  (0 < ci_block c < 256)%N -> serialize_secure_string (Some c) s = Ok t ->
  exists d k, N.of_nat (length d) = (ci_block c * N.of_nat (S k))%N /\
              utf16le_encode s = Ok (firstn (length d - N.to_nat (last d 0%N)) d) /\
              t = b64encode (ci_enc c d).
Proof. exact secure_string_ciphertext. Qed.
Print Assumptions C12_only_ciphertext_sent.

Example C12_case :
  let c := mkCipher 16 (map (fun x => N.lxor x 165)) (map (fun x => N.lxor x 165)) in
  inverts_on_blocks c /\ scalars [112; 228; 128512]%N /\
  exists t, serialize_secure_string (Some c) [112; 228; 128512]%N = Ok t /\ length t = 24.
Proof.
  cbv zeta. split; [|split].
  - exact xor_cipher_inverts.
  - repeat (apply Forall_cons; [unfold scalar; lia|]). apply Forall_nil.
  - eexists. split; vm_compute; reflexivity.
Qed.
