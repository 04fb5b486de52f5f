(* C10: what is written is read as what it was. *)
From Coq Require Import Lia ZifyBool ZifyNat ZifyN.
From Verif Require Import Base BaseProofs TextModel TextSpec TextProofs TextProofs2 PeerSpec.
Ltac Zify.zify_post_hook ::= Z.div_mod_to_equations.

Lemma hex_value_digit v : (v < 16)%N -> hex_value (hex_digit v) = Some v.
Proof.
  intros H. assert (E : In v (map N.of_nat (seq 0 16))) by (apply in_map_iff; exists (N.to_nat v); split; [lia|apply in_seq; lia]).
  vm_compute in E. repeat (destruct E as [<-|E]; [reflexivity|]). destruct E.
Qed.
Lemma code_units_unit u t : unit_ok u -> code_units (escape_unit u ++ t) = u :: code_units t.
Proof.
  intros H. unfold unit_ok in H. rewrite escape_unit_eq. cbn [app code_units]. change (95 =? 95)%N with true. change (120 =? 120)%N with true. cbn [andb orb].
  unfold unit_value. rewrite !hex_value_digit by lia. f_equal. lia.
Qed.
Lemma code_units_units us : forall t, Forall unit_ok us -> code_units (flat_map escape_unit us ++ t) = us ++ code_units t.
Proof.
  induction us as [|u us IH]; intros t F; [reflexivity|]. cbn [flat_map app]. rewrite <- app_assoc, code_units_unit by exact (Forall_inv F). rewrite IH by exact (Forall_inv_tail F). reflexivity.
Qed.
Lemma code_units_plain c t : (c = 95%N -> head_x t = false) -> code_units (c :: t) = c :: code_units t.
Proof.
  intros H. destruct t as [|x [|h1 [|h2 [|h3 [|h4 [|e r]]]]]]; try reflexivity. cbn [code_units].
  destruct (N.eqb c 95 && (N.eqb x 120 || N.eqb x 88) && N.eqb e 95)%bool eqn:E; [|reflexivity].
  apply andb_prop in E. destruct E as (E & _). apply andb_prop in E. destruct E as (E & Ex). apply N.eqb_eq in E. specialize (H E). cbn [head_x] in H. unfold is_x in H. rewrite H in Ex. discriminate Ex.
Qed.
Lemma esc_code_units s : scalars s -> code_units (esc s) = flat_map units_of_char s.
Proof.
  induction 1 as [|c s Hc Hs IH]; [reflexivity|]. cbn [esc flat_map]. destruct (esc1_cases c s Hc) as [(E & U & P & X)|(E & Nd)]; rewrite E.
  - cbn [app]. rewrite U. cbn [app]. rewrite code_units_plain; [rewrite IH; reflexivity|]. intros H. rewrite (esc_starts_x s Hs). exact (X H).
  - rewrite code_units_units by (now apply units_of_char_ok). rewrite IH. reflexivity.
Qed.
Lemma characters_units s : scalars s -> characters (flat_map units_of_char s) = s.
Proof.
  induction 1 as [|c s Hc Hs IH]; [reflexivity|]. cbn [flat_map]. unfold units_of_char at 1. unfold scalar in Hc. destruct (N.ltb c 65536) eqn:L.
  - cbn [app characters]. destruct (flat_map units_of_char s) as [|v r] eqn:E; [destruct s as [|d s]; [reflexivity|]; cbn [flat_map] in E; unfold units_of_char in E; destruct (N.ltb d 65536); discriminate E|].
    replace (high c) with false by (unfold high; lia). cbn [andb]. rewrite IH. reflexivity.
  - cbn [app characters]. replace (high (55296 + (c - 65536) / 1024)%N) with true by (unfold high; lia). replace (low (56320 + (c - 65536) mod 1024)%N) with true by (unfold low; lia). cbn [andb]. rewrite IH. f_equal. lia.
Qed.
Theorem peer_roundtrip s : scalars s -> peer_reads (serialize_string s) = s.
Proof. intros H. unfold peer_reads. rewrite serialize_string_esc, esc_code_units by exact H. exact (characters_units s H). Qed.
