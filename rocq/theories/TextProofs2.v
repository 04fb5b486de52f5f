(* Proofs about string escaping. *)
From Coq Require Import Lia ZifyBool ZifyNat ZifyN.
From Verif Require Import Base BaseProofs TextModel TextSpec TextProofs.
Ltac Zify.zify_post_hook ::= Z.div_mod_to_equations.

Definition head_x (s : list N) : bool := match s with d :: _ => is_x d | [] => false end.

(* the two substitutions as one pass *)
Definition esc1 (c : N) (s : list N) : list N :=
  if (N.eqb c 95 && head_x s)%bool then esc_underscore
  else if needs_escape c then escape_char c else [c].
Fixpoint esc (s : list N) : list N :=
  match s with [] => [] | c :: s' => esc1 c s' ++ esc s' end.

Lemma is_x_plain d : is_x d = true -> needs_escape d = false /\ N.eqb d 95 = false.
Proof. unfold is_x, needs_escape. lia. Qed.

Lemma sub_special_app a b : sub_special (a ++ b) = sub_special a ++ sub_special b.
Proof. unfold sub_special. apply flat_map_app. Qed.

Lemma serialize_string_esc s : serialize_string s = esc s.
Proof.
  unfold serialize_string.
  assert (G : forall n s, length s <= n -> sub_special (sub_underscore s) = esc s).
  { induction n as [|n IH]; intros [|c s'] Hl; try reflexivity; [simpl in Hl; lia|].
    cbn [length] in Hl. cbn [sub_underscore esc]. unfold esc1.
    destruct (N.eqb_spec c 95) as [->|Hc].
    - destruct s' as [|d s''].
      + reflexivity.
      + cbn [head_x andb]. destruct (is_x d) eqn:Hx.
        * destruct (is_x_plain d Hx) as [H1 H2].
          rewrite sub_special_app. change (sub_special esc_underscore) with esc_underscore.
          f_equal. change (d :: sub_underscore s'') with ([d] ++ sub_underscore s'').
          rewrite sub_special_app. cbn [esc]. unfold esc1. rewrite H2. cbn [andb]. rewrite H1.
          unfold sub_special at 1. cbn [flat_map]. rewrite H1. cbn [app].
          f_equal. apply IH. cbn [length] in Hl. lia.
        * change (95%N :: sub_underscore (d :: s'')) with ([95%N] ++ sub_underscore (d :: s'')).
          rewrite sub_special_app. rewrite IH by (cbn [length] in *; lia). reflexivity.
    - cbn [andb]. change (c :: sub_underscore s') with ([c] ++ sub_underscore s').
      rewrite sub_special_app. rewrite IH by lia. f_equal.
      unfold sub_special. cbn [flat_map]. now rewrite app_nil_r. }
  now apply (G (length s)).
Qed.

(* ---- shape of one escaped character ---- *)
Lemma escape_unit_eq u :
  escape_unit u = [95; 120; hex_digit (u / 256 / 16); hex_digit (u / 256 mod 16);
                   hex_digit (u mod 256 / 16); hex_digit (u mod 256 mod 16); 95]%N.
Proof. reflexivity. Qed.

Lemma esc_underscore_eq : esc_underscore = escape_unit 95.
Proof. reflexivity. Qed.

Lemma escape_char_scalar c : scalar c -> escape_char c = flat_map escape_unit (units_of_char c).
Proof. intros H. unfold escape_char. now rewrite utf16_units_of_scalar. Qed.

(* every character is written either as itself or as its escaped units *)
Lemma esc1_cases c s :
  scalar c ->
  (esc1 c s = [c] /\ units_of_char c = [c] /\ plain_char c /\ (c = 95%N -> head_x s = false)) \/
  (esc1 c s = flat_map escape_unit (units_of_char c) /\
   (needs_escape c = true \/ c = 95%N /\ head_x s = true)).
Proof.
  intros Hc. unfold esc1.
  destruct (N.eqb_spec c 95) as [->|Hne]; cbn [andb].
  - destruct (head_x s) eqn:Hx.
    + right. split; [reflexivity|]. right. auto.
    + left. change (needs_escape 95) with false. cbv iota.
      repeat split; auto. unfold plain_char. lia.
  - destruct (needs_escape c) eqn:Hn.
    + right. split; [now apply escape_char_scalar|]. auto.
    + left. split; [reflexivity|]. unfold needs_escape in Hn. unfold scalar in Hc.
      split; [unfold units_of_char; now replace (c <? 65536)%N with true by lia|].
      split; [unfold plain_char; lia|]. intros ->. lia.
Qed.

Lemma plain_not_needed c : plain_char c -> needs_escape c = false.
Proof. unfold plain_char, needs_escape. lia. Qed.

Lemma unit_nonempty c : exists u us, units_of_char c = u :: us.
Proof. unfold units_of_char. destruct (N.ltb c 65536); eauto. Qed.

(* first character of the escaped text *)
Lemma esc_head s :
  scalars s ->
  esc s = [] /\ s = [] \/
  (exists c s', s = c :: s' /\ plain_char c /\ esc s = c :: esc s' /\ (c = 95%N -> head_x s' = false)
                /\ units_of_char c = [c]) \/
  (exists c s' u us, s = c :: s' /\ units_of_char c = u :: us /\
      esc s = escape_unit u ++ flat_map escape_unit us ++ esc s' /\
      (needs_escape c = true \/ c = 95%N /\ head_x s' = true)).
Proof.
  intros Hs. destruct Hs as [|c s' Hc Hs']; [left; auto|right].
  cbn [esc]. destruct (esc1_cases c s' Hc) as [(E & U & P & X)|(E & N)].
  - left. exists c, s'. rewrite E. auto.
  - right. destruct (unit_nonempty c) as (u & us & Hu). exists c, s', u, us.
    rewrite E, Hu. cbn [flat_map]. rewrite <- app_assoc. auto.
Qed.

Lemma esc_starts_x s : scalars s -> head_x (esc s) = head_x s.
Proof.
  intros Hs. destruct (esc_head s Hs) as [[-> ->]|[(c & s' & -> & P & -> & _)|(c & s' & u & us & -> & U & -> & N)]];
    try reflexivity.
  rewrite escape_unit_eq. cbn [app head_x].
  destruct N as [N|[-> _]]; [|reflexivity].
  unfold needs_escape in N. unfold is_x. lia.
Qed.

Lemma head_x_spec s : head_x s = true <-> starts_with_x s.
Proof. destruct s as [|d s]; cbn [head_x starts_with_x]; unfold is_x; [split; [discriminate|tauto]|lia]. Qed.

(* ---- C10: output language ---- *)
Lemma escaped_units us t :
  Forall unit_ok us -> escaped t -> escaped (flat_map escape_unit us ++ t).
Proof.
  induction 1 as [|u us Hu Hus IH]; intros Ht; [exact Ht|].
  cbn [flat_map]. rewrite <- app_assoc, escape_unit_eq. unfold unit_ok in Hu.
  apply e_code; try (apply hex_digit_upper; lia). now apply IH.
Qed.

Lemma esc_escaped s : scalars s -> escaped (esc s).
Proof.
  induction 1 as [|c s Hc Hs IH]; [constructor|].
  cbn [esc]. destruct (esc1_cases c s Hc) as [(E & U & P & X)|(E & N)]; rewrite E.
  - cbn [app]. constructor; [exact P| |exact IH].
    intros Hc5 Hx. apply head_x_spec in Hx. rewrite esc_starts_x in Hx by exact Hs.
    rewrite (X Hc5) in Hx. discriminate.
  - apply escaped_units; [now apply units_of_char_ok|exact IH].
Qed.

Lemma harmless_esc s : harmless s -> esc s = s.
Proof.
  induction 1 as [|c s P X Hs IH]; [reflexivity|].
  cbn [esc]. rewrite IH. unfold esc1. rewrite (plain_not_needed c P).
  destruct (N.eqb_spec c 95) as [->|Hne]; cbn [andb]; [|reflexivity].
  destruct (head_x s) eqn:Hx; [|reflexivity].
  apply head_x_spec in Hx. now apply X in Hx.
Qed.

Lemma esc_fix_harmless s : scalars s -> esc s = s -> harmless s.
Proof.
  induction 1 as [|c s Hc Hs IH]; [constructor|].
  cbn [esc]. destruct (esc1_cases c s Hc) as [(E & U & P & X)|(E & N)]; rewrite E.
  - cbn [app]. intros Heq. constructor; [exact P| |apply IH; congruence].
    intros H5 Hx. apply head_x_spec in Hx. rewrite (X H5) in Hx. discriminate.
  - destruct (unit_nonempty c) as (u & us & Hu). rewrite Hu. cbn [flat_map].
    rewrite escape_unit_eq. cbn [app]. intros Heq. exfalso.
    destruct N as [N|[-> Hx]].
    + inversion Heq. subst c. discriminate N.
    + assert (L : forall s, scalars s -> length s <= length (esc s)).
      { clear. induction 1 as [|c s Hc Hs IH]; [cbn; lia|]. cbn [esc length]. rewrite app_length.
        destruct (esc1_cases c s Hc) as [(E & _)|(E & _)]; rewrite E; [cbn [length]; lia|].
        destruct (unit_nonempty c) as (u & us & ->). cbn [flat_map]. rewrite escape_unit_eq.
        cbn [app length]. lia. }
      specialize (L s Hs). apply (f_equal (@length N)) in Heq.
      cbn [length] in Heq. rewrite app_length in Heq. lia.
Qed.

(* every output character is a BMP character, none is a surrogate *)
Definition bmp (c : N) : Prop := (c < 65536)%N /\ scalar c.

Lemma escape_unit_bmp u : unit_ok u -> Forall bmp (escape_unit u).
Proof.
  intros H. unfold unit_ok in H. rewrite escape_unit_eq.
  repeat (apply Forall_cons; [|]); try apply Forall_nil; unfold bmp, scalar, hex_digit;
    repeat (match goal with |- context [N.ltb ?a ?b] => destruct (N.ltb_spec a b) end); lia.
Qed.

Lemma esc_bmp s : scalars s -> Forall bmp (esc s).
Proof.
  induction 1 as [|c s Hc Hs IH]; [constructor|]. cbn [esc]. apply Forall_app. split; [|exact IH].
  destruct (esc1_cases c s Hc) as [(E & U & P & X)|(E & N)]; rewrite E.
  - apply Forall_cons; [|apply Forall_nil]. split; [unfold plain_char in P; lia|exact Hc].
  - pose proof (units_of_char_ok c Hc) as Hu. clear E N.
    induction Hu as [|u us Hu Hus IHu]; [constructor|]. cbn [flat_map].
    apply Forall_app. split; [now apply escape_unit_bmp|exact IHu].
Qed.

Lemma bmp_units t : Forall bmp t -> flat_map units_of_char t = t.
Proof.
  induction 1 as [|c t [Hc _] Ht IH]; [reflexivity|]. cbn [flat_map]. rewrite IH.
  unfold units_of_char. now replace (c <? 65536)%N with true by lia.
Qed.

Lemma bmp_scalars t : Forall bmp t -> scalars t.
Proof. intros H. unfold scalars. eapply Forall_impl; [|exact H]. now intros c [_ Hc]. Qed.

Lemma encode_esc s : scalars s -> utf16be_encode (esc s) = Ok (flat_map unit_be (esc s)).
Proof.
  intros Hs. pose proof (esc_bmp s Hs) as Hb.
  rewrite utf16be_encode_scalars by now apply bmp_scalars. now rewrite bmp_units.
Qed.

(* ---- the byte scan ---- *)
Notation B := (flat_map unit_be).

Lemma B_cons u t : B (u :: t) = (u / 256 :: u mod 256 :: B t)%N.
Proof. reflexivity. Qed.

Lemma Some_pair_inj {A C} (a c : A) (b d : C) : Some (a, b) = Some (c, d) -> a = c /\ b = d.
Proof. intros H. inversion H. auto. Qed.

Lemma match_escape_inv b g rest :
  match_escape b = Some (g, rest) ->
  exists g1 g2 g3 g4 g5 g6 g7 g8,
    g = [g1; g2; g3; g4; g5; g6; g7; g8] /\
    b = ([0; 95; 0; 120; g1; g2; g3; g4; g5; g6; g7; g8; 0; 95] ++ rest)%N /\
    forallb is_word_byte g = true.
Proof.
  intros H. unfold match_escape in H.
  do 14 (destruct b as [|?x b]; [discriminate H|]). cbv zeta in H.
  destruct (list_eqb N.eqb _ _) eqn:E in H; [|discriminate H].
  apply (str_eqb_spec [_; _; _; _; _; _]) in E.
  destruct (forallb is_word_byte _) eqn:F in H; [|discriminate H].
  apply Some_pair_inj in H. destruct H as [<- <-].
  do 8 eexists. split; [reflexivity|]. split; [|exact F].
  inversion E. reflexivity.
Qed.

Lemma match_escape_ok g1 g2 g3 g4 g5 g6 g7 g8 rest :
  forallb is_word_byte [g1; g2; g3; g4; g5; g6; g7; g8] = true ->
  match_escape ([0; 95; 0; 120; g1; g2; g3; g4; g5; g6; g7; g8; 0; 95] ++ rest)%N
  = Some ([g1; g2; g3; g4; g5; g6; g7; g8], rest).
Proof. intros F. cbn [app match_escape]. cbv zeta. now rewrite F. Qed.

Lemma word_zero : is_word_byte 0 = true. Proof. reflexivity. Qed.

(* an escaped unit in aligned position *)
Lemma scan_escape_unit u t f :
  unit_ok u ->
  sub_escapes (S f) (B (escape_unit u ++ t)) =
  do r <- sub_escapes f (B t); Ok (unit_be u ++ r).
Proof.
  intros Hu. unfold unit_ok in Hu. rewrite escape_unit_eq.
  set (h1 := hex_digit (u / 256 / 16)). set (h2 := hex_digit (u / 256 mod 16)).
  set (h3 := hex_digit (u mod 256 / 16)). set (h4 := hex_digit (u mod 256 mod 16)).
  assert (HH : forall d, (d < 16)%N -> (hex_digit d / 256 = 0 /\ hex_digit d mod 256 = hex_digit d)%N).
  { intros d Hd. unfold hex_digit. destruct (N.ltb_spec d 10); lia. }
  assert (E : B ([95; 120; h1; h2; h3; h4; 95]%N ++ t) =
              ([0; 95; 0; 120; 0; h1; 0; h2; 0; h3; 0; h4; 0; 95] ++ B t)%N).
  { cbn [app]. rewrite !B_cons. unfold h1, h2, h3, h4.
    destruct (HH (u / 256 / 16)%N ltac:(lia)) as [-> ->].
    destruct (HH (u / 256 mod 16)%N ltac:(lia)) as [-> ->].
    destruct (HH (u mod 256 / 16)%N ltac:(lia)) as [-> ->].
    destruct (HH (u mod 256 mod 16)%N ltac:(lia)) as [-> ->]. reflexivity. }
  rewrite E.
  assert (M : match_escape ([0; 95; 0; 120; 0; h1; 0; h2; 0; h3; 0; h4; 0; 95] ++ B t)%N
              = Some ([0; h1; 0; h2; 0; h3; 0; h4]%N, B t)).
  { apply match_escape_ok. cbn [forallb]. rewrite word_zero.
    unfold h1, h2, h3, h4.
    rewrite !(upper_hex_word (hex_digit _)) by (apply hex_digit_upper; lia). reflexivity. }
  assert (U : unescape_group [0; h1; 0; h2; 0; h3; 0; h4]%N = Ok (unit_be u)).
  { unfold unescape_group, utf16be_decode. cbn [units_of_be bind].
    assert (Hh : forall d, (d < 16)%N -> is_high (256 * 0 + hex_digit d) = false /\
                                        is_low (256 * 0 + hex_digit d) = false /\
                                        (256 * 0 + hex_digit d = hex_digit d)%N).
    { intros d Hd. unfold is_high, is_low, hex_digit. destruct (N.ltb_spec d 10); lia. }
    unfold h1, h2, h3, h4. cbn [utf16_decode_units].
    destruct (Hh (u / 256 / 16)%N ltac:(lia)) as (-> & -> & ->).
    destruct (Hh (u / 256 mod 16)%N ltac:(lia)) as (-> & -> & ->).
    destruct (Hh (u mod 256 / 16)%N ltac:(lia)) as (-> & -> & ->).
    destruct (Hh (u mod 256 mod 16)%N ltac:(lia)) as (-> & -> & ->).
    cbn [bind unhexlify]. rewrite !hex_value_digit by lia. cbn [bind].
    unfold unit_be. f_equal. f_equal; [lia|f_equal; lia]. }
  cbn [app] in M |- *. cbn [sub_escapes]. rewrite M, U. reflexivity.
Qed.

Lemma cons_inj {A} (x y : A) a b : x :: a = y :: b -> x = y /\ a = b.
Proof. intros H. inversion H. auto. Qed.

(* a literal character in aligned position is never the start of a match *)
Lemma aligned_no_match c t :
  (c <> 95%N \/ head_x t = false) -> match_escape (B (c :: t)) = None.
Proof.
  intros H. destruct (match_escape (B (c :: t))) as [[g rest]|] eqn:E; [|reflexivity].
  apply match_escape_inv in E. destruct E as (g1 & g2 & g3 & g4 & g5 & g6 & g7 & g8 & _ & E & _).
  rewrite B_cons in E. cbn [app] in E.
  apply cons_inj in E. destruct E as [E1 E]. apply cons_inj in E. destruct E as [E2 E3].
  assert (c = 95%N) by lia. destruct H as [H|H]; [congruence|].
  destruct t as [|d t']; [discriminate E3|]. rewrite B_cons in E3.
  apply cons_inj in E3. destruct E3 as [E4 E3]. apply cons_inj in E3. destruct E3 as [E5 E3].
  assert (d = 120%N) by lia. subst d. discriminate H.
Qed.

(* a character of the escaped text that does not start an escape is literal *)
Lemma lit_step s c t :
  scalars s -> esc s = c :: t ->
  (c = 95%N -> forall h1 h2 h3 h4 t', upper_hex h1 -> upper_hex h2 -> upper_hex h3 -> upper_hex h4 ->
               t <> [120; h1; h2; h3; h4; 95]%N ++ t') ->
  exists s', s = c :: s' /\ scalars s' /\ esc s' = t /\ plain_char c /\ (c = 95%N -> head_x s' = false).
Proof.
  intros Hs E Nn. destruct (esc_head s Hs) as [[E' _]|[(d & s' & -> & P & E' & X & _)|(d & s' & u & us & -> & U & E' & _)]];
    rewrite E' in E.
  - discriminate.
  - exists s'. inversion E; subst. inversion Hs; subst. auto.
  - exfalso. rewrite escape_unit_eq in E. cbn [app] in E.
    assert (Hu : unit_ok u).
    { inversion Hs; subst. pose proof (units_of_char_ok d ltac:(assumption)) as Q. rewrite U in Q. now inversion Q. }
    unfold unit_ok in Hu.
    assert (c = 95%N) by congruence.
    eapply Nn; [assumption| | | | |]; cycle 4.
    + symmetry. cbn [app]. apply cons_inj in E. exact (proj2 E).
    + apply hex_digit_upper; lia.
    + apply hex_digit_upper; lia.
    + apply hex_digit_upper; lia.
    + apply hex_digit_upper; lia.
Qed.

(* what a match starting at the second byte of a character looks like *)
Lemma odd_match_inv l s g rest :
  scalars s -> match_escape (l :: B (esc s)) = Some (g, rest) ->
  exists g1 g2 g3 g4 g5 g6 g7 g8 y s',
    l = 0%N /\ g = [g1; g2; g3; g4; g5; g6; g7; g8] /\ (y < 256)%N /\
    Forall nul_or_word g /\
    s = tl (straddle 0 g1 g2 g3 g4 g5 g6 g7 g8 y) ++ s' /\
    harmless (tl (straddle 0 g1 g2 g3 g4 g5 g6 g7 g8 y)) /\
    rest = y :: B (esc s').
Proof.
  intros Hs E. apply match_escape_inv in E.
  destruct E as (g1 & g2 & g3 & g4 & g5 & g6 & g7 & g8 & Hg & E & F).
  exists g1, g2, g3, g4, g5, g6, g7, g8.
  assert (W : Forall nul_or_word g).
  { apply Forall_forall. intros x Hx. rewrite forallb_forall in F. apply F in Hx.
    unfold is_word_byte in Hx. unfold nul_or_word. lia. }
  assert (W' : Forall (fun b => b < 256)%N g).
  { eapply Forall_impl; [|exact W]. unfold nul_or_word. intros; lia. }
  rewrite Hg in W'.
  cbn [app] in E. inversion E as [[E0 E1]]. clear E.
  (* the characters of the escaped text *)
  assert (T : exists y t', (y < 256)%N /\ esc s = (24320 :: 30720 + g1 :: 256 * g2 + g3 :: 256 * g4 + g5
                  :: 256 * g6 + g7 :: 256 * g8 :: 24320 + y :: t')%N /\ rest = y :: B t').
  { clear Hs F W. revert E1. generalize (esc s). intros t E1.
    do 7 (destruct t as [|?c t]; [discriminate E1|rewrite B_cons in E1]).
    exists (c5 mod 256)%N, t. split; [lia|].
    repeat match goal with H : Forall _ (_ :: _) |- _ => inversion H; subst; clear H end.
    inversion E1. split; [|reflexivity].
    repeat (apply f_equal2; [lia|]). reflexivity. }
  destruct T as (y & t' & Hy & T & Hrest). exists y.
  clear E1 F E0.
  assert (NW : Forall nul_or_word [g1; g2; g3; g4; g5; g6; g7; g8]) by (rewrite <- Hg; exact W).
  assert (C : forall (x y : N) (a b : list N), x :: a = y :: b -> x = y /\ a = b) by (intros; split; congruence).
  destruct (lit_step _ _ _ Hs T) as (s1 & -> & Hs1 & T1 & P1 & X1); [intros; lia|].
  destruct (lit_step _ _ _ Hs1 T1) as (s2 & -> & Hs2 & T2 & P2 & X2); [intros; lia|].
  destruct (lit_step _ _ _ Hs2 T2) as (s3 & -> & Hs3 & T3 & P3 & X3).
  { intros _ h1 h2 h3 h4 t0 U1 U2 U3 U4 K. cbn [app] in K.
    apply C in K. destruct K as [_ K]. apply C in K. destruct K as [_ K].
    apply C in K. destruct K as [K _]. unfold upper_hex in U2. lia. }
  destruct (lit_step _ _ _ Hs3 T3) as (s4 & -> & Hs4 & T4 & P4 & X4).
  { intros _ h1 h2 h3 h4 t0 U1 U2 U3 U4 K. cbn [app] in K.
    apply C in K. destruct K as [_ K]. 
    apply C in K. destruct K as [K _]. unfold upper_hex in U1. lia. }
  destruct (lit_step _ _ _ Hs4 T4) as (s5 & -> & Hs5 & T5 & P5 & X5).
  { intros _ h1 h2 h3 h4 t0 U1 U2 U3 U4 K. cbn [app] in K.
    apply C in K. destruct K as [K _]. lia. }
  destruct (lit_step _ _ _ Hs5 T5) as (s6 & -> & Hs6 & T6 & P6 & X6); [intros; lia|].
  destruct (lit_step _ _ _ Hs6 T6) as (s7 & -> & Hs7 & T7 & P7 & X7); [intros; lia|].
  exists s7. rewrite T7. cbn [straddle tl app].
  split; [reflexivity|]. split; [exact Hg|]. split; [exact Hy|]. split; [exact W|]. split; [reflexivity|].
  split; [|exact Hrest].
  repeat (apply h_cons; [assumption| |]); try apply h_nil; try lia; intros K.
  - apply X3 in K. intros K2. apply head_x_spec in K2. cbn [head_x] in *. congruence.
  - apply X4 in K. intros K2. apply head_x_spec in K2. cbn [head_x] in *. congruence.
  - apply X5 in K. intros K2. apply head_x_spec in K2. cbn [head_x] in *. congruence.
Qed.

(* one literal character scanned without a match at either byte *)
Lemma scan_literal c t f :
  (c <> 95%N \/ head_x t = false) -> match_escape (c mod 256 :: B t)%N = None ->
  sub_escapes (S (S f)) (B (c :: t)) =
  do r <- sub_escapes f (B t); Ok (unit_be c ++ r).
Proof.
  intros H1 H2. pose proof (aligned_no_match c t H1) as M. rewrite B_cons in *.
  cbn [sub_escapes]. rewrite M, H2. destruct (sub_escapes f (B t)); reflexivity.
Qed.

Lemma scan_units us : forall t f,
  Forall unit_ok us ->
  sub_escapes (length us + f) (B (flat_map escape_unit us ++ t)) =
  do r <- sub_escapes f (B t); Ok (B us ++ r).
Proof.
  induction us as [|u us IH]; intros t f H.
  - cbn [flat_map app length Nat.add]. destruct (sub_escapes f (B t)); reflexivity.
  - inversion H; subst. cbn [flat_map length Nat.add]. rewrite <- app_assoc.
    rewrite scan_escape_unit by assumption. rewrite IH by assumption.
    destruct (sub_escapes f (B t)) as [r|e]; [|reflexivity]. cbn [bind].
    now rewrite app_assoc.
Qed.

(* more fuel does not change the outcome once there is enough *)
Lemma sub_escapes_fuel : forall f b, length b <= f -> sub_escapes f b = sub_escapes (length b) b.
Proof.
  induction f as [f IH] using lt_wf_ind. intros b Hl.
  destruct b as [|x b]; [destruct f; reflexivity|].
  cbn [length] in *. destruct f as [|f]; [lia|].
  cbn [sub_escapes].
  destruct (match_escape (x :: b)) as [[g rest]|] eqn:M.
  - assert (Hr : length rest <= length b).
    { apply match_escape_inv in M. destruct M as (g1 & g2 & g3 & g4 & g5 & g6 & g7 & g8 & _ & M & _).
      apply (f_equal (@length N)) in M. cbn [app length] in M. lia. }
    rewrite (IH f ltac:(lia) rest) by lia.
    destruct (Nat.eq_dec f (length b)) as [->|Hne]; [rewrite (IH (length b) ltac:(lia) rest) by lia; reflexivity|].
    rewrite (IH (length b) ltac:(lia) rest) by lia. reflexivity.
  - rewrite (IH f ltac:(lia) b) by lia. reflexivity.
Qed.

Definition scan (b : bytes) : res bytes := sub_escapes (length b) b.

Lemma scan_units' us t :
  Forall unit_ok us ->
  scan (B (flat_map escape_unit us ++ t)) = do r <- scan (B t); Ok (B us ++ r).
Proof.
  intros H. unfold scan.
  set (b := B (flat_map escape_unit us ++ t)).
  assert (L : length us + length (B t) <= length b).
  { unfold b. rewrite flat_map_app, app_length. apply Nat.add_le_mono_r.
    clear. induction us as [|u us IH]; [cbn; lia|]. cbn [flat_map]. rewrite flat_map_app, app_length.
    rewrite escape_unit_eq. cbn [length flat_map app unit_be]. lia. }
  replace (length b) with (length us + (length b - length us)) by lia.
  unfold b at 2. rewrite scan_units by assumption.
  rewrite (sub_escapes_fuel (length b - length us) (B t)) by lia. reflexivity.
Qed.

Lemma scan_none x b : match_escape (x :: b) = None -> scan (x :: b) = do r <- scan b; Ok (x :: r).
Proof. intros H. unfold scan. cbn [length sub_escapes]. now rewrite H. Qed.

Lemma scan_some x b g rest :
  match_escape (x :: b) = Some (g, rest) ->
  scan (x :: b) = do r <- unescape_group g; do r' <- scan rest; Ok (r ++ r').
Proof.
  intros H. unfold scan. cbn [length sub_escapes]. rewrite H.
  rewrite (sub_escapes_fuel (length b) rest); [reflexivity|].
  apply match_escape_inv in H. destruct H as (g1 & g2 & g3 & g4 & g5 & g6 & g7 & g8 & _ & M & _).
  apply (f_equal (@length N)) in M. cbn [app length] in M. lia.
Qed.

Notation U := (flat_map units_of_char).

(* the aligned case: without a straddling pattern the scan gives back the units *)
Lemma scan_esc s : scalars s -> ~ has_straddle s -> scan (B (esc s)) = Ok (B (U s)).
Proof.
  induction 1 as [|c s Hc Hs IH]; intros Hn; [reflexivity|].
  assert (Hn' : ~ has_straddle s) by (intros K; apply Hn; now constructor).
  specialize (IH Hn'). cbn [esc].
  destruct (esc1_cases c s Hc) as [(E & Uc & P & X)|(E & Nd)]; rewrite E.
  - cbn [app]. rewrite B_cons. 
    assert (M : match_escape (B (c :: esc s)) = None).
    { apply aligned_no_match. destruct (N.eq_dec c 95) as [->|]; [right|now left].
      rewrite esc_starts_x by exact Hs. now apply X. }
    rewrite B_cons in M.
    rewrite (scan_none _ _ M).
    assert (M2 : match_escape (c mod 256 :: B (esc s))%N = None).
    { destruct (match_escape (c mod 256 :: B (esc s))%N) as [[g rest]|] eqn:M2; [|reflexivity].
      exfalso. apply odd_match_inv in M2; [|exact Hs].
      destruct M2 as (g1 & g2 & g3 & g4 & g5 & g6 & g7 & g8 & y & s' & H0 & -> & Hy & W & -> & Hh & _).
      apply Hn. replace c with (256 * (c / 256))%N by lia.
      apply (hs_here (c / 256) g1 g2 g3 g4 g5 g6 g7 g8 y s'); [unfold plain_char in P; lia|exact Hy|exact W|].
      unfold straddle. apply h_cons; [|lia|exact Hh].
      replace (256 * (c / 256))%N with c by lia. exact P. }
    rewrite (scan_none _ _ M2), IH. cbn [bind].
    cbn [flat_map]. rewrite Uc. reflexivity.
  - rewrite scan_units' by now apply units_of_char_ok. rewrite IH. cbn [bind flat_map].
    now rewrite flat_map_app.
Qed.

Lemma string_roundtrip s :
  scalars s -> ~ has_straddle s -> deserialize_string (Some (serialize_string s)) = Ok s.
Proof.
  intros Hs Hn. rewrite serialize_string_esc. unfold deserialize_string.
  rewrite (encode_esc s Hs). cbn [bind]. fold (scan (B (esc s))). rewrite (scan_esc s Hs Hn).
  cbn [bind]. now apply utf16be_decode_scalars.
Qed.

(* ---- the converse: with a straddling pattern something is lost ---- *)
Lemma unescape_group_length g1 g2 g3 g4 g5 g6 g7 g8 r :
  unescape_group [g1; g2; g3; g4; g5; g6; g7; g8] = Ok r -> length r <= 2.
Proof.
  unfold unescape_group, utf16be_decode. cbn [units_of_be bind].
  assert (D : forall us t, utf16_decode_units us = Ok t -> length t <= length us).
  { clear. intros us. remember (length us) as n eqn:Hn.
    assert (Hle : length us <= n) by lia. clear Hn. revert us Hle.
    induction n as [n IH] using lt_wf_ind. intros us Hle t H.
    destruct us as [|u us]; [cbn in H; inversion H; cbn; lia|].
    cbn [utf16_decode_units length] in *.
    destruct (is_high u).
    - destruct us as [|v us]; [discriminate|]. destruct (is_low v); [|discriminate].
      destruct (utf16_decode_units us) as [t'|] eqn:E; [|discriminate]. cbn [bind] in H.
      cbn [length] in Hle. pose proof (IH (length us) ltac:(lia) us ltac:(lia) t' E).
      apply Ok_inj in H; subst t; cbn [length]; lia.
    - destruct (is_low u); [discriminate|].
      destruct (utf16_decode_units us) as [t'|] eqn:E; [|discriminate]. cbn [bind] in H.
      pose proof (IH (length us) ltac:(lia) us ltac:(lia) t' E).
      apply Ok_inj in H; subst t; cbn [length]; lia. }
  assert (X : forall t b, unhexlify t = Ok b -> 2 * length b = length t).
  { clear. intros t. induction t as [|x|x y t IH] using list_ind2; intros b H.
    - inversion H. reflexivity.
    - discriminate.
    - cbn [unhexlify] in H. destruct (hex_value x), (hex_value y); try discriminate.
      destruct (unhexlify t) as [b'|]; [|discriminate]. cbn [bind] in H. inversion H; subst.
      cbn [length]. specialize (IH b' eq_refl). lia. }
  set (us := [_; _; _; _]). destruct (utf16_decode_units us) as [t|] eqn:E; [|discriminate].
  cbn [bind]. intros H. apply D in E. apply X in H. cbn [length us] in E. lia.
Qed.

Lemma B_length us : length (B us) = 2 * length us.
Proof. induction us as [|u us IH]; [reflexivity|]. cbn [flat_map unit_be app length]. lia. Qed.

Lemma U_length_ge s : length s <= length (U s).
Proof.
  induction s as [|c s IH]; [reflexivity|]. cbn [flat_map length]. rewrite app_length.
  unfold units_of_char at 1. destruct (N.ltb c 65536); cbn [length]; lia.
Qed.

Lemma bind_ok {A C} (x : res A) (f : A -> res C) r :
  bind x f = Ok r -> exists a, x = Ok a /\ f a = Ok r.
Proof. destruct x; [eauto|discriminate]. Qed.

Lemma scan_bound : forall n s, length s <= n -> scalars s ->
  (forall r, scan (B (esc s)) = Ok r -> length r <= length (B (U s))) /\
  (forall l r, scan (l :: B (esc s)) = Ok r ->
     length r <= 1 + length (B (U s)) /\
     (match_escape (l :: B (esc s)) <> None -> length r < 1 + length (B (U s)))).
Proof.
  induction n as [n IH] using lt_wf_ind. intros s Hl Hs.
  assert (Even : forall r, scan (B (esc s)) = Ok r -> length r <= length (B (U s))).
  { intros r H. destruct Hs as [|c s Hc Hs].
    - cbn in H. inversion H. reflexivity.
    - cbn [length] in Hl. destruct (IH (length s) ltac:(lia) s ltac:(lia) Hs) as [IHe IHo].
      cbn [esc] in H.
      destruct (esc1_cases c s Hc) as [(E & Uc & P & X)|(E & Nd)]; rewrite E in H.
      + cbn [app] in H.
        assert (M : match_escape (B (c :: esc s)) = None).
        { apply aligned_no_match. destruct (N.eq_dec c 95) as [->|]; [right|now left].
          rewrite esc_starts_x by exact Hs. now apply X. }
        rewrite B_cons in H, M. rewrite (scan_none _ _ M) in H.
        apply bind_ok in H. destruct H as (r' & H & Hr). inversion Hr; subst.
        apply IHo in H. cbn [flat_map]. rewrite Uc, flat_map_app, app_length.
        cbn [flat_map unit_be app length]. lia.
      + rewrite scan_units' in H by now apply units_of_char_ok.
        apply bind_ok in H. destruct H as (r' & H & Hr). inversion Hr; subst.
        apply IHe in H. cbn [flat_map]. rewrite flat_map_app, !app_length. lia. }
  split; [exact Even|].
  intros l r H. destruct (match_escape (l :: B (esc s))) as [[g rest]|] eqn:M.
  - rewrite (scan_some _ _ _ _ M) in H.
    apply bind_ok in H. destruct H as (r1 & Hr1 & H). apply bind_ok in H. destruct H as (r2 & Hr2 & H).
    assert (r = r1 ++ r2) by (inversion H; reflexivity). subst r. clear H.
    apply odd_match_inv in M; [|exact Hs].
    destruct M as (g1 & g2 & g3 & g4 & g5 & g6 & g7 & g8 & y & s' & _ & -> & Hy & W & Es & _ & ->).
    cbn [straddle tl app] in Es.
    apply unescape_group_length in Hr1.
    assert (Hs' : scalars s').
    { subst s. unfold scalars in *. do 7 apply Forall_inv_tail in Hs. exact Hs. }
    assert (Hls : length s = 7 + length s') by (subst s; reflexivity).
    destruct (IH (length s') ltac:(lia) s' ltac:(lia) Hs') as [_ IHo].
    apply IHo in Hr2. destruct Hr2 as [Hr2 _].
    assert (Q : length (B (U s)) >= 14 + length (B (U s'))).
    { rewrite !B_length. rewrite Es.
      repeat (match goal with |- context [U (?c :: ?x)] => change (U (c :: x)) with (units_of_char c ++ U x); rewrite (app_length (units_of_char c)) end).
      assert (forall c, 1 <= length (units_of_char c)) as One
        by (intros c; destruct (unit_nonempty c) as (u & us & ->); cbn [length]; lia).
      repeat match goal with |- context [length (units_of_char ?c)] =>
        let Q := fresh in pose proof (One c) as Q; revert Q; generalize (length (units_of_char c)); intros end.
      lia. }
    rewrite app_length. lia.
  - rewrite (scan_none _ _ M) in H. apply bind_ok in H. destruct H as (r' & H & Hr).
    inversion Hr; subst. apply Even in H. cbn [length]. split; [lia|congruence].
Qed.

Lemma harmless_inv c s : harmless (c :: s) -> plain_char c /\ harmless s.
Proof. intros H. inversion H; auto. Qed.

Lemma esc_harmless_app p c s : harmless (p ++ [c]) -> c <> 95%N -> esc ((p ++ [c]) ++ s) = (p ++ [c]) ++ esc s.
Proof.
  intros H Hc. induction p as [|d p IH].
  - cbn [app esc]. inversion H; subst. unfold esc1. rewrite plain_not_needed by assumption.
    now replace (N.eqb c 95) with false by lia.
  - cbn [app esc]. cbn [app] in H. inversion H as [|? ? P X Hp]; subst. rewrite (IH Hp).
    unfold esc1. rewrite (plain_not_needed d P).
    destruct (N.eqb_spec d 95) as [->|]; cbn [andb]; [|reflexivity].
    destruct (head_x ((p ++ [c]) ++ s)) eqn:Hx; [|reflexivity]. exfalso. apply X; [reflexivity|].
    apply head_x_spec. destruct p; exact Hx.
Qed.

Lemma scan_straddle s : scalars s -> has_straddle s ->
  forall r, scan (B (esc s)) = Ok r -> length r < length (B (U s)).
Proof.
  intros Hs Hst. induction Hst as [k g1 g2 g3 g4 g5 g6 g7 g8 y s Hk Hy W Hh|c s Hst IH]; intros r H.
  - set (c0 := (256 * k)%N). set (s7 := tl (straddle 0 g1 g2 g3 g4 g5 g6 g7 g8 y) ++ s).
    change (straddle k g1 g2 g3 g4 g5 g6 g7 g8 y ++ s) with (c0 :: s7) in *.
    pose proof (Forall_inv Hs) as Hc. pose proof (Forall_inv_tail Hs) as Hs7. fold (scalars s7) in Hs7.
    destruct (harmless_inv _ _ Hh) as [P0 Hh7]. change (plain_char c0) in P0.
    change (harmless (tl (straddle 0 g1 g2 g3 g4 g5 g6 g7 g8 y))) in Hh7.
    assert (E : esc (c0 :: s7) = c0 :: esc s7).
    { cbn [esc]. unfold esc1. rewrite (plain_not_needed _ P0).
      replace (N.eqb c0 95) with false by (unfold c0; lia). reflexivity. }
    rewrite E, B_cons in H.
    assert (M : match_escape (B (c0 :: esc s7)) = None).
    { apply aligned_no_match. left. unfold c0. lia. }
    rewrite B_cons in M. rewrite (scan_none _ _ M) in H.
    apply bind_ok in H. destruct H as (r' & H & Hr).
    assert (r = (c0 / 256)%N :: r') by congruence. subst r. clear Hr.
    destruct (scan_bound (length s7) s7 (le_n _) Hs7) as [_ IHo].
    apply IHo in H. destruct H as [_ H].
    assert (Hm : match_escape (c0 mod 256 :: B (esc s7))%N <> None).
    { assert (E7 : esc s7 = tl (straddle 0 g1 g2 g3 g4 g5 g6 g7 g8 y) ++ esc s).
      { unfold s7. apply (esc_harmless_app [24320; 30720 + g1; 256 * g2 + g3; 256 * g4 + g5;
           256 * g6 + g7; 256 * g8]%N (24320 + y)%N s Hh7). lia. }
      rewrite E7. cbn [straddle tl app]. rewrite !B_cons.
      assert (W' : forallb is_word_byte [g1; g2; g3; g4; g5; g6; g7; g8] = true).
      { apply forallb_forall. intros x Hx. rewrite Forall_forall in W. apply W in Hx.
        unfold nul_or_word in Hx. unfold is_word_byte. lia. }
      assert (Wb : Forall (fun b => b < 256)%N [g1; g2; g3; g4; g5; g6; g7; g8]).
      { eapply Forall_impl; [|exact W]. unfold nul_or_word. intros; lia. }
      repeat match goal with K : Forall (fun b => (b < 256)%N) (_ :: _) |- _ => inversion K; subst; clear K end.
      match goal with |- match_escape ?b <> None =>
        replace b with ([0; 95; 0; 120; g1; g2; g3; g4; g5; g6; g7; g8; 0; 95] ++ y :: B (esc s))%N end.
      - rewrite match_escape_ok by exact W'. discriminate.
      - cbn [app]. unfold c0. repeat (apply f_equal2; [lia|]). reflexivity. }
    specialize (H Hm). change (U (c0 :: s7)) with (units_of_char c0 ++ U s7).
    rewrite flat_map_app, app_length, B_length. cbn [length].
    destruct (unit_nonempty c0) as (u & us & ->). cbn [length]. lia.
  - inversion Hs as [|? ? Hc Hs']; subst. specialize (IH Hs').
    cbn [esc] in H.
    destruct (esc1_cases c s Hc) as [(E & Uc & P & X)|(E & Nd)]; rewrite E in H.
    + cbn [app] in H.
      assert (M : match_escape (B (c :: esc s)) = None).
      { apply aligned_no_match. destruct (N.eq_dec c 95) as [->|]; [right|now left].
        rewrite esc_starts_x by exact Hs'. now apply X. }
      rewrite B_cons in H, M. rewrite (scan_none _ _ M) in H.
      apply bind_ok in H. destruct H as (r' & H & Hr).
      assert (r = (c / 256)%N :: r') by congruence. subst r. clear Hr.
      cbn [flat_map]. rewrite Uc, flat_map_app, app_length. cbn [flat_map unit_be app length].
      destruct (match_escape (c mod 256 :: B (esc s))%N) eqn:M2.
      * destruct (scan_bound (length s) s (le_n _) Hs') as [_ IHo].
        apply IHo in H. destruct H as [_ H]. rewrite M2 in H. specialize (H ltac:(discriminate)). lia.
      * rewrite (scan_none _ _ M2) in H. apply bind_ok in H. destruct H as (r2 & H & Hr).
        assert (r' = (c mod 256)%N :: r2) by congruence. subst r'. apply IH in H. cbn [length]. lia.
    + rewrite scan_units' in H by now apply units_of_char_ok.
      apply bind_ok in H. destruct H as (r' & H & Hr). assert (r = B (units_of_char c) ++ r') by congruence. subst r.
      apply IH in H. cbn [flat_map]. rewrite flat_map_app, !app_length. lia.
Qed.

Lemma unhexlify_ok t : forall b, unhexlify t = Ok b -> bytes_ok b.
Proof.
  induction t as [|x|x y t IH] using list_ind2; intros b H.
  - inversion H. constructor.
  - discriminate.
  - cbn [unhexlify] in H. destruct (hex_value x) as [vx|] eqn:Ex, (hex_value y) as [vy|] eqn:Ey; try discriminate.
    apply bind_ok in H. destruct H as (b' & H & E). apply Ok_inj in E. subst b.
    assert (V : forall c v, hex_value c = Some v -> (v < 16)%N).
    { unfold hex_value. intros c v Hv.
      destruct (_ && _)%bool eqn:E1 in Hv; [inversion Hv; lia|].
      destruct (_ && _)%bool eqn:E2 in Hv; [inversion Hv; lia|].
      destruct (_ && _)%bool eqn:E3 in Hv; [inversion Hv; lia|discriminate]. }
    apply V in Ex. apply V in Ey. constructor; [lia|]. now apply IH.
Qed.

Lemma scan_bytes_ok b : bytes_ok b -> forall r, scan b = Ok r -> bytes_ok r.
Proof.
  remember (length b) as n eqn:Hn. assert (Hl : length b <= n) by lia. clear Hn. revert b Hl.
  induction n as [n IH] using lt_wf_ind. intros b Hl Hb r H.
  destruct b as [|x b]; [inversion H; constructor|]. cbn [length] in Hl.
  inversion Hb as [|? ? Hx Hb']; subst.
  destruct (match_escape (x :: b)) as [[g rest]|] eqn:M.
  - rewrite (scan_some _ _ _ _ M) in H. apply bind_ok in H. destruct H as (r1 & H1 & H).
    apply bind_ok in H. destruct H as (r2 & H2 & H). apply Ok_inj in H. subst r.
    apply match_escape_inv in M. destruct M as (g1 & g2 & g3 & g4 & g5 & g6 & g7 & g8 & _ & M & _).
    assert (L := f_equal (@length N) M). cbn [app length] in L.
    apply bytes_ok_app. split.
    + unfold unescape_group in H1. apply bind_ok in H1. destruct H1 as (t & _ & H1). now apply unhexlify_ok in H1.
    + apply (IH (length rest) ltac:(lia) rest ltac:(lia)); [|exact H2].
      rewrite M in Hb. apply bytes_ok_app in Hb. tauto.
  - rewrite (scan_none _ _ M) in H. apply bind_ok in H. destruct H as (r1 & H1 & H).
    apply Ok_inj in H. subst r. constructor; [exact Hx|]. now apply (IH (length b) ltac:(lia) b ltac:(lia) Hb').
Qed.

Lemma string_roundtrip_iff s :
  scalars s -> (deserialize_string (Some (serialize_string s)) = Ok s <-> ~ has_straddle s).
Proof.
  intros Hs. split; [|now apply string_roundtrip].
  intros H Hst. rewrite serialize_string_esc in H. unfold deserialize_string in H.
  rewrite (encode_esc s Hs) in H. cbn [bind] in H. fold (scan (B (esc s))) in H.
  destruct (scan (B (esc s))) as [r|] eqn:E; [|discriminate]. cbn [bind] in H.
  assert (Br : bytes_ok r).
  { eapply scan_bytes_ok; [|exact E]. apply flat_map_unit_be_ok.
    eapply Forall_impl; [|exact (esc_bmp s Hs)]. intros c [Hc _]. exact Hc. }
  pose proof (scan_straddle s Hs Hst r E) as L. rewrite B_length in L.
  unfold utf16be_decode in H. apply bind_ok in H. destruct H as (us & Hus & H).
  assert (Lr : length r = 2 * length us).
  { clear - Hus. revert us Hus. induction r as [|x|x y r IH] using list_ind2; intros us H.
    - inversion H. reflexivity.
    - discriminate.
    - cbn [units_of_be] in H. apply bind_ok in H. destruct H as (us' & H & E).
      apply IH in H. inversion E; subst. cbn [length]. lia. }
  assert (Fu : Forall unit_ok us).
  { clear - Hus Br. revert us Br Hus. induction r as [|x|x y r IH] using list_ind2; intros us Br H.
    - inversion H. constructor.
    - discriminate.
    - cbn [units_of_be] in H. apply bind_ok in H. destruct H as (us' & H & E).
      inversion Br as [|? ? Hx Br']; subst. inversion Br' as [|? ? Hy Br'']; subst.
      apply IH in H; [|exact Br'']. apply Ok_inj in E. subst us. constructor; [unfold unit_ok; lia|exact H]. }
  assert (Lu : length (U s) <= length us).
  { clear - H Fu. remember (length us) as n eqn:Hn. assert (Hle : length us <= n) by lia.
    rewrite Hn. clear Hn. revert us s Hle Fu H.
    induction n as [n IH] using lt_wf_ind. intros us s Hle Fu H.
    destruct us as [|u us]; [inversion H; reflexivity|].
    inversion Fu as [|? ? Ou Fu']; subst. unfold unit_ok in Ou.
    cbn [utf16_decode_units length] in *. destruct (is_high u) eqn:Eh.
    - destruct us as [|v us]; [discriminate|]. destruct (is_low v) eqn:El; [|discriminate].
      inversion Fu' as [|? ? Ov Fu'']; subst.
      apply bind_ok in H. destruct H as (s' & H & E). cbn [length] in *.
      apply (IH (length us) ltac:(lia)) in H; [|lia|assumption].
      apply Ok_inj in E. subst s.
      cbn [flat_map]. rewrite app_length. unfold units_of_char at 1.
      destruct (N.ltb _ _); cbn [length]; clear - H; lia.
    - destruct (is_low u); [discriminate|]. apply bind_ok in H. destruct H as (s' & H & E).
      apply (IH (length us) ltac:(lia)) in H; [|lia|assumption].
      apply Ok_inj in E. subst s.
      cbn [flat_map]. rewrite app_length. unfold units_of_char at 1.
      replace (u <? 65536)%N with true by lia. cbn [length]. lia. }
  lia.
Qed.

(* ---- statements used by the property file ---- *)
Lemma straddle_5F00 s : has_straddle s -> In 24320%N s.
Proof.
  induction 1 as [k g1 g2 g3 g4 g5 g6 g7 g8 y s _ _ _ _|c s _ IH].
  - cbn [straddle app In]. auto.
  - now right.
Qed.

Lemma string_roundtrip_common s :
  scalars s -> ~ In 24320%N s -> deserialize_string (Some (serialize_string s)) = Ok s.
Proof. intros Hs Hn. apply string_roundtrip; [exact Hs|]. intros K. now apply Hn, straddle_5F00. Qed.

Lemma string_roundtrip_refuted : exists s,
  scalars s /\ has_straddle s /\
  deserialize_string (Some (serialize_string s)) = Ok [256; 0]%N /\ s <> [256; 0]%N.
Proof.
  exists (straddle 1 0 48 0 48 0 48 0 48 0).
  split; [|split; [|split]].
  - unfold straddle. repeat (apply Forall_cons; [unfold scalar; lia|]). apply Forall_nil.
  - rewrite <- (app_nil_r (straddle _ _ _ _ _ _ _ _ _ _)). apply hs_here; try lia.
    + repeat (apply Forall_cons; [unfold nul_or_word; lia|]). apply Forall_nil.
    + unfold straddle. repeat (apply h_cons; [unfold plain_char; lia|cbn [starts_with_x]; lia|]). apply h_nil.
  - vm_compute. reflexivity.
  - discriminate.
Qed.

Lemma serialize_escaped s : scalars s -> escaped (serialize_string s).
Proof. rewrite serialize_string_esc. apply esc_escaped. Qed.

Lemma serialize_unchanged_iff s : scalars s -> (serialize_string s = s <-> harmless s).
Proof. intros Hs. rewrite serialize_string_esc. split; [now apply esc_fix_harmless|apply harmless_esc]. Qed.

Lemma escaped_plain t : escaped t -> forall c, In c t -> plain_char c.
Proof.
  induction 1 as [|d s P X Hs IH|h1 h2 h3 h4 s H1 H2 H3 H4 Hs IH]; intros c Hc.
  - destruct Hc.
  - destruct Hc as [<-|Hc]; auto.
  - apply in_app_iff in Hc. destruct Hc as [Hc|Hc]; [|auto].
    cbn [In] in Hc. unfold plain_char, upper_hex in *.
    repeat (destruct Hc as [<-|Hc]; [lia|]). destruct Hc.
Qed.

Lemma serialize_plain s c : scalars s -> In c (serialize_string s) -> plain_char c.
Proof. intros Hs. apply escaped_plain. now apply serialize_escaped. Qed.

Lemma serialize_xml s c :
  scalars s -> In c (serialize_string s) -> ~ xml_char c -> c = 65534%N \/ c = 65535%N.
Proof.
  intros Hs Hc Hx. pose proof (serialize_plain s c Hs Hc) as P.
  rewrite serialize_string_esc in Hc. pose proof (esc_bmp s Hs) as Hb.
  rewrite Forall_forall in Hb. apply Hb in Hc. destruct Hc as [_ Hc].
  unfold plain_char, xml_char, scalar in *. lia.
Qed.

Lemma serialize_xml_refuted : exists s c,
  scalars s /\ In c (serialize_string s) /\ ~ xml_char c.
Proof.
  exists [65535%N], 65535%N. split; [|split].
  - apply Forall_cons; [unfold scalar; lia|apply Forall_nil].
  - vm_compute. auto.
  - unfold xml_char. lia.
Qed.

Lemma b64_char_index v : (v < 64)%N -> b64_index (b64_char v) v.
Proof.
  intros H. unfold b64_index, b64_char.
  destruct (N.ltb_spec v 26); [lia|]. destruct (N.ltb_spec v 52); [lia|].
  destruct (N.ltb_spec v 62); [lia|]. destruct (N.eqb_spec v 62); lia.
Qed.

Lemma b64_value_standard x y z b :
  (x < 256)%N -> (y < 256)%N -> (z < 256)%N ->
  exists c1 c2 c3 c4 v1 v2 v3 v4,
    b64encode (x :: y :: z :: b) = [c1; c2; c3; c4] ++ b64encode b /\
    b64_index c1 v1 /\ b64_index c2 v2 /\ b64_index c3 v3 /\ b64_index c4 v4 /\
    (x * 65536 + y * 256 + z = v1 * 262144 + v2 * 4096 + v3 * 64 + v4)%N.
Proof.
  intros Hx Hy Hz. do 4 eexists.
  exists (x / 4)%N, (x mod 4 * 16 + y / 16)%N, (y mod 16 * 4 + z / 64)%N, (z mod 64)%N.
  split; [reflexivity|].
  repeat (split; [apply b64_char_index; lia|]). lia.
Qed.

Lemma secure_string_roundtrip c s :
  inverts_on_blocks c -> scalars s ->
  exists t, serialize_secure_string (Some c) s = Ok t /\
            deserialize_secure_string (Some c) (Some t) = Ok (Plain s).
Proof. intros [[H1 H2] H3] Hs. now apply secure_roundtrip. Qed.

Lemma secure_string_no_key s : serialize_secure_string None s = Err SerializationError.
Proof. reflexivity. Qed.

Lemma secure_string_raw t : deserialize_secure_string None t = Ok (RawElement t).
Proof. reflexivity. Qed.

Lemma last_app_repeat (d : list N) n k : last (d ++ repeat n (S k)) 0%N = n.
Proof.
  induction d as [|x d IH].
  - cbn [app]. induction k as [|k IHk]; [reflexivity|]. cbn [repeat last]. exact IHk.
  - cbn [app]. destruct (d ++ repeat n (S k)) eqn:E; [destruct d; discriminate|]. exact IH.
Qed.

Lemma secure_string_ciphertext c s t :
  (0 < ci_block c < 256)%N -> serialize_secure_string (Some c) s = Ok t ->
  exists d k, N.of_nat (length d) = (ci_block c * N.of_nat (S k))%N /\
              utf16le_encode s = Ok (firstn (length d - N.to_nat (last d 0%N)) d) /\
              t = b64encode (ci_enc c d).
Proof.
  intros Hb H. unfold serialize_secure_string in H. apply bind_ok in H. destruct H as (u & Hu & H).
  apply Ok_inj in H. destruct (pkcs7_pad_multiple (ci_block c) u) as [k Hk]; [lia|].
  exists (pkcs7_pad (ci_block c) u), k. split; [exact Hk|]. split; [|now subst].
  rewrite Hu. f_equal. unfold pkcs7_pad.
  set (n := (ci_block c - N.of_nat (length u) mod ci_block c)%N).
  assert (Hmod : (N.of_nat (length u) mod ci_block c < ci_block c)%N) by (apply N.mod_lt; lia).
  destruct (N.to_nat n) as [|m] eqn:En; [lia|].
  rewrite last_app_repeat. rewrite app_length, repeat_length, En.
  replace (length u + S m - S m) with (length u) by lia.
  rewrite firstn_app, firstn_all, Nat.sub_diag. cbn [firstn]. now rewrite app_nil_r.
Qed.

Lemma xor_cipher_inverts :
  inverts_on_blocks (mkCipher 16 (map (fun x => N.lxor x 165)) (map (fun x => N.lxor x 165))).
Proof.
  split; [cbn [ci_block]; lia|]. intros d k Hd _. cbn [ci_enc ci_dec].
  split.
  - unfold bytes_ok in *. induction Hd as [|x d Hx Hd IH]; [constructor|]. cbn [map].
    constructor; [|exact IH].
    assert (x / 256 = 0)%N by (apply N.div_small; exact Hx).
    change 256%N with (2 ^ 8)%N. destruct (N.eq_dec (N.lxor x 165) 0) as [->|Hne]; [reflexivity|].
    apply N.log2_lt_pow2; [lia|]. eapply N.le_lt_trans; [apply N.log2_lxor|].
    apply N.max_lub_lt; [|reflexivity].
    destruct (N.eq_dec x 0) as [->|Hx0]; [reflexivity|]. apply N.log2_lt_pow2; [lia|exact Hx].
  - clear. induction d as [|x d IH]; [reflexivity|]. cbn [map]. rewrite IH. f_equal.
    now rewrite N.lxor_assoc, N.lxor_nilpotent, N.lxor_0_r.
Qed.
