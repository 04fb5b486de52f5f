(* A copy refers only to instances that the original reaches. *)
From Verif Require Import Base BaseProofs Lit NumModel TextModel TextSpec MsgModel MsgSpec XmlModel SerModel SerClasses SerSpec SerSpec2 ClsSpec ClsProofs XtModel XtSpec WfModel WfSpec WireModel
  SendClasses ObjModel ObjSpec StartModel StartSpec.
Local Open Scope list_scope.

Section Shrink.
  Context (ci : option cipher) (float_of : list N -> res (list N)) (said raw : list N -> Prop) (classes : list N -> option cdesc) (canon : list N -> list (list N)).
  Context (h made : list hobj) (base : nat) (h' : list hobj).
  Definition flat (v : value) : Prop :=
    match v with VNone | VBool _ | VInt _ | VFloat _ | VStr _ | VBytes _ | VGuid _ => True | _ => False end.
  Lemma bears_flat tag v : bears ci float_of said raw tag v -> flat v.
  Proof. intros B. destruct B; exact I. Qed.
  Lemma flat_shrink v w : flat v -> copy classes (h ++ made) base h' v w -> copy classes h base h' v w.
  Proof. intros F Cp. destruct v; try destruct F; inversion Cp; subst; constructor. Qed.
  Lemma lone_flat v : lone ci float_of said raw v -> flat v.
  Proof. intros [->|B]; [exact I|exact (bears_flat _ _ B)]. Qed.
  Lemma copy_shrink m v w : conforms ci float_of classes canon h said raw m v -> copy classes (h ++ made) base h' v w -> copy classes h base h' v w.
  Proof.
    intros C. revert w. induction C as [m Hm|tag name opt v B|name opt v B|name opt tag v B|name opt l F|name opt d Fk Dk Fv IH|ts name opt d Hc Fk Dk Fv IH
      |name opt n c attrs d Hn Hc Hd Ht Hy Hs Ha Hv IH|tag name opt n c attrs d Htag Hn Hc Hd Ht Ha Hv IH|e ts name opt l Hc He Ho Hl Hv IH]; intros w Cp.
    - exact (flat_shrink VNone w I Cp).
    - exact (flat_shrink _ _ (bears_flat _ _ B) Cp).
    - exact (flat_shrink _ _ (bears_flat _ _ B) Cp).
    - inversion Cp as [| | | | | | |t v0 w0 Cv| | |]; subst. apply co_tagged. exact (flat_shrink _ _ (bears_flat _ _ B) Cv).
    - inversion Cp as [| | | | | | | |l0 l' L H| |]; subst. apply co_list; [exact L|]. intros i x y Hx Hy. rewrite Forall_forall in F.
      exact (flat_shrink _ _ (lone_flat _ (F x (nth_error_In _ _ Hx))) (H i x y Hx Hy)).
    - inversion Cp as [| | | | | | | | |d0 d' L H|]; subst. apply co_dict; [exact L|]. intros i x y Hx Hy.
      pose proof (nth_error_In _ _ Hx) as J. apply in_map_iff in J. destruct J as (e & <- & J). exact (IH e J y (H i _ y Hx Hy)).
    - inversion Cp as [| | | | | | | | |d0 d' L H|]; subst. apply co_dict; [exact L|]. intros i x y Hx Hy.
      pose proof (nth_error_In _ _ Hx) as J. apply in_map_iff in J. destruct J as (e & <- & J). exact (IH e J y (H i _ y Hx Hy)).
    - inversion Cp as [| | | | | | | | | |n0 n' c0 at0 at' d0 Hb H1 H2 H3 H4 H5 H6 H7]; subst.
      assert (E : nth_error (h ++ made) n = Some (HCls c attrs)) by (rewrite nth_error_app1; [exact Hn|apply nth_error_Some; rewrite Hn; discriminate]).
      rewrite E in H1. apply Some_inj in H1. injection H1 as <- <-. rewrite Hc in H3. apply Some_inj in H3. subst d0.
      apply (co_obj _ _ _ _ n n' c attrs at' d Hb Hn H2 Hc H4); [|exact H6|exact H7]. intros a m x y Hi Gx Gy. exact (IH a m x Hi Gx y (H5 a m x y Hi Gx Gy)).
    - inversion Cp as [| | | | | | | | | |n0 n' c0 at0 at' d0 Hb H1 H2 H3 H4 H5 H6 H7]; subst.
      assert (E : nth_error (h ++ made) n = Some (HCls c attrs)) by (rewrite nth_error_app1; [exact Hn|apply nth_error_Some; rewrite Hn; discriminate]).
      rewrite E in H1. apply Some_inj in H1. injection H1 as <- <-. rewrite Hc in H3. apply Some_inj in H3. subst d0.
      apply (co_obj _ _ _ _ n n' c attrs at' d Hb Hn H2 Hc H4); [|exact H6|exact H7]. intros a m x y Hi Gx Gy. exact (IH a m x Hi Gx y (H5 a m x y Hi Gx Gy)).
    - inversion Cp as [| | | | | | | |l0 l' L H| |]; subst. apply co_list; [exact L|]. intros i x y Hx Hy. exact (IH x (nth_error_In _ _ Hx) y (H i x y Hx Hy)).
  Qed.
End Shrink.

(* ---- what is read of a message depends only on the values in it ---- *)
Section Weaken.
  Context (h : list hobj) (same same' : value -> value -> Prop).
  Lemma has_imp cls (l l' : list (String.string * (value -> Prop))) v :
    Forall2 (fun f f' : String.string * (value -> Prop) => fst f = fst f' /\ forall w, snd f w -> snd f' w) l l' -> has h cls l v -> has h cls l' v.
  Proof.
    intros F (n & attrs & -> & Hn & G). exists n, attrs. split; [reflexivity|]. split; [exact Hn|]. revert G.
    induction F as [|f f' l l' (E1 & E2) F IH]; intros G; [constructor|]. constructor; [|exact (IH (Forall_inv_tail G))].
    destruct (Forall_inv G) as (w & Gw & Pw). exists w. split; [rewrite <- E1; exact Gw|exact (E2 w Pw)].
  Qed.
  Lemma all_imp {A} (P Q : A -> value -> Prop) l v : (forall a w, In a l -> P a w -> Q a w) -> all P l v -> all Q l v.
  Proof.
    intros H (vs & -> & F). exists vs. split; [reflexivity|]. induction F as [|a w l vs Pa F IH]; [constructor|].
    constructor; [exact (H a w (or_introl eq_refl) Pa)|]. apply IH. intros a' w' Ha. exact (H a' w' (or_intror Ha)).
  Qed.
  Local Ltac alike := split; [reflexivity|let w := fresh in let Hw := fresh in intros w Hw; exact Hw].
  Local Ltac fields := repeat (apply Forall2_cons; [cbn [fst snd]; first [alike|split; [reflexivity|]]|]); [..|apply Forall2_nil].
  Lemma command_weaken c v : (forall a w, In a (c_args c) -> same (snd a) w -> same' (snd a) w) -> command_read h same c v -> command_read h same' c v.
  Proof.
    intros H. apply has_imp. fields. intros w. apply all_imp. intros a x Ha. apply has_imp. fields. exact (fun y => H a y Ha).
  Qed.
  Lemma commands_weaken s v : (forall c a w, In c s -> In a (c_args c) -> same (snd a) w -> same' (snd a) w) -> all (command_read h same) s v -> all (command_read h same') s v.
  Proof. intros H. apply all_imp. intros c w Hc. apply command_weaken. intros a x. exact (H c a x Hc). Qed.
  Lemma start_weaken p q ap ss v : (forall s c a w, In s ss -> In c s -> In a (c_args c) -> same (snd a) w -> same' (snd a) w) ->
    start_read h same p q ap ss v -> start_read h same' p q ap ss v.
  Proof.
    intros H. apply has_imp. fields. intros w (first & rest & S1 & P). exists first, rest. split; [|exact P]. clear P.
    destruct ss as [|s [|s2 ss]]; [exact S1| |].
    - destruct S1 as (A & B). split; [|exact B]. revert A. apply commands_weaken. intros c a x. exact (H s c a x (or_introl eq_refl)).
    - destruct S1 as (A & B). split; [revert A; apply commands_weaken; intros c a x; exact (H s c a x (or_introl eq_refl))|].
      revert B. apply all_imp. intros t x Ht. apply has_imp. fields. intros y. apply commands_weaken. intros c a z. exact (H t c a z Ht).
  Qed.
  Lemma open_weaken p a v : (forall w, same a w -> same' a w) -> open_read h same p a v -> open_read h same' p a v.
  Proof. intros H. apply has_imp. fields. exact H. Qed.
End Weaken.
