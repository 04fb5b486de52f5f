(* Lemmas about the dispatch of host calls and the default host. *)
From Verif Require Import Base BaseProofs Lit ShellModel HostModel HostSpec.
Require Import Lia ZifyBool ZifyNat ZifyN.

Lemma assigned_cases mi p name : assigned mi p name ->
  method_name (Some mi) = Ok name /\
  match p with OnHost => (1 <= mi <= 10)%Z | OnUI => (11 <= mi <= 26)%Z | OnRawUI => (27 <= mi <= 51)%Z end.
Proof.
  intros A. destruct A as [k s K|k s K|k s K].
  - do 10 (destruct k as [|k]; [assert (E : Some s = nth_error host_methods _) by (symmetry; exact K); cbn in E; assert (Hs := f_equal (fun o => match o with Some x => x | None => s end) E); cbn in Hs; subst s; split; [vm_compute; reflexivity|lia]|]).
    destruct k; discriminate K.
  - do 16 (destruct k as [|k]; [assert (E : Some s = nth_error ui_methods _) by (symmetry; exact K); cbn in E; assert (Hs := f_equal (fun o => match o with Some x => x | None => s end) E); cbn in Hs; subst s; split; [vm_compute; reflexivity|lia]|]).
    destruct k; discriminate K.
  - do 25 (destruct k as [|k]; [assert (E : Some s = nth_error raw_methods _) by (symmetry; exact K); cbn in E; assert (Hs := f_equal (fun o => match o with Some x => x | None => s end) E); cbn in Hs; subst s; split; [vm_compute; reflexivity|lia]|]).
    destruct k; discriminate K.
Qed.

Section D.
  Context {Val HS : Type}.
  Implicit Types (H : host Val HS) (st : HS).

  Lemma run_assigned H mi p name args pl st : assigned mi p name ->
    run_method H (Some mi) (Ok args) pl st =
    match object_at H st p with
    | Some o => match o name with Some f => f pl args st | None => (Raise (XExn AttributeError), st) end
    | None => (Raise (XExn AttributeError), st)
    end.
  Proof.
    intros A. destruct (assigned_cases _ _ _ A) as [N R]. unfold run_method, call. rewrite N. cbn [bind].
    destruct p; cbn [object_at].
    - replace (Z.ltb mi 11) with true by lia. cbn [getattr]. destruct (h_own H name); reflexivity.
    - replace (Z.ltb mi 11) with false by lia. replace (Z.ltb mi 27) with true by lia.
      destruct (h_ui H st) as [o|]; cbn [getattr bind]; [destruct (o name); reflexivity|reflexivity].
    - replace (Z.ltb mi 11) with false by lia. replace (Z.ltb mi 27) with false by lia. replace (Z.ltb mi 52) with true by lia.
      destruct (h_ui H st) as [u|]; cbn [getattr bind]; [|reflexivity]. destruct (h_raw H st) as [o|]; cbn [getattr bind]; [destruct (o name); reflexivity|reflexivity].
  Qed.

  Lemma run_above H mi args pl st : (51 < mi)%Z -> run_method H (Some mi) args pl st = (Ret None, st).
  Proof.
    intros L. unfold run_method. replace (Z.ltb mi 11) with false by lia. replace (Z.ltb mi 27) with false by lia.
    replace (Z.ltb mi 52) with false by lia. reflexivity.
  Qed.

  Lemma unnamed_low z : (z < 1)%Z -> dict_get Z.eqb z method_names = None.
  Proof.
    intros L. unfold method_names. cbn [dict_get].
    repeat (match goal with |- context [Z.eqb ?a ?b] => replace (Z.eqb a b) with false by lia end). reflexivity.
  Qed.
  Lemma run_below H mi args pl st : match mi with Some z => (z < 1)%Z | None => True end ->
    run_method H mi args pl st = (Raise (XExn KeyError), st).
  Proof.
    intros L. unfold run_method. set (z := match mi with Some z => z | None => 0%Z end).
    assert (Lz : (z < 1)%Z) by (unfold z; destruct mi; lia).
    replace (Z.ltb z 11) with true by lia. unfold call, method_name. fold z. rewrite (unnamed_low z Lz). reflexivity.
  Qed.
End D.

(* every identifier from 1 to 51 is assigned *)
Lemma assigned_total mi : (1 <= mi <= 51)%Z -> exists p name, assigned mi p name.
Proof.
  intros R. destruct (Z_lt_dec mi 11) as [A|A].
  - destruct (nth_error host_methods (Z.to_nat (mi - 1))) as [s|] eqn:E.
    + exists OnHost, (lit s). replace mi with (1 + Z.of_nat (Z.to_nat (mi - 1)))%Z by lia. now apply AHost.
    + apply nth_error_None in E. cbn in E. lia.
  - destruct (Z_lt_dec mi 27) as [B|B].
    + destruct (nth_error ui_methods (Z.to_nat (mi - 11))) as [s|] eqn:E.
      * exists OnUI, (lit s). replace mi with (11 + Z.of_nat (Z.to_nat (mi - 11)))%Z by lia. now apply AUi.
      * apply nth_error_None in E. cbn in E. lia.
    + destruct (nth_error raw_methods (Z.to_nat (mi - 27))) as [s|] eqn:E.
      * exists OnRawUI, (lit s). replace mi with (27 + Z.of_nat (Z.to_nat (mi - 27)))%Z by lia. now apply ARaw.
      * apply nth_error_None in E. cbn in E. lia.
Qed.

(* the default classes have all the methods *)
Lemma default_has version shown mi p name st : assigned mi p name ->
  exists o f, object_at (default_host version shown) st p = Some o /\ o name = Some f.
Proof.
  intros A. destruct A as [k s K|k s K|k s K]; cbn [object_at default_host h_own h_ui h_raw].
  - do 10 (destruct k as [|k]; [assert (Hs := f_equal (fun o => match o with Some x => x | None => s end) K); cbn in Hs; subst s; eexists _, _; split; [reflexivity|]; vm_compute; reflexivity|]).
    destruct k; discriminate K.
  - do 16 (destruct k as [|k]; [assert (Hs := f_equal (fun o => match o with Some x => x | None => s end) K); cbn in Hs; subst s; eexists _, _; split; [reflexivity|]; vm_compute; reflexivity|]).
    destruct k; discriminate K.
  - do 25 (destruct k as [|k]; [assert (Hs := f_equal (fun o => match o with Some x => x | None => s end) K); cbn in Hs; subst s; eexists _, _; split; [reflexivity|]; vm_compute; reflexivity|]).
    destruct k; discriminate K.
Qed.

Section W.
  Context (version : pyval -> res pyval) (shown : pyval -> res (list N)).
  Let H := default_host version shown.

  Lemma ui_call mi k s f pl args st : nth_error ui_methods k = Some s -> mi = (11 + Z.of_nat k)%Z ->
    dict_get str_eqb (lit s) (default_ui shown) = Some f -> run_method H (Some mi) (Ok args) pl st = f pl args st.
  Proof.
    intros K -> F. rewrite (run_assigned H _ OnUI (lit s) args pl st (AUi k s K)). cbn [object_at H default_host h_ui]. unfold lookup. rewrite F. reflexivity.
  Qed.
  Lemma raw_call mi k s f pl args st : nth_error raw_methods k = Some s -> mi = (27 + Z.of_nat k)%Z ->
    dict_get str_eqb (lit s) default_raw = Some f -> run_method H (Some mi) (Ok args) pl st = f pl args st.
  Proof.
    intros K -> F. rewrite (run_assigned H _ OnRawUI (lit s) args pl st (ARaw k s K)). cbn [object_at H default_host h_ui h_raw]. unfold lookup. rewrite F. reflexivity.
  Qed.

  Ltac ui k := erewrite (ui_call _ k); [|reflexivity|reflexivity|cbv [default_ui default_raw dict_get str_eqb list_eqb lit map list_ascii_of_string N_of_ascii N_of_digits N.add N.mul Pos.add Pos.mul N.eqb Pos.eqb andb]; reflexivity].
  Ltac raw k := erewrite (raw_call _ k); [|reflexivity|reflexivity|cbv [default_ui default_raw dict_get str_eqb list_eqb lit map list_ascii_of_string N_of_ascii N_of_digits N.add N.mul Pos.add Pos.mul N.eqb Pos.eqb andb]; reflexivity].

  Lemma joined_app a b x y : joined a = Some x -> joined b = Some y -> joined (a ++ b) = Some (x ++ y).
  Proof.
    revert x. induction a as [|v a IH]; intros x A B.
    - cbn in A. apply Some_inj in A. subst x. exact B.
    - cbn [app joined] in *. destruct v; try discriminate A. destruct (joined a) as [t|] eqn:Ea; [|discriminate A].
      cbn in A. apply Some_inj in A. subst x. rewrite (IH t eq_refl B). cbn. now rewrite app_assoc.
  Qed.

  (* one writing call *)
  Lemma write_once c o e pl st : writes c o e ->
    exists lo le st', run_method H (Some (fst c)) (Ok (snd c)) pl st = (Ret None, st') /\
      hs_stdout st' = hs_stdout st ++ lo /\ joined lo = Some o /\
      hs_stderr st' = hs_stderr st ++ le /\ joined le = Some e.
  Proof.
    intros W. destruct W; cbn [fst snd].
    - ui 2%nat. exists [PStr s], [], (set_hs_stdout (hs_stdout st ++ [PStr s]) st). cbn. rewrite !app_nil_r. auto.
    - ui 3%nat. exists [PStr s], [], (set_hs_stdout (hs_stdout st ++ [PStr s]) st). cbn. rewrite !app_nil_r. auto.
    - ui 4%nat. eexists [PStr _], [], (set_hs_stdout (hs_stdout st ++ [PStr _]) st). cbn. rewrite !app_nil_r. auto.
    - ui 5%nat. eexists [PStr _], [], (set_hs_stdout (hs_stdout st ++ [PStr _]) st). cbn. rewrite !app_nil_r. auto.
    - ui 6%nat. eexists [PStr _], [], (set_hs_stdout (hs_stdout st ++ [PStr _]) st). cbn. rewrite !app_nil_r. auto.
    - ui 7%nat. eexists [], [PStr _], (set_hs_stderr (hs_stderr st ++ [PStr _]) st). cbn. rewrite !app_nil_r. auto.
    - ui 8%nat. eexists [PStr _], [], (set_hs_stdout (hs_stdout st ++ [PStr _]) st). cbn. rewrite !app_nil_r. auto.
    - ui 9%nat. exists [], [], st. cbn. rewrite !app_nil_r. auto.
    - ui 10%nat. eexists [PStr _], [], (set_hs_stdout (hs_stdout st ++ [PStr _]) st). cbn. rewrite !app_nil_r. auto.
    - ui 11%nat. eexists [PStr _], [], (set_hs_stdout (hs_stdout st ++ [PStr _]) st). cbn. rewrite !app_nil_r. auto.
  Qed.

  Lemma write_all l : forall st texts, Forall2 (fun c t => writes c (fst t) (snd t)) l texts ->
    exists lo le st', run_calls version shown l st = (map (fun _ => Ret None) l, st') /\
      hs_stdout st' = hs_stdout st ++ lo /\ joined lo = Some (concat (map fst texts)) /\
      hs_stderr st' = hs_stderr st ++ le /\ joined le = Some (concat (map snd texts)).
  Proof.
    induction l as [|[mi args] l IH]; intros st texts F.
    - assert (texts = []) by (inversion F; reflexivity). subst. exists [], [], st. cbn. rewrite !app_nil_r. auto.
    - destruct texts as [|[o e] texts]; [inversion F|].
      assert (F1 : writes (mi, args) o e) by (inversion F; assumption).
      assert (F2 : Forall2 (fun c t => writes c (fst t) (snd t)) l texts) by (inversion F; assumption).
      destruct (write_once _ _ _ None st F1) as (lo & le & st1 & R & A & B & C & D). cbn [fst snd] in R.
      destruct (IH st1 texts F2) as (lo' & le' & st2 & R' & A' & B' & C' & D').
      exists (lo ++ lo'), (le ++ le'), st2. cbn [run_calls]. fold H. rewrite R, R'. split; [reflexivity|].
      rewrite A', A, C', C, !app_assoc. cbn [map concat fst snd].
      repeat split; try reflexivity; now apply joined_app.
  Qed.

  Lemma set_get s v g x pl pl' st : set_then_get s v g x ->
    exists st', run_method H (Some s) (Ok [v]) pl st = (Ret None, st') /\
      run_method H (Some g) (Ok []) pl' st' = (Ret (Some x), st').
  Proof.
    assert (P : forall o k a, dict_get str_eqb k o = Some a -> property k (PObj o) = Ok a).
    { intros o k a E. cbn [property]. rewrite E. reflexivity. }
    assert (NP : forall a, a <> PNone -> answer a = Some a) by (intros [] Q; try reflexivity; contradiction).
    intros S. destruct S as [v|v|o x y X Y|o x y X Y|v N|o w h X Y|o w h X Y|v N].
    - exists (set_hs_fore (PColor v) st). raw 1%nat. raw 0%nat. auto.
    - exists (set_hs_back (PColor v) st). raw 3%nat. raw 2%nat. auto.
    - exists (set_hs_cursor (PCoord x y) st). raw 5%nat. raw 4%nat. split; [|reflexivity]. fold (lit "x"). unfold stores_as, arity1, coordinates. rewrite (P _ _ _ X). cbn [bind]. rewrite (P _ _ _ Y). reflexivity.
    - exists (set_hs_window (PCoord x y) st). raw 7%nat. raw 6%nat. split; [|reflexivity]. unfold stores_as, arity1, coordinates. rewrite (P _ _ _ X). cbn [bind]. rewrite (P _ _ _ Y). reflexivity.
    - exists (set_hs_cursor_size v st). raw 9%nat. raw 8%nat. cbn. rewrite (NP v N). auto.
    - exists (set_hs_buffer_size (PSize w h) st). raw 11%nat. raw 10%nat. split; [|reflexivity]. unfold stores_as, arity1, size. rewrite (P _ _ _ Y). cbn [bind]. rewrite (P _ _ _ X). reflexivity.
    - exists (set_hs_window_size (PSize w h) st). raw 13%nat. raw 12%nat. split; [|reflexivity]. unfold stores_as, arity1, size. rewrite (P _ _ _ Y). cbn [bind]. rewrite (P _ _ _ X). reflexivity.
    - exists (set_hs_title v st). raw 15%nat. raw 14%nat. cbn. rewrite (NP v N). auto.
  Qed.
End W.
