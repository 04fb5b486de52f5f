From Verif Require Import Base BaseProofs Lit NumModel TextModel TextSpec TextProofs FileModel FileSpec.
Require Import Lia ZifyBool ZifyNat ZifyN.
Ltac Zify.zify_post_hook ::= Z.div_mod_to_equations.

(* ---- digests ---- *)
Lemma net_lower_digit d : (d < 16)%N -> net_lower (hex_digit d) = hex_low d /\ hex_digit d <> 45%N.
Proof. intros H. unfold net_lower, hex_digit, hex_low. destruct (N.ltb_spec d 10); [replace (N.leb 65 (48 + d) && N.leb (48 + d) 90)%bool with false by lia|replace (N.leb 65 (55 + d) && N.leb (55 + d) 90)%bool with true by lia]; lia. Qed.
Lemma same_digest b : bytes_ok b -> net_hash_text b = hexdigest_of b.
Proof.
  unfold net_hash_text, hexdigest_of. intros H.
  assert (A : forall x, (x < 256)%N -> map net_lower (filter (fun c => negb (N.eqb c 45)) (hex_of_byte x)) = [hex_low (x / 16); hex_low (x mod 16)]%N).
  { intros x Hx. unfold hex_of_byte. destruct (net_lower_digit (x / 16)%N) as [E1 D1]; [lia|]. destruct (net_lower_digit (x mod 16)%N) as [E2 D2]; [lia|].
    cbn [filter]. replace (N.eqb (hex_digit (x / 16)) 45) with false by lia. replace (N.eqb (hex_digit (x mod 16)) 45) with false by lia. cbn [negb map]. rewrite E1, E2. reflexivity. }
  induction H as [|x b Hx H IH]; [reflexivity|]. cbn [flat_map]. rewrite <- (A x Hx), <- IH. destruct b as [|y b].
  - cbn [bit_converter filter map]. rewrite app_nil_r. reflexivity.
  - change (bit_converter (x :: y :: b)) with (hex_of_byte x ++ 45%N :: bit_converter (y :: b)).
    rewrite filter_app. cbn [filter N.eqb Pos.eqb negb]. rewrite map_app. reflexivity.
Qed.
Lemma hexdigest_ascii b : bytes_ok b -> plain_ascii (hexdigest_of b).
Proof.
  unfold hexdigest_of, plain_ascii. induction 1 as [|x b Hx H IH]; [constructor|]. cbn [flat_map app].
  constructor; [unfold hex_low; destruct (N.ltb_spec (x / 16) 10); lia|]. constructor; [unfold hex_low; destruct (N.ltb_spec (x mod 16) 10); lia|]. exact IH.
Qed.
Lemma ascii_bytes b : plain_ascii b -> bytes_ok b.
Proof. unfold plain_ascii, bytes_ok. apply Forall_impl. intros c Hc. lia. Qed.

(* ---- base64 ---- *)
Lemma net_filter b : bytes_ok b -> filter (fun c => negb (net_blank c)) (b64encode b) = b64encode b.
Proof.
  intros H. assert (F : Forall (fun c => negb (net_blank c) = true) (b64encode b)).
  { destruct (b64_chars b H) as (body & pad & -> & F & P). apply Forall_app. split.
    - revert F. apply Forall_impl. intros c Hc. unfold b64_alphabet in Hc. unfold net_blank. lia.
    - clear F. destruct P as [-> |[-> | ->]]; repeat constructor. }
  induction F as [|c l Hc F IH]; [reflexivity|]. cbn [filter]. rewrite Hc. f_equal. exact IH.
Qed.
Lemma net_roundtrip b : bytes_ok b -> net_b64 (b64encode b) = Ok b.
Proof.
  intros H. unfold net_b64. rewrite (net_filter b H). revert H. 
  assert (G : forall n b, length b <= n -> bytes_ok b -> net_groups (b64encode b) = Ok b).
  { clear. induction n as [|n IH]; intros b L H; [destruct b; [reflexivity|cbn [length] in L; lia]|].
    destruct b as [|x [|y [|z b]]]; [reflexivity| | |].
    - pose proof (Forall_inv H) as Hx. cbv beta in Hx. cbn [b64encode net_groups]. rewrite !b64_value_char by lia. rewrite b64_value_pad. cbn [N.eqb Pos.eqb andb]. repeat f_equal. lia.
    - pose proof (Forall_inv H) as Hx. pose proof (Forall_inv (Forall_inv_tail H)) as Hy. cbv beta in Hx, Hy. cbn [b64encode net_groups]. rewrite !b64_value_char by lia. rewrite b64_value_pad. cbn [N.eqb Pos.eqb andb]. repeat f_equal; lia.
    - pose proof (Forall_inv H) as Hx. pose proof (Forall_inv (Forall_inv_tail H)) as Hy. pose proof (Forall_inv (Forall_inv_tail (Forall_inv_tail H))) as Hz. cbv beta in Hx, Hy, Hz.
      cbn [b64encode app net_groups]. rewrite !b64_value_char by lia. cbn [length] in L. rewrite IH; [|lia|exact (Forall_inv_tail (Forall_inv_tail (Forall_inv_tail H)))].
      cbn [bind]. repeat f_equal; lia. }
  intros H. exact (G (length b) b (le_n _) H).
Qed.

(* ---- reading ---- *)
Lemma pieces_concat n : (0 < n)%nat -> forall fuel b, (length b <= fuel)%nat -> concat (pieces fuel n b) = b.
Proof.
  intros Hn. induction fuel as [|fuel IH]; intros b L; [destruct b; [reflexivity|cbn [length] in L; lia]|].
  destruct b as [|x b]; [reflexivity|]. cbn [pieces concat]. rewrite IH; [apply firstn_skipn|]. rewrite skipn_length. cbn [length] in *. lia.
Qed.
Lemma pieces_nonempty n : (0 < n)%nat -> forall fuel b, Forall (fun d => d <> []) (pieces fuel n b).
Proof.
  intros Hn. induction fuel as [|fuel IH]; intros b; [constructor|]. destruct b as [|x b]; [constructor|]. cbn [pieces]. constructor; [|apply IH].
  destruct n; [lia|]. discriminate.
Qed.
Lemma reads_whole size content : size <> 0%Z -> concat (file_reads size content) = content /\ Forall (fun d => d <> []) (file_reads size content).
Proof.
  intros H. unfold file_reads. destruct (Z.eqb_spec size 0); [contradiction|]. destruct (Z.ltb_spec size 0).
  - destruct content; [split; [reflexivity|constructor]|]. split; [apply app_nil_r|]. constructor; [discriminate|constructor].
  - split; [apply pieces_concat; lia|apply pieces_nonempty; lia].
Qed.

Lemma str_refl s : str_eqb s s = true.
Proof. apply str_eqb_spec. reflexivity. Qed.
Lemma str_other p q : p <> q -> str_eqb p q = false.
Proof. intros H. destruct (str_eqb p q) eqn:E; [apply str_eqb_spec in E; contradiction|reflexivity]. Qed.
Lemma get_set (p : list N) (v : bytes) fs : dict_get str_eqb p (dict_set str_eqb p v fs) = Some v.
Proof. apply (dict_get_set_same str_eqb str_eqb_spec). Qed.
Lemma get_set_other (p q : list N) (v : bytes) fs : p <> q -> dict_get str_eqb p (dict_set str_eqb q v fs) = dict_get str_eqb p fs.
Proof. apply (dict_get_set_other str_eqb str_eqb_spec). Qed.
Lemma get_del (p : list N) (fs : list (list N * bytes)) : dict_get str_eqb p (dict_del str_eqb p fs) = None.
Proof. apply (dict_get_del_same str_eqb). Qed.
Lemma get_del_other (p q : list N) (fs : list (list N * bytes)) : p <> q -> dict_get str_eqb p (dict_del str_eqb q fs) = dict_get str_eqb p fs.
Proof. apply (dict_get_del_other str_eqb str_eqb_spec). Qed.

Section S.
  Context (sha1 : bytes -> bytes).
  Lemma read_loop_items total : forall reads done, (zlen (done ++ concat reads) <= total)%Z -> Forall (fun d => d <> []) reads ->
    (reads <> [] \/ done <> []) ->
    concat (read_loop sha1 total done reads) =
    map b64encode reads ++ (if Z.eqb (zlen (done ++ concat reads)) total then match reads with [] => [] | _ => [b64encode (hexdigest_of (sha1 (done ++ concat reads)))] end else []).
  Proof.
    induction reads as [|d reads IH]; intros done T F Ne.
    - cbn [read_loop map app concat]. destruct done; [destruct Ne as [Ne|Ne]; contradiction|]. destruct (Z.eqb _ _); reflexivity.
    - cbn [read_loop concat map app]. f_equal. cbn [concat] in T. rewrite app_assoc in T. pose proof (Forall_inv F) as Nd.
      assert (Dn : done ++ d <> []) by (destruct done; [exact Nd|discriminate]).
      rewrite (IH (done ++ d) T (Forall_inv_tail F) (or_intror Dn)). rewrite <- app_assoc.
      destruct reads as [|e reads].
      + cbn [concat map app]. rewrite !app_nil_r. destruct (Z.eqb _ _); rewrite ?app_nil_r; reflexivity.
      + assert (L : Z.eqb (zlen (done ++ d)) total = false).
        { pose proof (Forall_inv (Forall_inv_tail F)) as Ne'. destruct e as [|x e]; [contradiction|]. revert T. unfold zlen. cbn [concat]. rewrite !app_length. cbn [length]. lia. }
        rewrite L. cbn [app]. reflexivity.
  Qed.

  Lemma process_carry items ds : items_carry items ds -> forall last written,
    copy_process last written items =
    match rev ds with
    | [] => Ok (last, written)
    | _ => Ok (Some (List.last ds []), written ++ match last with Some b => b | None => [] end ++ concat (removelast ds))
    end.
  Proof.
    intros C. induction C as [|i d items ds E C IH]; intros last written; [reflexivity|].
    cbn [copy_process]. rewrite E. cbn [bind]. rewrite IH. destruct ds as [|e ds].
    - cbn [rev app]. destruct last; cbn [List.last removelast concat]; rewrite ?app_nil_r; reflexivity.
    - destruct (rev (d :: e :: ds)) as [|u us] eqn:R1; [apply (f_equal (@length _)) in R1; rewrite rev_length in R1; discriminate R1|].
      destruct (rev (e :: ds)) as [|v vs] eqn:R2; [apply (f_equal (@length _)) in R2; rewrite rev_length in R2; discriminate R2|].
      change (List.last (d :: e :: ds) []) with (List.last (e :: ds) []). change (removelast (d :: e :: ds)) with (d :: removelast (e :: ds)).
      cbn [concat]. destruct last; rewrite <- ?app_assoc; cbn [app]; reflexivity.
  Qed.
  Lemma process_ok items : forall last written r, copy_process last written items = Ok r -> exists ds, items_carry items ds.
  Proof.
    induction items as [|i items IH]; intros last written r H; [exists []; constructor|].
    cbn [copy_process] in H. destruct (net_b64 i) as [d|e] eqn:E; [|discriminate H]. cbn [bind] in H.
    destruct (IH _ _ _ H) as (ds & C). exists (d :: ds). constructor; assumption.
  Qed.

  Lemma script_carry h dest expand items fs ds d : items_carry items (ds ++ [d]) ->
    copy_script sha1 h dest expand items fs =
    match h_resolve h dest expand with
    | Err e => (Err e, fs)
    | Ok path =>
        if h_same h (net_hash_text (sha1 (concat ds))) (h_utf8 h d) then
          if h_delete h path then
            if h_move h path then (Ok [h_fullname h path], dict_set str_eqb path (concat ds) (dict_del str_eqb path fs))
            else (Err OtherError, dict_del str_eqb path fs)
          else (Err OtherError, fs)
        else (Err OtherError, fs)
    end.
  Proof.
    intros C. unfold copy_script. rewrite (process_carry _ _ C). rewrite rev_app_distr. cbn [rev app].
    rewrite last_last, removelast_last. reflexivity.
  Qed.

  Lemma set_del path (b : bytes) fs : now_holds path b fs (dict_set str_eqb path b (dict_del str_eqb path fs)).
  Proof.
    split; [apply get_set|]. intros p Hp. rewrite get_set_other by exact Hp.
    apply get_del_other. exact Hp.
  Qed.

  Lemma sent_items m content : (m < 81 \/ 83 < m)%Z -> bytes_ok content -> (forall b, bytes_ok b -> bytes_ok (sha1 b)) ->
    exists ds, concat ds = content /\ items_carry (copy_items sha1 (zlen content) (file_reads (buffer_size m) content)) (ds ++ [hexdigest_of (sha1 content)]).
  Proof.
    intros M H K. assert (B : buffer_size m <> 0%Z) by (unfold buffer_size; lia).
    destruct (reads_whole (buffer_size m) content B) as [W F]. unfold copy_items, read_buffer.
    assert (Kd : bytes_ok (hexdigest_of (sha1 content))) by (apply ascii_bytes, hexdigest_ascii, K, H).
    destruct (file_reads (buffer_size m) content) as [|r rs] eqn:E.
    - cbn [concat] in W. subst content. exists [[]]. split; [reflexivity|]. cbn [read_loop concat app]. 
      constructor; [reflexivity|]. constructor; [apply net_roundtrip; exact Kd|constructor].
    - rewrite read_loop_items; [|cbn [app]; rewrite W; lia|exact F|left; discriminate]. cbn [app]. rewrite W, Z.eqb_refl. exists (r :: rs). split; [exact W|].
      unfold items_carry. apply Forall2_app; [|constructor; [apply net_roundtrip; exact Kd|constructor]].
      rewrite <- W in H. clear - H. revert H. generalize (r :: rs). induction l as [|x l IH]; intros H; [constructor|]. cbn [concat] in H. unfold bytes_ok in H. apply Forall_app in H. destruct H as [H1 H2].
      cbn [map]. constructor; [apply net_roundtrip; exact H1|]. apply IH. exact H2.
  Qed.

  Lemma copy_delivers h m content dest expand fs path :
    sane h -> (forall b, bytes_ok b -> bytes_ok (sha1 b)) -> bytes_ok content -> (m < 81 \/ 83 < m)%Z ->
    h_resolve h dest expand = Ok path -> h_delete h path = true -> h_move h path = true ->
    exists fs', copy sha1 h m (zlen content) (fun size => file_reads size content) dest expand fs = (Ok (py_strip (h_fullname h path)), fs') /\
      now_holds path content fs fs'.
  Proof.
    intros [S1 S2] K H M R D V. unfold copy. destruct (sent_items m content M H K) as (ds & W & C).
    rewrite (script_carry h dest expand _ fs ds _ C), R, W. rewrite (S2 _ (hexdigest_ascii _ (K _ H))), (same_digest _ (K _ H)), S1, D, V.
    eexists. split; [reflexivity|]. apply set_del.
  Qed.

  Lemma copy_checked h dest expand items fs r fs' : copy_script sha1 h dest expand items fs = (r, fs') ->
    (forall out, r = Ok out -> exists ds d path, items_carry items (ds ++ [d]) /\ h_resolve h dest expand = Ok path /\
       h_same h (net_hash_text (sha1 (concat ds))) (h_utf8 h d) = true /\ out = [h_fullname h path] /\ now_holds path (concat ds) fs fs') /\
    (forall e, r = Err e -> (forall path, h_delete h path = true -> h_move h path = true) -> fs' = fs).
  Proof.
    intros H. destruct (copy_process None [] items) as [p|e] eqn:P.
    - destruct (process_ok _ _ _ _ P) as (ds & C). destruct ds as [|d0 ds0] eqn:Eds.
      + assert (items = []) by (inversion C; reflexivity). subst items. cbn [copy_process] in P. assert (p = (None, [])) by congruence. subst p.
        unfold copy_script in H. cbn [copy_process] in H. destruct (h_resolve h dest expand); (split; [intros out E; congruence|intros e' E _; congruence]).
      + assert (X : exists f l, d0 :: ds0 = f ++ [l]) by (exists (removelast (d0 :: ds0)), (List.last (d0 :: ds0) []); apply app_removelast_last; discriminate).
        destruct X as (f & l & X). rewrite X in C. rewrite (script_carry h dest expand items fs f l C) in H.
        destruct (h_resolve h dest expand) as [path|e] eqn:R; [|split; [intros out E; congruence|intros e' E _; congruence]].
        destruct (h_same h _ _) eqn:S; [|split; [intros out E; congruence|intros e' E _; congruence]].
        destruct (h_delete h path) eqn:D; [|split; [intros out E; congruence|intros e' E _; congruence]].
        destruct (h_move h path) eqn:V.
        * split; [|intros e' E _; congruence]. intros out E. exists f, l, path. split; [exact C|]. split; [reflexivity|]. split; [exact S|]. split; [congruence|].
          assert (fs' = dict_set str_eqb path (concat f) (dict_del str_eqb path fs)) by congruence. subst fs'. apply set_del.
        * split; [intros out E; congruence|]. intros e' E Hm. exfalso. rewrite (Hm path D) in V. discriminate V.
    - unfold copy_script in H. rewrite P in H. split; [intros out E; congruence|intros e' E _; congruence].
  Qed.
  Lemma copy_mismatch h dest expand items fs ds d : items_carry items (ds ++ [d]) ->
    h_same h (net_hash_text (sha1 (concat ds))) (h_utf8 h d) = false ->
    exists e, copy_script sha1 h dest expand items fs = (Err e, fs).
  Proof. intros C S. rewrite (script_carry h dest expand items fs ds d C), S. destruct (h_resolve h dest expand); eauto. Qed.

  (* a file that changed its size *)
  Lemma loop_tail total : forall reads done, reads <> [] -> Forall bytes_ok reads -> (forall b, bytes_ok b -> bytes_ok (sha1 b)) -> bytes_ok done -> done ++ concat reads <> [] ->
    zlen (done ++ concat reads) <> total ->
    exists ds, items_carry (concat (read_loop sha1 total done reads)) (ds ++ [List.last reads []]).
  Proof.
    induction reads as [|d reads IH]; intros done Ne F K Hd Nn T; [contradiction|].
    cbn [read_loop concat]. destruct reads as [|e reads].
    - cbn [concat] in T. rewrite app_nil_r in T. cbn [concat] in Nn. rewrite app_nil_r in Nn. destruct (Z.eqb_spec (zlen (done ++ d)) total); [contradiction|]. exists [].
      cbn [read_loop]. destruct (done ++ d); [contradiction|]. cbn [concat app List.last]. constructor; [apply net_roundtrip; exact (Forall_inv F)|constructor].
    - assert (Hd' : bytes_ok (done ++ d)) by (apply Forall_app; split; [exact Hd|exact (Forall_inv F)]).
      cbn [concat] in T, Nn. rewrite app_assoc in T, Nn.
      destruct (IH (done ++ d) ltac:(discriminate) (Forall_inv_tail F) K Hd' Nn T) as (ds & C).
      change (List.last (d :: e :: reads) []) with (List.last (e :: reads) []).
      destruct (Z.eqb (zlen (done ++ d)) total).
      + exists (d :: hexdigest_of (sha1 (done ++ d)) :: ds). cbn [app]. constructor; [apply net_roundtrip; exact (Forall_inv F)|].
        constructor; [apply net_roundtrip, ascii_bytes, hexdigest_ascii, K, Hd'|exact C].
      + exists (d :: ds). cbn [app]. constructor; [apply net_roundtrip; exact (Forall_inv F)|exact C].
  Qed.
  Lemma copy_resized h m total reads dest expand fs :
    (forall b, bytes_ok b -> bytes_ok (sha1 b)) ->
    let got := reads (buffer_size m) in
    Forall bytes_ok got -> concat got <> [] -> zlen (concat got) <> total ->
    (forall D, h_same h (net_hash_text (sha1 D)) (h_utf8 h (List.last got [])) = false) ->
    copy sha1 h m total reads dest expand fs = (Err WinRMError, fs).
  Proof.
    intros K got F Nn T S. unfold copy. fold got. 
    destruct (loop_tail total got [] ltac:(intros ->; contradiction) F K ltac:(constructor) Nn T) as (ds & C).
    destruct (copy_mismatch h dest expand (copy_items sha1 total got) fs ds _ C (S _)) as (e & E). rewrite E. reflexivity.
  Qed.

  (* ---- fetch ---- *)
  Lemma fetch_temp l dest outs failed fs : dict_get str_eqb (l_temp l) fs = None ->
    dict_get str_eqb (l_temp l) (snd (fetch sha1 l dest outs failed fs)) = None.
  Proof.
    intros T. unfold fetch. destruct failed; [exact T|]. destruct (rev outs); [exact T|].
    destruct (fetch_checked _ _ _ _ _ _) as [r fs']. cbn [snd]. apply get_del.
  Qed.
  Lemma fetch_ok l dest outs failed fs fs' : dict_get str_eqb (l_temp l) fs = None -> dest <> l_temp l ->
    (forall b n, l_write l b = Ok n -> n = length b) ->
    fetch sha1 l dest outs failed fs = (Ok tt, fs') ->
    failed = false /\ exists first b, hd_error outs = Some first /\ decode_output first = Ok b /\
      List.last outs OOther = OText (hexdigest_of (sha1 b)) /\ now_holds dest b fs fs'.
  Proof.
    intros T Nt Wf. unfold fetch. destruct failed; [discriminate|]. destruct (rev outs) as [|x xs] eqn:R; [discriminate|].
    assert (O : outs = rev xs ++ [x]) by (rewrite <- (rev_involutive outs), R; reflexivity).
    unfold fetch_checked. destruct outs as [|o outs]; [destruct (rev xs); discriminate O|].
    destruct (decode_output o) as [b|e] eqn:D; [|discriminate]. destruct (l_write l b) as [n|e] eqn:W; [|discriminate].
    destruct (output_is x (hexdigest_of (sha1 b))) eqn:Is; [|discriminate]. destruct (l_copy l) as [|[y|]]; try discriminate.
    intros E. split; [reflexivity|]. exists o, b. split; [reflexivity|]. split; [exact D|]. rewrite O, last_last. split.
    - destruct x as [t|t|]; try discriminate Is. cbn [output_is] in Is. apply str_eqb_spec in Is. rewrite Is. reflexivity.
    - assert (Efs : fs' = dict_del str_eqb (l_temp l) (dict_set str_eqb dest (firstn n b) (dict_set str_eqb (l_temp l) (firstn n b) (dict_set str_eqb (l_temp l) [] fs)))) by congruence.
      rewrite (Wf _ _ W), firstn_all in Efs. subst fs'. 
      split.
      + rewrite get_del_other by exact Nt. apply get_set.
      + intros p Hp. destruct (list_eq_dec N.eq_dec p (l_temp l)) as [->|Ht].
        * rewrite T. apply get_del.
        * rewrite get_del_other by exact Ht. rewrite !get_set_other by assumption. reflexivity.
  Qed.
  Lemma fetch_error l dest outs failed fs fs' e : dict_get str_eqb (l_temp l) fs = None ->
    (forall x, l_copy l <> CopyFailed (Some x)) ->
    fetch sha1 l dest outs failed fs = (Err e, fs') -> same_files fs fs'.
  Proof.
    intros T C. unfold fetch. 
    assert (Q : forall v, same_files fs (dict_del str_eqb (l_temp l) (dict_set str_eqb (l_temp l) v (dict_set str_eqb (l_temp l) [] fs))) /\ same_files fs (dict_del str_eqb (l_temp l) (dict_set str_eqb (l_temp l) v fs))).
    { intros v. split; intros p; (destruct (list_eq_dec N.eq_dec p (l_temp l)) as [->|Ht]; [rewrite T; apply get_del|]);
      (rewrite get_del_other by exact Ht); rewrite !get_set_other by assumption; reflexivity. }
    destruct failed; [intros E; assert (fs' = fs) by congruence; subst; intros p; reflexivity|].
    destruct (rev outs) as [|x xs]; [intros E; assert (fs' = fs) by congruence; subst; intros p; reflexivity|].
    unfold fetch_checked. destruct outs as [|o outs]; [intros E; assert (X : fs' = _) by (symmetry; exact (f_equal snd E)); rewrite X; cbn [snd]; exact (proj2 (Q []))|].
    destruct (decode_output o) as [b|e1]; [|intros E; assert (X : fs' = _) by (symmetry; exact (f_equal snd E)); rewrite X; cbn [snd]; exact (proj2 (Q []))].
    destruct (l_write l b) as [n|e1]; [|intros E; assert (X : fs' = _) by (symmetry; exact (f_equal snd E)); rewrite X; cbn [snd]; exact (proj2 (Q []))].
    destruct (output_is _ _).
    - destruct (l_copy l) as [|[y|]] eqn:Lc; [discriminate|exfalso; exact (C y eq_refl)|].
      intros E; assert (X : fs' = _) by (symmetry; exact (f_equal snd E)); rewrite X; cbn [snd]; exact (proj1 (Q _)).
    - intros E; assert (X : fs' = _) by (symmetry; exact (f_equal snd E)); rewrite X; cbn [snd]; exact (proj1 (Q _)).
  Qed.

  Lemma fetch_loop_0 offset last hashed reads : fetch_loop 0 offset last hashed reads = ([], Ok (last, hashed)).
  Proof. destruct reads; reflexivity. Qed.
  (* a first read that gets something *)
  Lemma script_first size d rest out : (0 < length d <= size)%nat -> fetch_script sha1 size (d :: rest) = (out, Ok tt) ->
    length d = size /\ out = [b64encode d; net_hash_text (sha1 d)].
  Proof.
    intros L. unfold fetch_script. destruct size as [|size]; [lia|]. cbn [fetch_loop].
    destruct (Nat.eq_dec (length d) (S size)) as [E|E].
    - rewrite E. replace (S size - S size)%nat with 0%nat by lia. rewrite fetch_loop_0. cbn [repeat]. rewrite app_nil_r. cbn [app]. intros H. split; [reflexivity|]. apply pair_inj in H. destruct H as [H _]. symmetry. exact H.
    - destruct (S size - length d)%nat as [|k] eqn:Sk; [lia|]. destruct (length d) as [|ld] eqn:Ld; [lia|]. destruct rest as [|d2 rest]; cbn [fetch_loop]; discriminate.
  Qed.
  Lemma script_full d : d <> [] -> fetch_script sha1 (length d) [d] = ([b64encode d; net_hash_text (sha1 d)], Ok tt).
  Proof.
    intros H. unfold fetch_script. destruct (length d) as [|k] eqn:L; [destruct d; [contradiction|discriminate L]|].
    cbn [fetch_loop]. rewrite L. replace (S k - S k)%nat with 0%nat by lia. cbn [repeat fetch_loop]. rewrite app_nil_r. reflexivity.
  Qed.
  Lemma fetch_whole l dest d fs : bytes_ok d -> (forall b, bytes_ok b -> bytes_ok (sha1 b)) -> dict_get str_eqb (l_temp l) fs = None -> dest <> l_temp l ->
    l_write l d = Ok (length d) -> l_copy l = CopyDone ->
    exists fs', fetch sha1 l dest (map OText [b64encode d; net_hash_text (sha1 d)]) false fs = (Ok tt, fs') /\ now_holds dest d fs fs'.
  Proof.
    intros H K T Nt W C. unfold fetch. cbn [map rev app]. unfold fetch_checked. cbn [decode_output]. rewrite (b64_roundtrip d H), W.
    cbn [output_is]. rewrite (same_digest _ (K _ H)), str_refl, C, firstn_all. eexists. split; [reflexivity|].
     split.
    - rewrite get_del_other by exact Nt. apply get_set.
    - intros p Hp. destruct (list_eq_dec N.eq_dec p (l_temp l)) as [->|Ht].
      + rewrite T. apply get_del.
      + rewrite get_del_other by exact Ht. rewrite !get_set_other by assumption. reflexivity.
  Qed.
End S.
