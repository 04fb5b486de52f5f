(* C72: reading what the serializer writes about a host *)
From Verif Require Import Base BaseProofs Lit NumModel NumProofs TextModel XmlModel SerModel SerClasses SendClasses ObjModel StartModel StartProofs FormSpec FormProofs FormProofs2 PeerSpec ScreenSpec.
From Verif Require TextProofs2 SerProofs.
Require Import Lia.
Local Open Scope list_scope.

Section Screen.
  Context (ci : option cipher) (show : value -> list N) (heap : list hobj).
  Notation ser := (ser ci show sending heap).

  Lemma ser_shape fuel v m st ox m' st' : ser fuel v m st = Ok (ox, m', st') -> ox = None \/ exists y, ox = Some (named m y).
  Proof.
    destruct fuel as [|fuel]; intros H; [discriminate H|]. cbn [SerModel.ser] in H.
    assert (KK : forall t v1, (if negb (existsb (str_eqb t) known_tags) then Err KeyError
      else match v1 with
        | VNone => if m_optional m then Ok (None, set_tag t m, st) else Ok (Some (named m (Elem (lit "Nil") [] None [])), set_tag t m, st)
        | _ => match pack_text ci show (set_tag t m) t v1 with
               | Some r => do s <- r; Ok (Some (named m (Elem t [] (Some s) [])), set_tag t m, st)
               | None => do '(x, m2, st1) <- pack_struct sending heap (ser fuel) t (set_tag t m) v1 st; Ok (Some (named m x), m2, st1)
               end
        end) = Ok (ox, m', st') -> ox = None \/ exists y, ox = Some (named m y)).
    { intros t v1 E. destruct (negb (existsb (str_eqb t) known_tags)); [discriminate E|].
      assert (K' : match pack_text ci show (set_tag t m) t v1 with
               | Some r => do s <- r; Ok (Some (named m (Elem t [] (Some s) [])), set_tag t m, st)
               | None => do '(x, m2, st1) <- pack_struct sending heap (ser fuel) t (set_tag t m) v1 st; Ok (Some (named m x), m2, st1)
               end = Ok (ox, m', st') -> ox = None \/ exists y, ox = Some (named m y)).
      { clear E. intros E. destruct (pack_text ci show (set_tag t m) t v1) as [r|].
        - apply bind_ok in E. destruct E as (s & _ & E). apply Ok_pair_inj in E. destruct E as (E & _). apply pair_inj in E. destruct E as (<- & _). right. eexists. reflexivity.
        - apply bind_ok in E. destruct E as (((x & m2) & st1) & H1 & E). apply Ok_pair_inj in E. destruct E as (E & _). apply pair_inj in E. destruct E as (<- & _). right. eexists. reflexivity. }
      destruct v1; try exact (K' E). destruct (m_optional m); apply Ok_pair_inj in E; destruct E as (E & _); apply pair_inj in E; destruct E as (<- & _); [left; reflexivity|right; eexists; reflexivity]. }
    destruct v; try (match type of H with (let '(_, _) := ?p in _) = _ => destruct p as (t, v1) end; exact (KK t v1 H)).
    apply Ok_pair_inj in H. destruct H as (H & _). apply pair_inj in H. destruct H as (<- & _). right. eexists. reflexivity.
  Qed.

  (* ---- the leaves ---- *)
  Lemma leaf_step tag v s fuel m st ox m' st' : shows ci tag v s ->
    m_tag m = lit tag \/ (m_tag m = star /\ tag_of_value heap v = lit tag) -> ser fuel v m st = Ok (ox, m', st') ->
    ox = Some (Elem (lit tag) (naming (m_name m)) (Some s) []) /\ st' = st.
  Proof.
    intros Sh T H. destruct fuel as [|fuel]; [discriminate H|]. cbn [SerModel.ser] in H.
    destruct (text_written ci show tag v s (set_tag (lit tag) m) Sh) as (E1 & E2 & E3 & E4).
    assert (K : (let m1 := set_tag (lit tag) m in
      if negb (existsb (str_eqb (lit tag)) known_tags) then Err KeyError
      else match v with
        | VNone => if m_optional m then Ok (None, m1, st) else Ok (Some (named m (Elem (lit "Nil") [] None [])), m1, st)
        | _ => match pack_text ci show m1 (lit tag) v with
               | Some r => do s <- r; Ok (Some (named m (Elem (lit tag) [] (Some s) [])), m1, st)
               | None => do '(x, m2, st1) <- pack_struct sending heap (ser fuel) (lit tag) m1 v st; Ok (Some (named m x), m2, st1)
               end
        end) = Ok (ox, m', st') -> ox = Some (Elem (lit tag) (naming (m_name m)) (Some s) []) /\ st' = st).
    { cbv zeta. rewrite E1. cbn [negb]. rewrite E2. intros K. assert (K2 : Ok (Some (named m (Elem (lit tag) [] (Some s) [])), set_tag (lit tag) m, st) = Ok (ox, m', st')) by (destruct v; first [contradiction|exact K]).
      apply Ok_pair_inj in K2. destruct K2 as (K2 & ->). apply pair_inj in K2. destruct K2 as (<- & _). split; [|reflexivity]. rewrite named_plain. reflexivity. }
    apply K. destruct T as [T|(T & T2)].
    - assert (Ns : str_eqb (m_tag m) star = false) by (rewrite T; clear - Sh; inversion Sh as [|? ? Hi| | | | | | ]; try reflexivity; cbn [In] in Hi; destruct Hi as [<-|[<-|[<-|[]]]]; reflexivity).
      rewrite Ns in H. rewrite T in H. destruct v; try exact H. exfalso. exact (E4 _ eq_refl).
    - rewrite T in H. change (str_eqb star star) with true in H. cbv iota in H. destruct v; try (rewrite T2 in H; exact H); [|exfalso; exact (E4 _ eq_refl)].
      clear - Sh. inversion Sh.
  Qed.

  (* ---- instances of classes with extended properties alone ---- *)
  Lemma members_obj a xs : members (Elem (lit "Obj") a None [Elem (lit "MS") [] None xs]) = xs.
  Proof. unfold members. cbn [x_children flat_map x_tag]. change (str_eqb (lit "MS") (lit "MS")) with true. cbv iota. apply app_nil_r. Qed.

  Definition bare (c : list N) (attrs : list (list N * value)) : Prop :=
    sknown c = true /\ cd_types (sdescribed c) = [] /\ cd_text (sdescribed c) attrs = Ok VNone /\ cd_sets (sdescribed c) = [] /\ cd_adapted (sdescribed c) = [] /\ cd_extended (sdescribed c) <> [].
  Lemma class_step c attrs n fuel m st ox m' st' : nth_error heap n = Some (HCls c attrs) -> bare c attrs -> m_tag m = lit "Obj" \/ m_tag m = star -> ser fuel (VObj n) m st = Ok (ox, m', st') ->
    exists f id xs, fuel = S f /\ ser_attrs (ser f) attrs (cd_extended (sdescribed c)) (snd (take_id st)) = Ok (xs, st') /\
      ox = Some (Elem (lit "Obj") ((lit "RefId", dec id) :: naming (m_name m)) None [Elem (lit "MS") [] None xs]).
  Proof.
    intros Hn (B1 & B2 & B3 & B4 & B5 & B6) T H. apply sdescribed_ok in B1. destruct fuel as [|f]; [discriminate H|]. cbn [SerModel.ser] in H.
    assert (K : (do '(x, m2, st1) <- pack_struct sending heap (ser f) (lit "Obj") (set_tag (lit "Obj") m) (VObj n) st; Ok (Some (named m x), m2, st1)) = Ok (ox, m', st')).
    { destruct T as [T|T]; rewrite T in H; [change (str_eqb (lit "Obj") star) with false in H; exact H|]. change (str_eqb star star) with true in H. cbv iota in H. cbn [tag_of_value] in H. rewrite Hn in H. exact H. }
    clear H. apply bind_ok in K. destruct K as (((x & m2) & st1) & H & E). apply Ok_pair_inj in E. destruct E as (E & ->). apply pair_inj in E. destruct E as (<- & _).
    unfold pack_struct in H. change (str_eqb (lit "Obj") (lit "Obj")) with true in H. cbv iota in H. apply bind_ok in H. destruct H as ((y & st2) & H & E). apply Ok_pair_inj in E. destruct E as (E & ->). apply pair_inj in E. destruct E as (-> & _).
    unfold ser_obj in H. destruct (take_id st) as (id & st0) eqn:Et. rewrite Hn, B1 in H. rewrite B2, B3, B4, B5 in H. cbn [create_tn_if bind to_string_elem ser_attrs] in H.
    apply bind_ok in H. destruct H as ((ms & st3) & H1 & H). cbn [ser_group] in H. cbn [bind] in H. apply Ok_pair_inj in H. destruct H as (<- & <-).
    unfold ser_group in H1. destruct (cd_extended (sdescribed c)) as [|e l] eqn:E; [contradiction|]. apply bind_ok in H1. destruct H1 as ((xs & st4) & H1 & E2). apply Ok_pair_inj in E2. destruct E2 as (<- & <-).
    exists f, id, xs. split; [reflexivity|]. split; [exact H1|]. cbn [app]. rewrite named_obj. reflexivity.
  Qed.

  (* ---- properties one after another ---- *)
  Lemma attrs_cons rec attrs a m props st xs st' : ser_attrs rec attrs ((a, m) :: props) st = Ok (xs, st') ->
    exists v ys zs st1, dict_get str_eqb a attrs = Some v /\ create_obj rec v None (Some m) st = Ok (ys, st1) /\ ser_attrs rec attrs props st1 = Ok (zs, st') /\ xs = ys ++ zs.
  Proof.
    cbn [ser_attrs]. destruct (dict_get str_eqb a attrs) as [v|]; intros H; [|discriminate H]. apply bind_ok in H. destruct H as ((ys & st1) & H1 & H). apply bind_ok in H. destruct H as ((zs & st2) & H2 & H).
    apply Ok_pair_inj in H. destruct H as (<- & <-). exists v, ys, zs, st1. auto.
  Qed.
  Lemma attrs_nil rec attrs st xs st' : ser_attrs rec attrs [] st = Ok (xs, st') -> xs = [] /\ st' = st.
  Proof. intros H. apply Ok_pair_inj in H. destruct H as (<- & <-). auto. Qed.
  Lemma create_leaf tag v s fuel m st ys st1 : shows ci tag v s -> m_tag m = lit tag \/ (m_tag m = star /\ tag_of_value heap v = lit tag) -> create_obj (ser fuel) v None (Some m) st = Ok (ys, st1) ->
    ys = [Elem (lit tag) (naming (m_name m)) (Some s) []] /\ st1 = st.
  Proof.
    intros Sh T H. unfold create_obj in H. assert (E : match v with VObj n => find_ref n (s_objs st) | _ => None end = None) by (destruct v; try reflexivity; exfalso; clear - Sh; inversion Sh). rewrite E in H.
    apply bind_ok in H. destruct H as (((ox & m') & st2) & H & E2). apply Ok_pair_inj in E2. destruct E2 as (<- & <-). destruct (leaf_step _ _ _ _ _ _ _ _ _ Sh T H) as (-> & ->). split; reflexivity.
  Qed.
  Lemma create_keyed z fuel k st ys st1 : create_obj (ser fuel) (VInt z) (Some k) None st = Ok (ys, st1) -> ys = [Elem (lit "I32") [(lit "N", k)] (Some (py_str z)) []] /\ st1 = st.
  Proof.
    intros H. apply bind_ok in H. destruct H as (((ox & m') & st2) & H & E2). apply Ok_pair_inj in E2. destruct E2 as (<- & <-).
    destruct (leaf_step "I32" (VInt z) (py_str z) fuel (object_meta star (Some k)) st _ _ _ (sh_int ci "I32" z (or_introl eq_refl)) (or_intror (conj eq_refl eq_refl)) H) as (-> & ->). split; reflexivity.
  Qed.
  Lemma create_new n fuel m st ys st1 : find_ref n (s_objs st) = None -> create_obj (ser fuel) (VObj n) None (Some m) st = Ok (ys, st1) -> exists ox m', ser fuel (VObj n) m st = Ok (ox, m', st1) /\ ys = opt_list ox.
  Proof. intros F H. unfold create_obj in H. rewrite F in H. apply bind_ok in H. destruct H as (((ox & m') & st2) & H & E2). apply Ok_pair_inj in E2. destruct E2 as (<- & <-). exists ox, m'. auto. Qed.

  (* ---- generic objects ---- *)
  Definition fresh (k : nat) (st : sst) : Prop := Forall (fun e => (snd e < k)%nat) (s_objs st).
  Lemma fresh_none k st : fresh k st -> find_ref k (s_objs st) = None.
  Proof.
    unfold fresh. induction (s_objs st) as [|(id, n) l IH]; intros F; [reflexivity|]. cbn [find_ref]. pose proof (Forall_inv F) as Hn. cbn [snd] in Hn.
    destruct (Nat.eqb k n) eqn:E; [apply Nat.eqb_eq in E; lia|]. exact (IH (Forall_inv_tail F)).
  Qed.
  Lemma fresh_more k k' st : fresh k st -> (k <= k')%nat -> fresh k' st.
  Proof. intros F L. unfold fresh in *. rewrite Forall_forall in *. intros e He. specialize (F e He). lia. Qed.
  Lemma fresh_register k id n st : fresh k st -> (n < k)%nat -> fresh k (register id n st).
  Proof.
    intros F L. unfold fresh, register. cbn [s_objs]. apply SerProofs.Forall_dict_set; [exact F|exact L].
  Qed.
  Lemma dynamic_step n l fuel m st ox m' st' : nth_error heap n = Some (HGen (mkG [] VNone [] [] l)) -> l <> [] -> m_tag m = lit "ObjDynamic" -> ser fuel (VObj n) m st = Ok (ox, m', st') ->
    exists f id xs, fuel = S f /\ ser_named (ser f) (sort_keys l) (register id n (snd (take_id st))) = Ok (xs, st') /\
      ox = Some (Elem (lit "Obj") ((lit "RefId", dec id) :: naming (m_name m)) None [Elem (lit "MS") [] None xs]).
  Proof.
    intros Hn Hl T H. destruct fuel as [|f]; [discriminate H|]. cbn [SerModel.ser] in H. rewrite T in H. change (str_eqb (lit "ObjDynamic") star) with false in H. cbv iota zeta in H.
    change (negb (existsb (str_eqb (lit "ObjDynamic")) known_tags)) with false in H. change (pack_text ci show (set_tag (lit "ObjDynamic") m) (lit "ObjDynamic") (VObj n)) with (@None (res (list N))) in H. cbv iota in H.
    apply bind_ok in H. destruct H as (((x & m2) & st1) & H & E). apply Ok_pair_inj in E. destruct E as (E & ->). apply pair_inj in E. destruct E as (<- & _).
    unfold pack_struct in H. change (str_eqb (lit "ObjDynamic") (lit "Obj")) with false in H. change (str_eqb (lit "ObjDynamic") (lit "ObjDynamic")) with true in H. cbv iota in H.
    apply bind_ok in H. destruct H as ((y & st2) & H & E). apply Ok_pair_inj in E. destruct E as (E & ->). apply pair_inj in E. destruct E as (-> & _).
    unfold ser_dynamic in H. destruct (take_id st) as (id & st0) eqn:Et. rewrite Hn in H. cbn [g_types g_text g_sets g_extended g_adapted create_tn_if bind to_string_elem ser_values] in H.
    apply bind_ok in H. destruct H as ((ms & st3) & H1 & H). cbn [ser_props bind] in H. apply Ok_pair_inj in H. destruct H as (<- & <-).
    unfold ser_props in H1. destruct l as [|e l]; [contradiction|]. apply bind_ok in H1. destruct H1 as ((xs & st4) & H1 & E2). apply Ok_pair_inj in E2. destruct E2 as (<- & <-).
    exists f, id, xs. split; [reflexivity|]. split; [exact H1|]. cbn [app]. rewrite named_obj. reflexivity.
  Qed.
  Lemma two_named a b y z fuel st xs st' : ser_named (ser fuel) [(a, VInt y); (b, VInt z)] st = Ok (xs, st') ->
    xs = [Elem (lit "I32") [(lit "N", a)] (Some (py_str y)) []; Elem (lit "I32") [(lit "N", b)] (Some (py_str z)) []] /\ st' = st.
  Proof.
    cbn [ser_named]. intros H. apply bind_ok in H. destruct H as ((xs1 & st1) & H1 & H). apply create_keyed in H1. destruct H1 as (-> & ->).
    apply bind_ok in H. destruct H as ((xs2 & st2) & H2 & H). apply Ok_pair_inj in H. destruct H as (<- & <-). apply bind_ok in H2. destruct H2 as ((xs3 & st3) & H2 & H). apply create_keyed in H2. destruct H2 as (-> & ->).
    cbn [bind app] in H. apply Ok_pair_inj in H. destruct H as (<- & <-). split; reflexivity.
  Qed.
  Lemma field_int a z : field (Elem (lit "I32") [(lit "N", a)] (Some (py_str z)) []) = Some (a, z).
  Proof. unfold field, number. cbn [x_text x_tag]. change (str_eqb (lit "I32") (lit "I32")) with true. cbv iota. rewrite py_int_str. unfold attr_get. cbn [x_attrib dict_get]. rewrite str_eqb_refl. reflexivity. Qed.

  (* ---- the entries ---- *)
  Definition placed (lo : nat) (e : hentry) (v : value) (hi : nat) : Prop :=
    match e with
    | HColor z => v = VObj lo /\ hi = S lo /\ nth_error heap lo = Some (instance "_HostDefaultData._Color" [("type"%string, VStr (lit "System.ConsoleColor")); ("color"%string, VInt z); ("_to_string"%string, VNone)])
    | HCoord x y => v = VObj (S lo) /\ hi = S (S lo) /\ nth_error heap lo = Some (generic [("x"%string, VInt x); ("y"%string, VInt y)]) /\
        nth_error heap (S lo) = Some (instance "_HostDefaultData._Coordinates" [("type"%string, VStr (lit "System.Management.Automation.Host.Coordinates")); ("value"%string, VObj lo); ("_to_string"%string, VNone)])
    | HSize x y => v = VObj (S lo) /\ hi = S (S lo) /\ nth_error heap lo = Some (generic [("width"%string, VInt x); ("height"%string, VInt y)]) /\
        nth_error heap (S lo) = Some (instance "_HostDefaultData._Size" [("type"%string, VStr (lit "System.Management.Automation.Host.Size")); ("value"%string, VObj lo); ("_to_string"%string, VNone)])
    | HInt z => v = VObj lo /\ hi = S lo /\ nth_error heap lo = Some (instance "_HostDefaultData._DictValue" [("value_type"%string, VStr (lit "System.Int32")); ("value"%string, VInt z); ("_to_string"%string, VNone)])
    | HString s => v = VObj lo /\ hi = S lo /\ nth_error heap lo = Some (instance "_HostDefaultData._DictValue" [("value_type"%string, VStr (lit "System.String")); ("value"%string, VStr s); ("_to_string"%string, VNone)])
    end.
  Definition shown (e : hentry) : list N * told :=
    match e with
    | HColor z => (console_color, Number z)
    | HCoord x y => coordinates (x, y)
    | HSize x y => size (x, y)
    | HInt z => (lit "System.Int32", Number z)
    | HString s => (lit "System.String", Text s)
    end.
  Definition plain_entry (e : hentry) : Prop := match e with HString s => peer_reads (serialize_string s) = s | _ => True end.
  Lemma typed_read a ty x d : called (lit "T") x = false -> called (lit "V") x = true -> peer_reads (serialize_string ty) = ty -> datum x = Some d ->
    typed_datum (Elem (lit "Obj") a None [Elem (lit "MS") [] None [Elem (lit "S") [(lit "N", lit "T")] (Some (serialize_string ty)) []; x]]) = Some (ty, d).
  Proof.
    intros H1 H2 H3 H4. unfold typed_datum, member. rewrite members_obj. cbn [find]. change (called (lit "T") (Elem (lit "S") [(lit "N", lit "T")] (Some (serialize_string ty)) [])) with true.
    change (called (lit "V") (Elem (lit "S") [(lit "N", lit "T")] (Some (serialize_string ty)) [])) with false. cbv iota. rewrite H2. unfold word. cbn [x_text x_tag]. change (str_eqb (lit "S") (lit "S")) with true. cbv iota.
    rewrite H3, H4. reflexivity.
  Qed.
  Lemma number_int a z : number (Elem (lit "I32") a (Some (py_str z)) []) = Some z.
  Proof. unfold number. cbn [x_text x_tag]. change (str_eqb (lit "I32") (lit "I32")) with true. cbv iota. rewrite py_int_str. reflexivity. Qed.
  Lemma datum_int a z : datum (Elem (lit "I32") a (Some (py_str z)) []) = Some (Number z).
  Proof. unfold datum. cbn [x_tag]. change (str_eqb (lit "I32") (lit "I32")) with true. cbv iota. rewrite number_int. reflexivity. Qed.
  Lemma datum_text a s : peer_reads (serialize_string s) = s -> datum (Elem (lit "S") a (Some (serialize_string s)) []) = Some (Text s).
  Proof. intros H. unfold datum, word. cbn [x_tag x_text]. change (str_eqb (lit "S") (lit "I32")) with false. change (str_eqb (lit "S") (lit "S")) with true. cbv iota. rewrite H. reflexivity. Qed.
  Lemma datum_fields a k1 z1 k2 z2 : datum (Elem (lit "Obj") a None [Elem (lit "MS") [] None [Elem (lit "I32") [(lit "N", k1)] (Some (py_str z1)) []; Elem (lit "I32") [(lit "N", k2)] (Some (py_str z2)) []]]) = Some (Fields [(k1, z1); (k2, z2)]).
  Proof.
    unfold datum. cbn [x_tag]. change (str_eqb (lit "Obj") (lit "I32")) with false. change (str_eqb (lit "Obj") (lit "S")) with false. change (str_eqb (lit "Obj") (lit "Obj")) with true. cbv iota.
    rewrite members_obj. cbn [every]. rewrite !field_int. reflexivity.
  Qed.
  Definition value_meta : meta := object_meta star (Some (lit "Value")).
  Ltac given H := apply attrs_cons in H; let v := fresh "v" in let ys := fresh "ys" in let zs := fresh "zs" in let s1 := fresh "s1" in let E := fresh "E" in let C := fresh "C" in
    destruct H as (v & ys & zs & s1 & E & C & H & ->); apply Some_inj in E; subst v.
  Ltac end_ H := apply attrs_nil in H; let E := fresh "E" in destruct H as (-> & E).
  Ltac described c l H := change (cd_extended (sdescribed (lit c))) with l in H.
  Ltac bared := repeat split; try reflexivity; discriminate.

  Lemma type_first ty fuel st ys st1 : create_obj (ser fuel) (VStr ty) None (Some (pm "S" "T" false)) st = Ok (ys, st1) -> ys = [Elem (lit "S") [(lit "N", lit "T")] (Some (serialize_string ty)) []] /\ st1 = st.
  Proof. intros H. exact (create_leaf "S" (VStr ty) _ fuel (pm "S" "T" false) st ys st1 (sh_text ci ty) (or_introl eq_refl) H). Qed.
  Lemma entry_read e lo hi v : placed lo e v hi -> plain_entry e -> forall fuel st ox m' st', ser fuel v value_meta st = Ok (ox, m', st') -> fresh lo st ->
    exists x, ox = Some x /\ attr_get (lit "N") x = Some (lit "Value") /\ typed_datum x = Some (shown e) /\ fresh hi st'.
  Proof.
    intros P Pe fuel st ox m' st' H F. destruct e as [z|x y|x y|z|s]; cbn [placed] in P.
    - destruct P as (-> & -> & Hn). destruct (class_step _ _ _ fuel value_meta st _ _ _ Hn ltac:(bared) (or_intror eq_refl) H) as (f & id & xs & -> & A & ->). eexists. split; [reflexivity|]. split; [reflexivity|].
      described "_HostDefaultData._Color" [(lit "type", pm "S" "T" false); (lit "color", pm "I32" "V" false)] A. given A. apply type_first in C. destruct C as (-> & ->). given A.
      apply (create_leaf "I32" (VInt z) (py_str z) _ (pm "I32" "V" false) _ _ _ (sh_int ci "I32" z (or_introl eq_refl)) (or_introl eq_refl)) in C. destruct C as (-> & ->). end_ A. cbn [app].
      split; [apply typed_read; [reflexivity|reflexivity|vm_compute; reflexivity|apply datum_int]|]. rewrite E. exact (fresh_more lo (S lo) st F ltac:(lia)).
    - destruct P as (-> & -> & Hg & Hn). destruct (class_step _ _ _ fuel value_meta st _ _ _ Hn ltac:(bared) (or_intror eq_refl) H) as (f & id & xs & -> & A & ->). eexists. split; [reflexivity|]. split; [reflexivity|].
      described "_HostDefaultData._Coordinates" [(lit "type", pm "S" "T" false); (lit "value", Meta KPlain (lit "ObjDynamic") (Some (lit "V")) false (Some generic_name))] A. given A. apply type_first in C. destruct C as (-> & ->). given A.
      apply create_new in C; [|exact (fresh_none lo st F)]. destruct C as (oy & m1 & C & ->). destruct (dynamic_step lo _ _ (Meta KPlain (lit "ObjDynamic") (Some (lit "V")) false (Some generic_name)) _ _ _ _ Hg ltac:(discriminate) eq_refl C) as (f2 & id2 & xs2 & -> & D & ->).
      change (sort_keys (map (fun e => (lit (fst e), snd e)) [("x"%string, VInt x); ("y"%string, VInt y)])) with [(lit "x", VInt x); (lit "y", VInt y)] in D. apply two_named in D. destruct D as (-> & ->). end_ A. cbn [opt_list app].
      split; [apply typed_read; [reflexivity|reflexivity|vm_compute; reflexivity|apply datum_fields]|]. rewrite E. apply fresh_register; [exact (fresh_more lo (S (S lo)) st F ltac:(lia))|lia].
    - destruct P as (-> & -> & Hg & Hn). destruct (class_step _ _ _ fuel value_meta st _ _ _ Hn ltac:(bared) (or_intror eq_refl) H) as (f & id & xs & -> & A & ->). eexists. split; [reflexivity|]. split; [reflexivity|].
      described "_HostDefaultData._Size" [(lit "type", pm "S" "T" false); (lit "value", Meta KPlain (lit "ObjDynamic") (Some (lit "V")) false (Some generic_name))] A. given A. apply type_first in C. destruct C as (-> & ->). given A.
      apply create_new in C; [|exact (fresh_none lo st F)]. destruct C as (oy & m1 & C & ->). destruct (dynamic_step lo _ _ (Meta KPlain (lit "ObjDynamic") (Some (lit "V")) false (Some generic_name)) _ _ _ _ Hg ltac:(discriminate) eq_refl C) as (f2 & id2 & xs2 & -> & D & ->).
      change (sort_keys (map (fun e => (lit (fst e), snd e)) [("width"%string, VInt x); ("height"%string, VInt y)])) with [(lit "height", VInt y); (lit "width", VInt x)] in D. apply two_named in D. destruct D as (-> & ->). end_ A. cbn [opt_list app].
      split; [apply typed_read; [reflexivity|reflexivity|vm_compute; reflexivity|apply datum_fields]|]. rewrite E. apply fresh_register; [exact (fresh_more lo (S (S lo)) st F ltac:(lia))|lia].
    - destruct P as (-> & -> & Hn). destruct (class_step _ _ _ fuel value_meta st _ _ _ Hn ltac:(bared) (or_intror eq_refl) H) as (f & id & xs & -> & A & ->). eexists. split; [reflexivity|]. split; [reflexivity|].
      described "_HostDefaultData._DictValue" [(lit "value_type", pm "S" "T" false); (lit "value", pm "*" "V" false)] A. given A. apply type_first in C. destruct C as (-> & ->). given A.
      apply (create_leaf "I32" (VInt z) (py_str z) _ (pm "*" "V" false) _ _ _ (sh_int ci "I32" z (or_introl eq_refl)) (or_intror (conj eq_refl eq_refl))) in C. destruct C as (-> & ->). end_ A. cbn [app].
      split; [apply typed_read; [reflexivity|reflexivity|vm_compute; reflexivity|apply datum_int]|]. rewrite E. exact (fresh_more lo (S lo) st F ltac:(lia)).
    - destruct P as (-> & -> & Hn). destruct (class_step _ _ _ fuel value_meta st _ _ _ Hn ltac:(bared) (or_intror eq_refl) H) as (f & id & xs & -> & A & ->). eexists. split; [reflexivity|]. split; [reflexivity|].
      described "_HostDefaultData._DictValue" [(lit "value_type", pm "S" "T" false); (lit "value", pm "*" "V" false)] A. given A. apply type_first in C. destruct C as (-> & ->). given A.
      apply (create_leaf "S" (VStr s) (serialize_string s) _ (pm "*" "V" false) _ _ _ (sh_text ci s) (or_intror (conj eq_refl eq_refl))) in C. destruct C as (-> & ->). end_ A. cbn [app].
      split; [apply typed_read; [reflexivity|reflexivity|vm_compute; reflexivity|apply datum_text; exact Pe]|]. rewrite E. exact (fresh_more lo (S lo) st F ltac:(lia)).
  Qed.

  (* ---- the dictionary ---- *)
  Inductive chain : nat -> list hentry -> list value -> nat -> Prop :=
  | ch_nil : forall lo, chain lo [] [] lo
  | ch_cons : forall lo e v mid es vs hi, placed lo e v mid -> chain mid es vs hi -> chain lo (e :: es) (v :: vs) hi.
  Definition key_meta : meta := pm "I32" "Key" false.
  Lemma key_read z fuel st ox m' st' : ser fuel (VInt z) key_meta st = Ok (ox, m', st') -> ox = Some (Elem (lit "I32") [(lit "N", lit "Key")] (Some (py_str z)) []) /\ st' = st.
  Proof. intros H. exact (leaf_step "I32" (VInt z) (py_str z) fuel key_meta st ox m' st' (sh_int ci "I32" z (or_introl eq_refl)) (or_introl eq_refl) H). Qed.
  Lemma pairs_read fuel (d : list (Z * hentry)) : forall vs lo hi, chain lo (map snd d) vs hi -> Forall plain_entry (map snd d) -> forall st xs km' vm' st',
    ser_pairs (ser fuel) key_meta value_meta (combine (map (fun e => VInt (fst e)) d) vs) st = Ok (xs, km', vm', st') -> fresh lo st ->
    every entry xs = Some (map (fun e => (fst e, shown (snd e))) d).
  Proof.
    induction d as [|(k, e) d IH]; intros vs lo hi Ch P st xs km' vm' st' H F; cbn [map combine ser_pairs] in *.
    - apply Ok_pair_inj in H. destruct H as (H & _). apply pair_inj in H. destruct H as (H & _). apply pair_inj in H. destruct H as (<- & _). reflexivity.
    - inversion Ch as [|lo' e' v mid es vs' hi' Pl Ch']; subst. cbn [combine ser_pairs fst snd] in *.
      apply bind_ok in H. destruct H as (((x & m1) & st2) & H1 & H). apply bind_ok in H. destruct H as (((y & m2) & st3) & H2 & H). apply bind_ok in H. destruct H as ((((us & m3) & m4) & st4) & H3 & H).
      apply Ok_pair_inj in H. destruct H as (H & _). apply pair_inj in H. destruct H as (H & _). apply pair_inj in H. destruct H as (<- & _).
      pose proof (plain_kept ci show sending heap _ _ _ _ _ _ _ H1 eq_refl) as K1. pose proof (plain_kept ci show sending heap _ _ _ _ _ _ _ H2 eq_refl) as K2.
      rewrite K1, K2 in H3. change (set_kind KPlain key_meta) with key_meta in H3. change (set_kind KPlain value_meta) with value_meta in H3.
      destruct (key_read _ _ _ _ _ _ H1) as (-> & ->). destruct (entry_read e lo mid v Pl (Forall_inv P) _ _ _ _ _ H2 F) as (y' & -> & N1 & T1 & F2).
      cbn [every]. rewrite (IH vs' mid hi Ch' (Forall_inv_tail P) _ _ _ _ _ H3 F2).
      assert (E : entry (Elem (lit "En") [] None (opt_list (Some (Elem (lit "I32") [(lit "N", lit "Key")] (Some (py_str k)) [])) ++ opt_list (Some y'))) = Some (k, shown e)).
      { unfold entry. cbn [x_children opt_list app find]. change (called (lit "Key") (Elem (lit "I32") [(lit "N", lit "Key")] (Some (py_str k)) [])) with true.
        change (called (lit "Value") (Elem (lit "I32") [(lit "N", lit "Key")] (Some (py_str k)) [])) with false. cbv iota. unfold called at 1. rewrite N1. rewrite str_eqb_refl. rewrite number_int, T1. reflexivity. }
      rewrite E. reflexivity.
  Qed.
  Definition data_meta : meta := Meta (KDict (pm "I32" "Key" false) (object_meta star (Some (lit "Value"))) (map lit ["System.Collections.Hashtable"; "System.Object"]%string)) (lit "DCT") (Some (lit "data")) false None.
  Lemma dict_read fuel (d : list (Z * hentry)) vs lo hi : chain lo (map snd d) vs hi -> Forall plain_entry (map snd d) -> forall st ox m' st',
    ser fuel (VTuple (combine (map (fun e => VInt (fst e)) d) vs)) data_meta st = Ok (ox, m', st') -> fresh lo st ->
    exists a tn xs, ox = Some (Elem (lit "Obj") a None [tn; Elem (lit "DCT") [] None xs]) /\ attr_get (lit "N") (Elem (lit "Obj") a None [tn; Elem (lit "DCT") [] None xs]) = Some (lit "data") /\
      str_eqb (x_tag tn) (lit "DCT") = false /\ every entry xs = Some (map (fun e => (fst e, shown (snd e))) d).
  Proof.
    intros Ch P st ox m' st' H F. destruct fuel as [|fuel]; [discriminate H|]. cbn [SerModel.ser] in H. set (dv := combine _ vs) in *.
    change (str_eqb (m_tag data_meta) star) with false in H. cbv iota zeta in H. change (m_tag data_meta) with (lit "DCT") in H.
    change (negb (existsb (str_eqb (lit "DCT")) known_tags)) with false in H. change (pack_text ci show (set_tag (lit "DCT") data_meta) (lit "DCT") (VTuple dv)) with (@None (res (list N))) in H. cbv iota in H.
    apply bind_ok in H. destruct H as (((x & m2) & st1) & H & E). apply Ok_pair_inj in E. destruct E as (E & ->). apply pair_inj in E. destruct E as (<- & _).
    change (pack_struct sending heap (ser fuel) (lit "DCT") (set_tag (lit "DCT") data_meta) (VTuple dv) st) with (ser_dct (ser fuel) data_meta (VTuple dv) st) in H.
    unfold ser_dct in H. change (m_kind data_meta) with (KDict key_meta value_meta (map lit ["System.Collections.Hashtable"; "System.Object"]%string)) in H. cbv beta iota zeta in H. destruct (take_id st) as (id & st0) eqn:Et.
    cbn [bind] in H. apply bind_ok in H. destruct H as ((tn & st2) & H1 & H). apply bind_ok in H. destruct H as ((((xs & km') & vm') & st3) & H2 & H). apply Ok_pair_inj in H. destruct H as (H & _). apply pair_inj in H. destruct H as (<- & _).
    assert (F0 : fresh lo st0) by (unfold take_id in Et; apply pair_inj in Et; destruct Et as (_ & <-); exact F).
    assert (F2 : fresh lo st2) by (cbn [map create_tn] in H1; destruct (dict_get str_eqb (lit "System.Collections.Hashtable") (s_tn st0)); apply Ok_pair_inj in H1; destruct H1 as (_ & <-); exact F0).
    assert (Tn : str_eqb (x_tag tn) (lit "DCT") = false) by (cbn [map create_tn] in H1; destruct (dict_get str_eqb (lit "System.Collections.Hashtable") (s_tn st0)); apply Ok_pair_inj in H1; destruct H1 as (<- & _); reflexivity).
    exists ((lit "RefId", dec id) :: naming (Some (lit "data"))), tn, xs. rewrite named_obj. split; [reflexivity|]. split; [reflexivity|]. split; [exact Tn|].
    exact (pairs_read fuel d vs lo hi Ch P _ _ _ _ _ H2 F2).
  Qed.

  (* ---- the host ---- *)
  Definition data_instance (d : list (Z * hentry)) (vs : list value) : hobj :=
    instance "_HostDefaultData" [("_host_dict"%string, VTuple (combine (map (fun e => VInt (fst e)) d) vs)); ("_to_string"%string, VNone)].
  Definition hosted (hs : option host) (v : value) : Prop :=
    match host_data hs with
    | None => at_ heap v (host_instance hs VNone)
    | Some d => exists w lo hi vs, at_ heap v (host_instance hs w) /\ at_ heap w (data_instance d vs) /\ chain lo (map snd d) vs hi /\ (lo <= hi)%nat
    end.
  Definition flags_told (hs : option host) (x : xml) : Prop :=
    told_flag (lit "_isHostNull") x = Some (is_host_null hs) /\ told_flag (lit "_isHostUINull") x = Some (is_host_ui_null hs) /\
    told_flag (lit "_isHostRawUINull") x = Some (is_host_raw_ui_null hs) /\ told_flag (lit "_useRunspaceHost") x = Some (use_runspace_host hs).
  Definition bool_text (b : bool) : list N := if b then lit "true" else lit "false".
  Lemma create_flag n b fuel st ys st1 : create_obj (ser fuel) (VBool b) None (Some (pm "B" n false)) st = Ok (ys, st1) -> ys = [Elem (lit "B") [(lit "N", lit n)] (Some (bool_text b)) []] /\ st1 = st.
  Proof.
    intros H. refine (create_leaf "B" (VBool b) (bool_text b) fuel (pm "B" n false) st ys st1 _ (or_introl eq_refl) H). destruct b; [apply sh_true|apply sh_false].
  Qed.
  Lemma flag_bool a b : flag (Elem (lit "B") a (Some (bool_text b)) []) = Some b.
  Proof. destruct b; reflexivity. Qed.
  Lemma host_read hs v fuel st ox m' st' opt name b : hosted hs v -> Forall plain_entry (match host_data hs with Some d => map snd d | None => [] end) ->
    ser fuel v (Meta KPlain (lit "Obj") name opt b) st = Ok (ox, m', st') -> s_objs st = [] ->
    exists x, ox = Some x /\ flags_told hs x /\ screen x = option_map (map (fun e => (fst e, shown (snd e)))) (host_data hs).
  Proof.
    intros Ho P H So. unfold hosted in Ho.
    assert (Hw : exists w n, v = VObj n /\ nth_error heap n = Some (host_instance hs w) /\
      match host_data hs with None => w = VNone | Some d => exists lo hi vs, at_ heap w (data_instance d vs) /\ chain lo (map snd d) vs hi end).
    { destruct (host_data hs) as [d|].
      - destruct Ho as (w & lo & hi & vs & (n & -> & Hn) & Aw & Ch & _). exists w, n. split; [reflexivity|]. split; [exact Hn|]. exists lo, hi, vs. auto.
      - destruct Ho as (n & -> & Hn). exists VNone, n. auto. }
    clear Ho. destruct Hw as (w & n & -> & Hn & Hw).
    destruct (class_step _ _ _ fuel (Meta KPlain (lit "Obj") name opt b) st _ _ _ Hn ltac:(bared) (or_introl eq_refl) H) as (f & id & xs & -> & A & ->). eexists. split; [reflexivity|].
    described "HostInfo" [(lit "_host_data", cm "_HostDefaultData" "_hostDefaultData" true); (lit "_is_host_null", pm "B" "_isHostNull" false);
         (lit "_is_host_ui_null", pm "B" "_isHostUINull" false); (lit "_is_host_raw_ui_null", pm "B" "_isHostRawUINull" false);
         (lit "_use_runspace_host", pm "B" "_useRunspaceHost" false)] A.
    given A. rename C into Cd. rename ys into ds. given A. apply create_flag in C. destruct C as (-> & ->). given A. apply create_flag in C. destruct C as (-> & ->). given A. apply create_flag in C. destruct C as (-> & ->).
    given A. apply create_flag in C. destruct C as (-> & ->). end_ A. clear E.
    assert (D : (forall y, In y ds -> attr_get (lit "N") y = Some (lit "_hostDefaultData")) /\
      match ds with [] => None | d :: _ => match member (lit "data") d with Some t => match find (fun c => str_eqb (x_tag c) (lit "DCT")) (x_children t) with Some c => every entry (x_children c) | None => None end | None => None end end
      = option_map (map (fun e => (fst e, shown (snd e)))) (host_data hs)).
    { destruct (host_data hs) as [d|].
      - destruct Hw as (lo & hi & vs & (k & -> & Hk) & Ch). apply create_new in Cd; [|cbn [snd take_id s_objs]; rewrite So; reflexivity]. destruct Cd as (oy & m1 & C & ->).
        destruct (class_step _ _ _ f (cm "_HostDefaultData" "_hostDefaultData" true) _ _ _ _ Hk ltac:(bared) (or_introl eq_refl) C) as (f2 & id2 & xs2 & -> & A & ->).
        described "_HostDefaultData" [(lit "_host_dict", data_meta)] A. given A. end_ A. cbn [opt_list]. rewrite app_nil_r. split; [intros y [<-|[]]; reflexivity|]. unfold member. rewrite members_obj.
        unfold create_obj in C0. apply bind_ok in C0. destruct C0 as (((oy & m2) & st2) & C0 & E2). apply Ok_pair_inj in E2. destruct E2 as (<- & _).
        destruct (dict_read f2 d vs lo hi Ch P _ _ _ _ C0) as (a & tn & es & -> & N1 & T1 & Ev); [unfold fresh; cbn [snd take_id s_objs]; rewrite So; constructor|].
        cbn [opt_list find]. unfold called at 1. rewrite N1, str_eqb_refl. cbn [x_children find]. rewrite T1. change (str_eqb (x_tag (Elem (lit "DCT") [] None es)) (lit "DCT")) with true. cbv iota. exact Ev.
      - subst w. unfold create_obj in Cd. apply bind_ok in Cd. destruct Cd as (((oy & m2) & st2) & C & E2). apply Ok_pair_inj in E2. destruct E2 as (<- & _).
        assert (E : oy = None) by (destruct f as [|f]; [discriminate C|]; apply Ok_pair_inj in C; destruct C as (C & _); apply pair_inj in C; destruct C as (<- & _); reflexivity). subst oy. split; [intros y []|reflexivity]. }
    destruct D as (D1 & D2). rewrite <- D2. clear D2 Cd Hw.
    assert (Hf : forall k l, str_eqb (lit "_hostDefaultData") k = false -> find (called k) (ds ++ l) = find (called k) l).
    { intros k l Hk. clear - D1 Hk. induction ds as [|y ds IH]; [reflexivity|]. cbn [app find]. unfold called at 1. rewrite (D1 y (or_introl eq_refl)), Hk. apply IH. intros z Hz. exact (D1 z (or_intror Hz)). }
    split.
    - unfold flags_told, told_flag, member. rewrite members_obj. rewrite !Hf by reflexivity.
      split; [exact (flag_bool _ _)|]. split; [exact (flag_bool _ _)|]. split; [exact (flag_bool _ _)|exact (flag_bool _ _)].
    - unfold screen. unfold member at 1. rewrite members_obj. destruct ds as [|d ds]; [reflexivity|]. cbn [app find]. unfold called at 1. rewrite (D1 d (or_introl eq_refl)), str_eqb_refl. reflexivity.
  Qed.
End Screen.
