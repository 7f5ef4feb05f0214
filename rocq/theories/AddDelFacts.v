(** Lemmas behind the properties of adding, deleting and stored values. *)
From Verif Require Import Base PyStr PyNum NdArray Sofa Verify Upgrade SpecAttr SpecInit SpecValue
  BaseFacts StrFacts AttrFacts OpFacts InitFacts ProtFacts.
From Coq Require Import RelationClasses.
Open Scope string_scope.
Open Scope list_scope.

(** ** assignment *)
Lemma set_attr_unknown o name v :
  prot o = true -> is_private name = false -> ~ In name class_attrs ->
  ~ In name (dkeys (pub o)) ->
  exists m, set_attr name v o = (o, [], Err (Exn ETypeError m)).
Proof.
  intros P HP HC HN. unfold set_attr, hasattr. rewrite HP, P.
  apply smem_false in HC. rewrite HC. apply dmem_false in HN. rewrite HN.
  assert (N : String.eqb name "list_dimensions" = false).
  { apply eqb_neq_s. intros ->. cbn in HC. discriminate. }
  rewrite N. cbn. eauto.
Qed.

Lemma set_attr_same_keys o name v :
  prot o = true -> ~ In name class_attrs ->
  dkeys (pub (m_obj (set_attr name v o))) = dkeys (pub o).
Proof.
  intros P HC.
  destruct (set_attr_cases name v o) as [[e H]|[[b [_ [_ H]]]|[w [_ [_ [H HP]]]]]];
    rewrite H; unfold m_obj; cbn; try reflexivity.
  destruct (HP P) as [HA _]. unfold hasattr in HA. apply smem_false in HC. rewrite HC, orb_false_r in HA.
  apply dkeys_dset_mem. apply dmem_In. exact HA.
Qed.

Lemma set_attr_err o name v e : m_res (set_attr name v o) = Err e -> m_obj (set_attr name v o) = o.
Proof.
  destruct (set_attr_cases name v o) as [[x H]|[[b [_ [_ H]]]|[w [_ [_ [H HP]]]]]];
    rewrite H; unfold m_obj, m_res; cbn; [reflexivity|discriminate|discriminate].
Qed.

Lemma del_attr_err o name e : m_res (del_attr name o) = Err e -> m_obj (del_attr name o) = o.
Proof.
  destruct (del_attr_cases name o) as [[x H]|[_ [_ [_ H]]]]; rewrite H; unfold m_obj, m_res; cbn;
    [reflexivity|discriminate].
Qed.

(** ** stored values *)
Definition not_list (v : value) : bool := match v with VList _ => false | _ => true end.

Lemma normalize_form v w : normalize v = Ok w -> not_list w = true.
Proof.
  unfold normalize. destruct v as [b s|e|a|l]; try (intro H; inversion H; reflexivity).
  - cbn. destruct e; intro H; inversion H; reflexivity.
  - intro H. apply rbind_Ok in H. destruct H as [a [_ H]].
    destruct (Nat.eqb _ 1); [|inversion H; reflexivity].
    destruct (a_data _) as [|x t]; [discriminate|]. inversion H. destruct x; reflexivity.
Qed.

Lemma normalize_idem v w : normalize v = Ok w -> normalize w = Ok w.
Proof.
  intro H. assert (F := normalize_form _ _ H).
  destruct w as [b s|e|a|l]; try reflexivity; [|discriminate].
  destruct e as [z|f|re im|b|s|s|]; try reflexivity.
  (* a numpy string is never stored as VScal *)
  exfalso. revert H. unfold normalize. destruct v as [b s'|e|a|l]; try discriminate.
  - cbn. destruct e; discriminate.
  - intro H. apply rbind_Ok in H. destruct H as [a [_ H]].
    destruct (Nat.eqb _ 1); [|inversion H].
    destruct (a_data _) as [|x t]; [discriminate|]. destruct x; inversion H.
Qed.

Lemma shape_eqb_refl s : shape_eqb s s = true.
Proof. induction s; cbn; [reflexivity|]. rewrite Nat.eqb_refl. exact IHs. Qed.

Lemma shape_eqb_eq a b : shape_eqb a b = true <-> a = b.
Proof.
  revert b. induction a as [|x a IH]; intros [|y b]; cbn; split; intro H; try reflexivity; try discriminate.
  - apply andb_true_iff in H. destruct H as [H1 H2]. apply Nat.eqb_eq in H1. apply IH in H2. congruence.
  - inversion H; subst. rewrite Nat.eqb_refl. apply shape_eqb_refl.
Qed.

Lemma dkind_eqb_refl k : dkind_eqb k k = true.
Proof. destruct k; reflexivity. Qed.

Lemma convert_same k e : elt_kind e = k -> convert k e = e.
Proof. intros <-. destruct e; reflexivity. Qed.

Lemma map_convert_same k d : homogeneous k d -> map (convert k) d = d.
Proof.
  intro H. induction d as [|e d IH]; [reflexivity|]. cbn. rewrite IH by (intros x Hx; apply H; right; exact Hx).
  rewrite convert_same; [reflexivity|]. apply H. left; reflexivity.
Qed.

(** the loop inside [np_array] *)
Fixpoint np_arrays (l : list value) : res (list arr) :=
  match l with
  | [] => Ok []
  | x :: t => let? a := np_array x in let? b := np_arrays t in Ok (a :: b)
  end.
Lemma np_array_list l : np_array (VList l) = (let? r := np_arrays l in stack r).
Proof. cbn. f_equal. Qed.

Scheme rect_mind := Minimality for rect Sort Prop
  with rect_all_mind := Minimality for rect_all Sort Prop.

Lemma prod_nonempty_data s v d : rect s v d -> List.length d = prod s.
Proof.
  revert s v d.
  apply (rect_mind (fun s v d => List.length d = prod s)
                   (fun s l d => List.length d = List.length l * prod s)); intros; cbn; try reflexivity.
  - rewrite app_length. lia.
  - rewrite app_length. lia.
Qed.

(** all lists below are non-empty *)
Fixpoint solid (s : list nat) : bool :=
  match s with [] => true | n :: t => negb (Nat.eqb n 0) && solid t end.

Lemma np_array_rect s v d :
  rect s v d -> forall k, homogeneous k d -> solid s = true -> np_array v = Ok (Arr k s d false).
Proof.
  revert s v d.
  apply (rect_mind
    (fun s v d => forall k, homogeneous k d -> solid s = true -> np_array v = Ok (Arr k s d false))
    (fun s l d => forall k, homogeneous k d -> solid s = true ->
       exists r, np_arrays l = Ok r /\ List.length r = List.length l
         /\ Forall (fun a => a_kind a = k /\ a_shape a = s /\ homogeneous k (a_data a)) r
         /\ flat_map a_data r = d)).
  - intros e k H _. cbn. unfold scalar_arr. rewrite (H e) by (left; reflexivity). reflexivity.
  - intros b s k H _. cbn. unfold scalar_arr. rewrite <- (H (EStr s)) by (left; reflexivity). reflexivity.
  - intros k H Hs. cbn in Hs. discriminate.
  - intros s x l d ds _ IHx _ IHl k H Hs. cbn in Hs.
    assert (H1 : homogeneous k d) by (intros y Hy; apply H; apply in_or_app; left; exact Hy).
    assert (H2 : homogeneous k ds) by (intros y Hy; apply H; apply in_or_app; right; exact Hy).
    rewrite np_array_list. cbn [np_arrays]. rewrite (IHx k H1 Hs).
    destruct (IHl k H2 Hs) as [r [R1 [R2 [R3 R4]]]]. rewrite R1. cbn [rbind].
    unfold stack. cbn [a_shape a_kind a_data].
    assert (FB : forallb (fun b => shape_eqb s (a_shape b)) r = true).
    { apply forallb_forall. intros b Hb. rewrite Forall_forall in R3.
      destruct (R3 b Hb) as [_ [R5 _]]. rewrite R5. apply shape_eqb_refl. }
    rewrite FB.
    assert (PA : promote_all k r = Some k).
    { clear -R3. induction r as [|a r IH]; [reflexivity|]. inversion R3 as [|? ? [A1 _] A2]; subst.
      cbn. unfold promote. rewrite dkind_eqb_refl. apply IH. exact A2. }
    rewrite PA. cbn [List.length flat_map]. rewrite R2. rewrite map_convert_same by exact H1.
    f_equal. f_equal. f_equal. rewrite <- R4.
    clear -R3. induction r as [|a r IH]; [reflexivity|]. inversion R3 as [|? ? [A1 [A2 A3]] A4]; subst.
    cbn. rewrite map_convert_same by exact A3. f_equal. apply IH. exact A4.
  - intros s k _ _. exists []. repeat split; constructor.
  - intros s x l d ds _ IHx _ IHl k H Hs.
    assert (H1 : homogeneous k d) by (intros y Hy; apply H; apply in_or_app; left; exact Hy).
    assert (H2 : homogeneous k ds) by (intros y Hy; apply H; apply in_or_app; right; exact Hy).
    destruct (IHl k H2 Hs) as [r [R1 [R2 [R3 R4]]]].
    exists (Arr k s d false :: r). cbn. rewrite (IHx k H1 Hs), R1. cbn.
    split; [reflexivity|]. split; [congruence|]. split; [|rewrite R4; reflexivity].
    constructor; [repeat split; exact H1|exact R3].
Qed.

Lemma prod_atleast_2d s : prod (sh_atleast_2d s) = prod s.
Proof. rewrite (prod_squeeze (sh_atleast_2d s)), squeeze_atleast_2d. symmetry. apply prod_squeeze. Qed.

Lemma normalize_rect s l d k :
  rect s (VList l) d -> homogeneous k d -> d <> [] ->
  normalize (VList l) =
  Ok (if Nat.eqb (List.length d) 1
      then scalar_value (hd EObj d)
      else VArr (Arr k (sh_atleast_2d s) d false)).
Proof.
  intros R H N. unfold normalize.
  assert (L := prod_nonempty_data _ _ _ R).
  rewrite (np_array_rect _ _ _ R k H).
  2: { assert (P : prod s <> 0) by (rewrite <- L; destruct d; [congruence|discriminate]).
       clear -P. induction s as [|n s IH]; [reflexivity|]. cbn in *. rewrite IH by (intro C; rewrite C in P; lia).
       destruct n; [cbn in P; lia|reflexivity]. }
  cbn [rbind]. unfold a_size. cbn [a_shape reshape a_data a_kind a_mask].
  rewrite prod_atleast_2d, <- L.
  destruct (Nat.eqb (List.length d) 1); [|reflexivity].
  destruct d; [congruence|reflexivity].
Qed.

(** ** adding *)
Lemma add_entry_ok name v t d o o' ev u :
  add_entry name v t d o = (o', ev, Ok u) -> is_private name = false ->
  hasattr o name = false /\ prot o' = true /\ ro o' = ro o
  /\ exists w, normalize v = Ok w /\ pub o' = pub o ++ [(name, w)]
     /\ if dmem name (conv o)
        then conv o' = conv o /\ custom o' = custom o
        else exists e, conv o' = conv o ++ [(name, e)]
             /\ custom o' = Some (dset name e match custom o with Some c => c | None => [] end)
             /\ e_type e = t
             /\ e_dims e = option_map (fun d => smap custom_dim_char (upper d)) d
             /\ e_flags e = None.
Proof.
  intros H HP.
  destruct (add_entry_cases name v t d o) as [[e [K _]]|[H1 [ev' [o1 [r [H2 K]]]]]]; rewrite K in H;
    inversion H; subst; clear H.
  assert (HN : ~ In name (dkeys (pub o))).
  { intro C. apply dmem_In in C. unfold hasattr in H1. rewrite C in H1. discriminate. }
  split; [exact H1|].
  rewrite add_custom_obj in H2.
  match type of H2 with context [set_attr name v ?x] => set (o2 := x) in H2 end.
  assert (P2 : pub o2 = pub o) by (unfold o2; destruct (dmem name (conv o)); reflexivity).
  assert (R2 : ro o2 = ro o) by (unfold o2; destruct (dmem name (conv o)); reflexivity).
  destruct (set_attr name v o2) as [[o3 e3] [[]|x]] eqn:ES; [|discriminate].
  apply set_attr_Ok in ES.
  2: { intros ->. unfold hasattr in H1. rewrite orb_true_r in H1. discriminate. }
  destruct ES as [w [W1 [W2 W3]]]. inversion H2; subst. clear H2. cbn.
  split; [reflexivity|]. split; [exact R2|]. exists w. split; [exact W1|].
  split; [rewrite P2; apply dset_new; exact HN|].
  unfold o2. destruct (dmem name (conv o)) eqn:DM; [split; reflexivity|].
  eexists. cbn. split; [apply dset_new; apply dmem_false; exact DM|]. split; [reflexivity|].
  split; [reflexivity|]. split; [|reflexivity]. destruct d; reflexivity.
Qed.

Lemma add_entry_storable name v t d o :
  is_private name = false -> is_ok (normalize v) = true -> hasattr o name = false ->
  exists o', add_custom_api_entry name v d t o = (o', [], Ok tt).
Proof.
  intros HP HN H1. rewrite add_custom_obj.
  match goal with |- context [set_attr name v ?x] => set (o2 := x) end.
  destruct (set_attr_fine name v o2) as [w HS].
  - unfold hasattr in H1. apply orb_false_iff in H1. destruct H1 as [_ H1].
    apply smem_false in H1. split; [exact HP|]. cbn in H1. intuition congruence.
  - exact HN.
  - unfold o2. destruct (dmem name (conv o)); reflexivity.
  - rewrite HS. eauto.
Qed.

(** with a value that can be stored, adding fails without any effect *)
Lemma add_entry_err name v t d o e :
  is_private name = false -> is_ok (normalize v) = true ->
  m_res (add_entry name v t d o) = Err e ->
  add_entry name v t d o = (o, [], Err e) /\ exn_kind e = EValueError.
Proof.
  intros HP HN H.
  destruct (add_entry_cases name v t d o) as [[x [K1 K2]]|[H1 [ev [o1 [r [H2 K]]]]]].
  - rewrite K1 in *. inversion H; subst. split; [reflexivity|exact K2].
  - destruct (add_entry_storable name v t (option_map upper d) o HP HN H1) as [o' H3].
    rewrite H3 in H2. inversion H2; subst. rewrite K in H. discriminate.
Qed.

Lemma count1_split s : count_char "_" s = 1 ->
  exists a b, s = a +++ String "_" b /\ has_char "_" a = false /\ has_char "_" b = false.
Proof.
  induction s as [|c s IH]; cbn [count_char]; [discriminate|].
  destruct (Ascii.eqb_spec "_" c) as [<-|N]; intro H.
  - exists "", s. split; [reflexivity|]. split; [reflexivity|]. apply count_char_0. lia.
  - destruct IH as [a [b [-> [H1 H2]]]]; [lia|]. exists (String c a), b.
    split; [reflexivity|]. split; [|exact H2]. cbn [has_char]. rewrite H1. apply Ascii.eqb_neq in N. rewrite N. reflexivity.
Qed.

Lemma startswith_app p s : startswith p (p +++ s) = true.
Proof. apply prefix_spec. exists s. reflexivity. Qed.

Lemma add_entry_accepts name v t d o :
  is_private name = false -> is_ok (normalize v) = true -> ~ data_attribute name ->
  (m_res (add_entry name v t d o) = Ok tt <-> documented o name t d).
Proof.
  intros HP HN HD.
  unfold add_entry, get. unfold bind at 1.
  assert (FIN : forall dd, hasattr o name = false ->
     m_res (bind (match dd with
        | None => ret tt
        | Some d => mfor (filter (fun c => negb (has_char c "ERMNCIS")) (chars d))
              (fun _ => emit (EvWarn ("Added custom dimension " +++ d +++ " to SOFA object")))
        end) (fun _ => add_custom_api_entry name v dd t) o) = Ok tt).
  { intros dd H1. rewrite m_res_bind.
    assert (Hem : exists ev, (match dd with
        | None => ret tt
        | Some d => mfor (filter (fun c => negb (has_char c "ERMNCIS")) (chars d))
              (fun _ => emit (EvWarn ("Added custom dimension " +++ d +++ " to SOFA object")))
        end) o = (o, ev, Ok tt)).
    { destruct dd as [dd|]; [|exists []; reflexivity].
      induction (filter _ (chars dd)) as [|x l IH]; [exists []; reflexivity|].
      destruct IH as [ev IH]. cbn [mfor]. unfold bind. cbn [emit]. rewrite IH. eexists. reflexivity. }
    destruct Hem as [ev Hem]. rewrite Hem.
    destruct (add_entry_storable name v t dd o HP HN H1) as [o' H3]. rewrite H3. reflexivity. }
  destruct (hasattr o name) eqn:E1.
  { split; [discriminate|]. intros [C _]. congruence. }
  destruct (smem t ["attribute"; "double"; "string"]) eqn:E2; cbn [negb].
  2: { split; [discriminate|]. intros [_ C]. apply smem_false in E2. exfalso. apply E2.
       destruct C as [[[C|[C|[]]] _]|[C _]]; subst; cbn; tauto. }
  destruct (String.eqb_spec t "attribute") as [->|NT]; cbn [negb andb].
  - rewrite andb_false_r. 
    destruct (Nat.eqb_spec (count_char "_" name) 1) as [C1|C1]; cbn [negb orb].
    + rewrite C1. cbn [Nat.eqb Nat.ltb Nat.leb orb]. rewrite andb_false_r.
      destruct (count1_split _ C1) as [var [a [-> [HV HA]]]].
      rewrite (before_last_app _ _ _ HA).
      assert (SG : startswith "GLOBAL_" (var +++ String "_" a) = true -> var = "GLOBAL").
      { intro S. apply prefix_spec in S. destruct S as [r S].
        change ("GLOBAL_" +++ r) with ("GLOBAL" +++ String "_" r) in S.
        symmetry in S. apply split_unique in S; [|exact HV|exact HA]. destruct S; auto. }
      destruct (startswith "GLOBAL_" (var +++ String "_" a)) eqn:ES; cbn [negb andb].
      * assert (FF : match d with Some _ => false | None => false end = false) by (destruct d; reflexivity).
        rewrite FF. unfold m_res. destruct (bind _ _ o) as [[? ?] r] eqn:EB. cbn.
        assert (RR := FIN (option_map upper d) eq_refl). rewrite EB in RR. cbn in RR. subst r.
        split; [intros _|reflexivity]. split; [exact E1|]. right. split; [reflexivity|].
        exists var, a. repeat split; auto.
      * destruct (dmem var (conv o)) eqn:DM; cbn [negb].
        -- assert (FF : match d with Some _ => false | None => false end = false) by (destruct d; reflexivity).
           rewrite FF. unfold m_res. destruct (bind _ _ o) as [[? ?] r] eqn:EB. cbn.
           assert (RR := FIN (option_map upper d) eq_refl). rewrite EB in RR. cbn in RR. subst r.
           split; [intros _|reflexivity]. split; [exact E1|]. right. split; [reflexivity|].
           exists var, a. split; [reflexivity|]. split; [exact HA|]. right.
           split; [apply dmem_In; exact DM|]. left; exact HV.
        -- split; [discriminate|]. intros [_ [[[C|[C|[]]] _]|[_ [var' [a' [K1 [K2 K3]]]]]]]; try discriminate.
           exfalso. symmetry in K1. cbn in K1. apply split_unique in K1; [|exact HV|exact HA].
           destruct K1 as [-> ->]. destruct K3 as [->|[K3 _]].
           ++ revert ES. cbn. destruct a; cbn; discriminate.
           ++ apply dmem_false in DM. contradiction.
    + split; [discriminate|]. intros [_ [[[C|[C|[]]] _]|[_ [var [a [K1 [K2 K3]]]]]]]; try discriminate.
      exfalso. subst name. destruct K3 as [->|[_ [K3|[x [-> K3]]]]].
      * apply C1. rewrite count_char_app. cbn. apply count_char_0 in K2. rewrite K2. reflexivity.
      * apply C1. rewrite count_char_app. cbn. apply count_char_0 in K2, K3. rewrite K2, K3. reflexivity.
      * apply HD. exists x, a. rewrite sapp_assoc. cbn. repeat split; auto.
  - rewrite andb_true_r. destruct (has_char "_" name) eqn:E3.
    + split; [discriminate|]. intros [_ [[_ [C _]]|[C _]]]; congruence.
    + destruct d as [d|].
      * unfold m_res. destruct (bind _ _ o) as [[? ?] r] eqn:EB. cbn.
        assert (RR := FIN (option_map upper (Some d)) eq_refl). rewrite EB in RR. cbn in RR. subst r.
        split; [intros _|reflexivity]. split; [exact E1|]. left.
        split; [|split; [exact E3|discriminate]]. apply smem_In in E2. cbn in E2.
        destruct E2 as [E2|[E2|[E2|[]]]]; [congruence|subst; left; reflexivity|subst; right; left; reflexivity].
      * split; [discriminate|]. intros [_ [[_ [_ C]]|[C _]]]; congruence.
Qed.

(** ** deleting *)
Lemma del_attr_ok name o o' ev u :
  del_attr name o = (o', ev, Ok u) -> NoDup (dkeys (pub o)) ->
  In name (dkeys (pub o))
  /\ pub o' = filter (fun kv => negb (String.eqb (fst kv) name)) (pub o)
  /\ conv o' = conv o /\ ro o' = ro o /\ prot o' = prot o
  /\ custom o' = option_map (ddel name) (custom o) /\ ev = [].
Proof.
  intros H ND. destruct (del_attr_cases name o) as [[e K]|[K1 [_ [_ K]]]]; rewrite K in H;
    inversion H; subst. cbn. split; [apply dmem_In; exact K1|].
  split; [|repeat split; reflexivity]. rewrite (ddel_filter _ _ ND). apply filter_ext.
  intros [k w]. cbn. rewrite String.eqb_sym. reflexivity.
Qed.

Lemma del_attr_iff name o :
  prot o = true -> is_private name = false ->
  (m_res (del_attr name o) = Ok tt <->
   In name (dkeys (pub o)) /\ exists e, dget name (conv o) = Some e /\ is_mandatory (e_flags e) = false).
Proof.
  intros P HP. unfold del_attr. rewrite HP, P.
  destruct (hasattr o name) eqn:HA; cbn [negb].
  - unfold dgetE. destruct (dget name (conv o)) as [e|] eqn:DC; cbn [rbind].
    + destruct (is_mandatory (e_flags e)) eqn:EM; cbn [negb].
      * split; [discriminate|]. intros [_ [e' [C1 C2]]]. congruence.
      * destruct (dmem name (pub o)) eqn:DM.
        -- split; [intros _|reflexivity]. apply dmem_In in DM. eauto.
        -- split; [discriminate|]. intros [C _]. apply dmem_In in C. congruence.
    + split; [discriminate|]. intros [_ [e' [C1 C2]]]. congruence.
  - split; [discriminate|]. intros [C _]. unfold hasattr in HA. apply dmem_In in C. rewrite C in HA. discriminate.
Qed.

(** ** protection after add_missing and upgrades *)
Lemma add_missing_prot E a b c o o' ev u :
  add_missing E a b c o = (o', ev, Ok u) -> prot o' = true.
Proof.
  unfold add_missing. intro H.
  apply bind_Ok in H. destruct H as [o1 [e1 [[] [e2 [_ [H _]]]]]].
  apply bind_Ok in H. destruct H as [o2 [e3 [x [e4 [_ [H _]]]]]].
  apply bind_Ok in H. destruct H as [o3 [e5 [[] [e6 [_ [H _]]]]]].
  apply bind_Ok in H. destruct H as [o4 [e7 [[] [e8 [_ [H _]]]]]].
  apply bind_Ok in H. destruct H as [o5 [e9 [[] [e10 [H1 [H _]]]]]].
  inversion H1; subst. destruct c; cbn [when] in H; [|inversion H; reflexivity].
  destruct (has_char _ _) in H; inversion H; reflexivity.
Qed.

Lemma verify_raise_prot norm E m o : prot o = true -> prot (m_obj (verify_gen norm E HRaise m o)) = true.
Proof.
  intro P. destruct (verify_gen_obj norm E HRaise m o) as [[H _]|[o1 [H1 [H2 _]]]].
  - rewrite H. exact P.
  - rewrite H2. assert (D := reset_data_same E o). rewrite H1 in D. destruct D as [_ _ D]. cbn in D.
    assert (G : kprot o1 (m_obj (verify_rest norm E HRaise m o1))).
    { unfold verify_rest. apply rel_bind; [typeclasses eauto | reflexivity |].
      intros o' o2 e1 H. inversion H; subst. clear H.
      apply rel_bind; [typeclasses eauto | reflexivity |].
      cbn [h_raise negb when]. intros u o4 e2 _.
      set (keys := dkeys _). set (miss := missing _). clearbody keys miss. clear.
      revert o4.
      match goal with |- forall o5, kprot _ (m_obj (?m o5)) => change (always kprot m) end.
      alk; [alk|intro o3]. alk; [alk|intro terr].
      destruct (negb _ && negb _); [alks|].
      alk; [alk|intro o4]. alk; [alk|intro nerr].
      alk; [destruct (custom o4)|intro cerr].
      * alk; [alk|intro c]. alk; [alk|intro v].
        destruct (norm c v) as [ev r].
        alk; [|intros _]; [apply always_mfor; [typeclasses eauto|typeclasses eauto|intros; alk]|].
        alks.
      * alk.
      * alk; [alk|intro serr]. alk; [alk|intro o5].
        alk; [alk|intro rerr]. alk; [alk|intro uerr]. alk; [alk|intro dmsg].
        alk; [alk|intro pmsg].
        destruct (h_ignore HRaise); alks. }
    apply G. congruence.
Qed.

Lemma apply_upgrade_prot E c v sv t id vo o o' ev u :
  apply_upgrade E c v sv t id vo o = (o', ev, Ok u) -> prot o' = true.
Proof.
  unfold apply_upgrade. intro H.
  do 14 (let x := fresh "x" in apply bind_Ok in H; destruct H as [? [? [x [? [_ [H _]]]]]]).
  apply bind_Ok in H; destruct H as [o5 [e5 [[] [e6 [H5 [H _]]]]]].
  apply bind_Ok in H; destruct H as [o6 [e7 [[] [e8 [H6 [H _]]]]]].
  apply bind_Ok in H; destruct H as [o7 [e9 [xo [e10 [H7 [H _]]]]]].
  apply bind_Ok in H; destruct H as [o8 [e11 [ver [e12 [H8 [H _]]]]]].
  inversion H5; subst. clear H5.
  match goal with H6 : match u_message ?s with _ => _ end _ = _ |- _ =>
    assert (P6 : prot o6 = true) by (destruct (u_message s); inversion H6; reflexivity) end.
  inversion H7; subst. clear H7.
  assert (o8 = xo) as ->.
  { destruct vo.
    - apply bind_Ok in H8; destruct H8 as [o9 [e13 [y [e14 [A1 [A2 _]]]]]].
      unfold lift in *. inversion A1; subst. inversion A2; reflexivity.
    - inversion H8; reflexivity.
    - inversion H8; reflexivity. }
  destruct ver; [|inversion H; subst; exact P6].
  apply bind_Ok in H; destruct H as [o10 [e13 [y [e14 [A1 [A2 _]]]]]].
  inversion A2; subst. assert (V := verify_raise_prot (normative_keys E) E VWrite xo P6).
  unfold verify in A1. rewrite A1 in V. exact V.
Qed.
