(** Lemmas about the argument verify of Sofa(...) and read_sofa. *)
From Verif Require Import Base PyStr PyNum NdArray Sofa Verify Upgrade Utils Io
  SpecAttr SpecInit SpecVerify SpecReport
  BaseFacts StrFacts AttrFacts OpFacts InitFacts ProtFacts MissingFacts CoreFacts DimFacts ValidFacts VerifyFacts DictFacts IoFacts ReportFacts
  TotalFacts UpgradeFacts BlindFacts LookFacts PropListing.
From Coq Require Import NArith Lia.
Open Scope string_scope.
Open Scope list_scope.

(** ** Version numbers *)
Lemma digits_mono t : forall x y, digits_val t x = Some y -> (x <= y)%N.
Proof.
  induction t as [|z t IH]; cbn [digits_val]; intros x y Q; [injection Q as <-; lia|]. destruct (is_digit z); [|discriminate Q].
  specialize (IH _ _ Q). lia.
Qed.
Lemma digit_zero c : is_digit c = true -> (digit_val c =? 0)%N = Ascii.eqb c "0".
Proof. destruct c as [[] [] [] [] [] [] [] []]; vm_compute; intro H; try discriminate H; reflexivity. Qed.
Lemma strip0_le t : String.length (strip0 t) <= String.length t.
Proof. induction t as [|z t IH]; cbn [strip0]; [lia|]. destruct (_ && _); cbn [String.length]; lia. Qed.
Lemma digits_no_dot t : forall x, digits_val t x <> None -> has_char "." t = false.
Proof.
  induction t as [|z t IH]; intros x D; [reflexivity|]. cbn [digits_val] in D. destruct (is_digit z) eqn:IZ; [|destruct (D eq_refl)].
  cbn [has_char]. rewrite (IH _ D), orb_false_r. destruct (Ascii.eqb_spec "." z) as [<-|N]; [discriminate IZ|reflexivity].
Qed.
Lemma digits_below_one s n : s <> "" -> digits_val s 0 = Some n -> strip0 s = s -> (n <? 1)%N = String.prefix "0" s.
Proof.
  destruct s as [|c s]; intros N D H; [destruct (N eq_refl)|]. cbn [digits_val] in D. destruct (is_digit c) eqn:IC; [|discriminate D].
  assert (Z := digit_zero c IC). cbn [strip0] in H. change (0 * 10 + digit_val c)%N with (digit_val c) in D.
  replace (String.prefix "0" (String c s)) with (Ascii.eqb c "0").
  2: { cbn [String.prefix]. destruct (ascii_dec "0" c) as [<-|X]; [rewrite Ascii.eqb_refl; destruct s; reflexivity|].
       destruct (Ascii.eqb_spec c "0") as [->|_]; [destruct (X eq_refl)|reflexivity]. }
  destruct (Ascii.eqb c "0") eqn:C0.
  - apply N.eqb_eq in Z. rewrite Z in D. destruct (String.eqb_spec s "") as [->|NE].
    + cbn [digits_val] in D. injection D as <-. reflexivity.
    + exfalso. cbn [negb andb] in H. apply f_equal with (f := String.length) in H. assert (L := strip0_le s). cbn [String.length] in H. lia.
  - apply N.eqb_neq in Z. apply digits_mono in D. apply N.ltb_ge. lia.
Qed.

(** a version as distributed is at least 1.0 unless it starts with 0 *)
Lemma stable_iff v : float_str v = Some v -> version_geb v "1.0" = Ok (negb (String.prefix "0" v)).
Proof.
  unfold float_str, parse_float. intro H. assert (J := split_join "." v). change (str1 ".") with "." in J.
  destruct (split "." v) as [|i [|f [|]]] eqn:S; try discriminate H.
  - destruct (String.eqb_spec i "") as [->|N]; [discriminate H|]. destruct (digits_val i 0) as [m|] eqn:D; [|discriminate H].
    cbn [join] in J. injection H as H. exfalso. assert (X : has_char "." v = true).
    { rewrite <- H, has_char_app. cbn. apply orb_true_r. }
    rewrite <- J, (digits_no_dot i 0%N) in X; [discriminate X|congruence].
  - destruct (String.eqb_spec i "") as [->|N1]; [discriminate H|]. destruct (String.eqb_spec f "") as [->|N2]; [discriminate H|].
    cbn [orb] in H. destruct (digits_val (i +++ f) 0) as [m|] eqn:D; [|discriminate H].
    rewrite digits_val_app in D. destruct (digits_val i 0) as [n|] eqn:DI; [|discriminate D].
    destruct (digits_val f 0) as [q|] eqn:DF; [|exfalso; apply (digits_any f n 0%N); congruence].
    cbn [join] in J. injection H as H. rewrite <- J in H at 1.
    destruct (split_unique "." (strip0 i) (srev (strip0 (srev f))) i f) as [SI _];
      [apply (digits_no_dot i 0%N); congruence|apply (digits_no_dot f 0%N); congruence|exact H|].
    assert (PV : parse_version v = Some [n; q]).
    { unfold parse_version. rewrite S. cbn [omap]. unfold num_val. rewrite (eqb_neq_s _ _ N1), (eqb_neq_s _ _ N2), DI, DF. reflexivity. }
    unfold version_geb, version_ltb. rewrite PV. change (parse_version "1.0") with (Some [1%N; 0%N]). cbn [rbind ver_ltb].
    assert (B := digits_below_one i n N1 DI SI). rewrite B.
    replace (String.prefix "0" v) with (String.prefix "0" i).
    2: { rewrite <- J. destruct i as [|c i]; [destruct (N1 eq_refl)|]. cbn [String.append String.prefix]. destruct (ascii_dec "0" c); [destruct i; reflexivity|reflexivity]. }
    destruct (String.prefix "0" i); [reflexivity|]. cbn [negb]. f_equal.
    destruct (1 <? n)%N; [reflexivity|]. destruct (q <? 0)%N eqn:Q; [apply N.ltb_lt in Q; lia|]. destruct (0 <? q)%N; reflexivity.
Qed.

(** ** Verification without custom data *)
Lemma bind_same {A B} (f : M A) (k k' : A -> M B) o :
  (forall a o1 e1, f o = (o1, e1, Ok a) -> k a o1 = k' a o1) -> bind f k o = bind f k' o.
Proof. intro H. unfold bind. destruct (f o) as [[o1 e1] [a|e]]; [|reflexivity]. rewrite (H a o1 e1 eq_refl). reflexivity. Qed.

Lemma verify_plain norm norm' E m o : custom o = None -> verify_gen norm E HRaise m o = verify_gen norm' E HRaise m o.
Proof.
  intro CU. unfold verify_gen. apply bind_same. intros u1 o1 e1 R.
  assert (C1 : custom o1 = None).
  { destruct (reset_convention_cases E o) as [[x R']|[c [b [v [cv [_ [_ [_ [_ R']]]]]]]]]; rewrite R' in R; [discriminate R|].
    rewrite CU in R. injection R as <- _. exact CU. }
  rewrite !bind_get. cbv zeta. apply bind_same. intros u2 o2 e2 W. injection W as <- _. rewrite !bind_get.
  apply bind_same. intros terr o3 e3 L. unfold lift in L. injection L as <- _ _.
  destruct (negb _ && negb _); [reflexivity|]. rewrite !bind_get, C1. reflexivity.
Qed.
Lemma verify0_plain E m o : custom o = None -> verify0 E HRaise m o = verify E HRaise m o.
Proof. exact (verify_plain _ _ E m o). Qed.

(** ** New objects *)
Definition stable (v : string) : bool := negb (String.prefix "0" v).
Definition wants (vo : vopt) (v : string) : bool := match vo with VYes => true | VNo => false | VAuto => stable v end.

(** a new object before the decision about its verification *)
Definition started (E : env) (cv : convention) (mandatory : bool) : sofa * list event * res unit :=
  convention_to_sofa E mandatory (with_ro (with_conv empty_sofa cv) (ro_of_convention cv)).

Definition silently (e : event) : Prop := False.
Lemma says_to_sofa_nothing E b : says silently (convention_to_sofa E b).
Proof.
  unfold convention_to_sofa. apply says_bind; [apply says_get|intro o].
  apply says_bind; [apply says_mfor; intros kv _; apply says_bind; [apply says_lift|intro v; apply says_set_attr]|intros _].
  repeat (apply says_bind; [first [apply says_set_attr | apply says_modify]|intros _]). apply says_modify.
Qed.
Lemma started_silent E cv m : m_out (started E cv m) = [].
Proof.
  assert (H := says_to_sofa_nothing E m (with_ro (with_conv empty_sofa cv) (ro_of_convention cv))). fold (started E cv m) in H.
  destruct (m_out (started E cv m)) as [|e l]; [reflexivity|]. inversion H as [|? ? F]. destruct F.
Qed.
Lemma started_prot E cv m o ev : started E cv m = (o, ev, Ok tt) -> prot o = true.
Proof.
  unfold started, convention_to_sofa. rewrite bind_get. intro H.
  apply bind_Ok in H. destruct H as [o1 [e1 [u1 [e2 [_ [H _]]]]]].
  do 7 (apply bind_Ok in H; clear e1 u1; let o2 := fresh "o" in let x := fresh in let y := fresh in destruct H as [o2 [e1 [u1 [x [_ [H y]]]]]]; clear y).
  unfold set_protected, modify in H. injection H as <- _. reflexivity.
Qed.

Lemma init_eq E c cv m version b v vo : load_convention E c version = Ok cv ->
  (exists e, dget "GLOBAL_SOFAConventionsVersion" cv = Some e /\ e_default e = VStr b v) -> float_str v = Some v ->
  sofa_init E c m version vo =
  match started E cv m with
  | (o, _, Err e) => ([], Err e)
  | (o, _, Ok _) =>
      if wants vo v && negb m
      then match verify0 E HRaise VRead o with
           | (o', ev, Ok _) => (ev, Ok (with_prot o' true))
           | (_, ev, Err e) => (ev, Err e)
           end
      else (if stable v then [] else [EvWarn (msg_preliminary v)], Ok (with_prot o true))
  end.
Proof.
  intros L [en [D DE]] FS. unfold sofa_init. rewrite L. unfold init_body.
  rewrite (bind_silent _ _ empty_sofa (with_ro (with_conv empty_sofa cv) (ro_of_convention cv)) tt eq_refl).
  unfold bind at 1. fold (started E cv m). assert (SI := started_silent E cv m).
  destruct (started E cv m) as [[o ev] [[]|e]]; unfold m_out in SI; cbn [fst snd] in SI; subst ev; [|reflexivity].
  unfold dgetE. rewrite D. rewrite bind_lift. rewrite DE.
  assert (ST : stable_version (VStr b v) = Ok (stable v)) by (cbn [stable_version]; rewrite (stable_iff v FS); reflexivity).
  rewrite ST. assert (VW : match vo with VAuto => lift (Ok (stable v)) | VYes => ret true | VNo => ret false end = ret (wants vo v)).
  { destruct vo; reflexivity. }
  rewrite VW. rewrite bind_ret. cbn [py_str]. destruct (wants vo v && negb m).
  - unfold bind at 1. unfold bind at 1. destruct (verify0 E HRaise VRead o) as [[o' ev] [r|e]]; [|reflexivity].
    cbn. rewrite !app_nil_r. reflexivity.
  - unfold bind at 1. rewrite bind_lift. destruct (stable v); reflexivity.
Qed.

Lemma load_version E c version cv : db_ok E -> load_convention E c version = Ok cv ->
  exists b v, (exists e, dget "GLOBAL_SOFAConventionsVersion" cv = Some e /\ e_default e = VStr b v) /\ float_str v = Some v
    /\ states_own "GLOBAL_SOFAConventionsVersion" v cv /\ (version <> "latest" -> v = version).
Proof.
  intros DB L. destruct (load_convention_file _ _ _ _ L) as [f [F1 [F2 [F3 F4]]]].
  destruct (file_ok_prefix f c (proj2 DB f F1) F2) as [v [_ [FV [_ [_ [FS [_ [_ SO]]]]]]]]. rewrite <- F3 in SO.
  assert (SO' := SO). destruct SO' as [e [b [D [_ [_ DE]]]]]. exists b, v. split; [exists e; auto|split; [exact FS|split; [exact SO|]]].
  intro N. rewrite <- (F4 N). symmetry. exact FV.
Qed.

(** the object is verified when it is created *)
Definition verified_new (vo : vopt) (v : string) (mandatory : bool) : Prop :=
  mandatory = false /\ (vo = VYes \/ vo = VAuto /\ String.prefix "0" v = false).
Lemma verified_new_iff vo v m : wants vo v && negb m = true <-> verified_new vo v m.
Proof.
  unfold verified_new, wants, stable. destruct m; [rewrite andb_false_r; split; [discriminate|intros [H _]; discriminate H]|].
  rewrite andb_true_r. destruct vo.
  - rewrite negb_true_iff. split; [auto|intros [_ [H|[_ H]]]; [discriminate H|exact H]].
  - split; auto.
  - split; [discriminate|intros [_ [H|[H _]]]; discriminate H].
Qed.

Lemma init_options E c m version o0 ev0 : db_ok E -> sofa_init E c m version VNo = (ev0, Ok o0) ->
  exists b v, dget "GLOBAL_SOFAConventionsVersion" (pub o0) = Some (VStr b v) /\ (version <> "latest" -> v = version)
  /\ float_str v = Some v /\ custom o0 = None
  /\ ev0 = (if String.prefix "0" v then [EvWarn (msg_preliminary v)] else [])
  /\ (forall vo, ~ verified_new vo v m -> sofa_init E c m version vo = (ev0, Ok o0))
  /\ (forall vo, verified_new vo v m ->
      sofa_init E c m version vo =
      match verify E HRaise VRead o0 with (o, ev, Ok _) => (ev, Ok (with_prot o true)) | (_, ev, Err e) => (ev, Err e) end).
Proof.
  intros DB H. destruct (load_convention E c version) as [cv|] eqn:L; [|unfold sofa_init in H; rewrite L in H; discriminate H].
  destruct (load_version E c version cv DB L) as [b [v [D [FS [SO VV]]]]].
  destruct (armed_init E c m version VNo ev0 o0 DB H) as [v0 [A [P [L' [NC [_ [CU _]]]]]]].
  assert (HC : conv o0 = cv) by congruence. rewrite HC in NC.
  destruct (states_own_stored E cv _ v m (pub o0) SO NC eq_refl) as [b1 Q].
  exists b1, v. split; [exact Q|]. split; [exact VV|]. split; [exact FS|]. split; [exact CU|].
  assert (I := fun vo => init_eq E c cv m version b v vo L D FS). rewrite (I VNo) in H. cbn [wants andb] in H.
  destruct (started E cv m) as [[o e0] [[]|e]] eqn:ST; [|discriminate H].
  assert (PO : prot o = true) by exact (started_prot E cv m o e0 ST).
  assert (OO : with_prot o true = o) by (destruct o; cbn in PO; subst; reflexivity). rewrite OO in *.
  injection H as HE <-. unfold stable in *. split; [destruct (String.prefix "0" v); cbn [negb] in HE; congruence|].
  split; intros vo V.
  - rewrite (I vo). destruct (wants vo v && negb m) eqn:W; [destruct (V (proj1 (verified_new_iff vo v m) W))|]. f_equal. exact HE.
  - rewrite (I vo), (proj2 (verified_new_iff vo v m) V), (verify0_plain E VRead o CU). reflexivity.
Qed.

Lemma init_raises E c m version e0 ev0 : db_ok E -> sofa_init E c m version VNo = (ev0, Err e0) ->
  forall vo, sofa_init E c m version vo = (ev0, Err e0).
Proof.
  intros DB H vo. destruct (load_convention E c version) as [cv|] eqn:L; [|unfold sofa_init in *; rewrite L in *; exact H].
  destruct (load_version E c version cv DB L) as [b [v [D [FS _]]]].
  assert (I := fun vo => init_eq E c cv m version b v vo L D FS). rewrite (I VNo) in H. rewrite (I vo).
  destruct (started E cv m) as [[o e1] [[]|e]]; [|exact H]. cbn [wants andb] in H. discriminate H.
Qed.

(** ** Reading *)
Lemma blind_mfold {A B} (f : A -> B -> M B) (H : forall a b, blind (f a b)) l : forall b, blind (mfold f l b).
Proof. induction l as [|x l IH]; intro b; cbn [mfold]; [apply blind_ret|]. apply blind_bind; [apply H|exact IH]. Qed.
Lemma blind_entry n v d t k : blind (read_entry n v d t k).
Proof.
  unfold read_entry. apply blind_get; [intros o p T; twin T; reflexivity|]. intro o. destruct (hasattr o n).
  - apply blind_bind; [apply blind_set|intros; apply blind_ret].
  - apply blind_bind; [apply blind_add_custom|intros _]. apply blind_bind; [apply blind_protected|intros; apply blind_ret].
Qed.
Lemma blind_content f : blind (read_content f).
Proof.
  unfold read_content. apply blind_bind; [apply blind_protected|intros _].
  apply blind_bind.
  { apply blind_mfold. intros a b. unfold read_gattr. apply blind_bind; [apply blind_lift|intro; apply blind_entry]. }
  intro n. apply blind_bind.
  { apply blind_mfold. intros [var v] b. unfold read_var. destruct (existsb _ _); [apply blind_raise|].
    destruct (format_from_netcdf var v) as [ev r]. apply blind_bind; [apply blind_mfor; intro; apply blind_emit|intros _].
    apply blind_bind; [apply blind_lift|intro val]. apply blind_bind; [apply blind_entry|intro n2].
    apply blind_mfold. intros a b2. apply blind_bind; [apply blind_lift|intro; apply blind_entry]. }
  intro n2. apply blind_get; [intros o p T; twin T; reflexivity|]. intro o.
  apply blind_bind; [apply blind_mfor; intro; apply blind_del|intros _]. apply blind_bind; [apply blind_protected|intros; apply blind_ret].
Qed.
