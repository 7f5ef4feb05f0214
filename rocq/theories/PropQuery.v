(** Theorems about calls that only look at an object (C74). *)
From Verif Require Import Base PyStr PyNum NdArray Sofa Verify Upgrade Io Demo SpecAttr SpecInit SpecVerify
  BaseFacts CoreFacts AttrFacts OpFacts InitFacts ValidFacts IssueFacts DictFacts DimFacts IoFacts DemoFacts PropVerify PropIo.
From Coq Require Import ZArith RelationClasses.
Open Scope string_scope.
Open Scope list_scope.
Open Scope nat_scope.

(** ** C74 *)

(** calls that are meant to look at an object *)
Inductive query :=
| QVerify (h : handling) (m : vmode) | QDimension (d : string) | QListDimensions | QInspect (h : handling)
| QInfo (what : string) | QUpgrades (vo : vopt) | QWrite (name : string) (s : fs).

(** the object after the call, whether it returns or raises *)
Definition ask (E : env) (q : query) (o : sofa) : sofa :=
  match q with
  | QVerify h m => m_obj (verify E h m o)
  | QDimension d => m_obj (get_dimension E d o)
  | QListDimensions => m_obj (list_dimensions E o)
  | QInspect h => m_obj (inspect E h o)
  | QInfo w => m_obj (info E w o)
  | QUpgrades vo => m_obj (upgrade_convention E None vo o)
  | QWrite name s => m_obj (snd (write_sofa E name o s))
  end.

(** what has been added: missing mandatory data with their default *)
Definition only_defaults_added (E : env) (o o' : sofa) : Prop :=
  forall k v, dget k (pub o') = Some v -> dget k (pub o) = Some v
  \/ exists cv e, convention_of E o cv /\ declared cv o k = Some e
       /\ is_mandatory (e_flags e) = true /\ ~ contained o k /\ added_default e v.

Lemma same_bind {A B} (m : M A) (f : A -> M B) o :
  (forall a, always same (f a)) -> same (m_obj (m o)) (m_obj (bind m f o)).
Proof.
  intro H. rewrite m_obj_bind. destruct (m o) as [[o1 e1] [a|e]]; [apply H|reflexivity].
Qed.

Lemma same_update_dimensions {A} E (f : unit -> M A) o : (forall a, always same (f a)) ->
  same (m_obj (verify E HReturn VWrite o)) (m_obj (bind (update_dimensions E) f o)).
Proof.
  intro H. apply (same_trans _ (m_obj (update_dimensions E o))); [|apply same_bind; exact H].
  unfold update_dimensions. apply same_bind. intro i. alw; [alw|intro o1].
  destruct i; [|alw]. destruct (_ || _ || _); alw.
Qed.

(** the object is the one after verify, after reading the convention, or as before *)
Lemma ask_cases E q o :
  (exists h m, same (m_obj (verify E h m o)) (ask E q o))
  \/ same (m_obj (reset_convention E o)) (ask E q o) \/ same o (ask E q o).
Proof.
  destruct q as [h m|d| |h|w|vo|name s]; cbn [ask].
  - left. exists h, m. reflexivity.
  - left. exists HReturn, VWrite. unfold get_dimension. apply same_update_dimensions. intros _.
    alw; [alw|intro o1]. destruct (api o1) as [a|]; [|alw]. destruct (dget d a); alw.
  - left. exists HReturn, VWrite. unfold list_dimensions. apply same_update_dimensions. intros _.
    alw; [alw|intro o1]. alw; [alw|intro dt].
    alw; [destruct dt; alw|intro s]. alw; [alw|intro r]. alw; [alw|intro e].
    alw; [match goal with |- always _ (match ?x with _ => _ end) => destruct x end; alw | intro n].
    destruct (api o1); alw.
  - left. exists h, VWrite. unfold inspect. apply same_bind. intros _.
    alw; [alw|intro o1]. alw; [alw|intro hd]. alw; [alw|intro txt]. alw.
  - right. right. unfold info. revert o.
    match goal with |- forall o5, same _ (m_obj (?m o5)) => change (always same m) end.
    alw; [alw|intros _]. alw; [alw|intro o1]. alw; [alw|intro hd].
    destruct (smem _ _); [alw; [alw|intro t]; alw|].
    destruct (smem _ _); [alw; [alw|intro t]; alw|alw].
  - right. left. unfold upgrade_convention. apply same_bind. intros _.
    alw; [alw|intro o1]. alw; [alw|intro c]. alw; [alw|intro v]. alw; [alw|intros _]. cbv zeta.
    destruct (decide E (py_str E c) v None) as [| |t|id|] eqn:D; alws.
  - assert (P : m_obj (snd (write_sofa E name o s)) = m_obj (prepare_write E name o)).
    { unfold write_sofa. destruct (prepare_write E name o) as [[o' ev] [p|e]]; [|reflexivity].
      destruct (fs_writable s p); [|reflexivity]. destruct (write_content E o' empty_file). reflexivity. }
    rewrite P. clear P. unfold prepare_write. rewrite m_obj_bind. unfold lift.
    destruct (sofa_path name) as [p|e]; [|right; right; reflexivity].
    rewrite m_obj_bind. assert (K := warn_version_keeps E o).
    destruct (warn_version E o) as [[o1 e1] [u|e]]; unfold m_obj in K; cbn [fst] in K; subst o1.
    + left. exists HRaise, VWrite. apply same_bind. intros _. alw.
    + right. right. reflexivity.
Qed.

Lemma ask_added E q o : db_ok E -> dicts_ok o -> only_defaults_added E o (ask E q o).
Proof.
  intros DB DO k v G. destruct (ask_cases E q o) as [[h [m S]]|[S|S]]; rewrite (sm_pub _ _ S) in G.
  - apply (verify_added E h m o k v DB DO G).
  - left. rewrite (ds_pub _ _ (reset_data_same E o)) in G. exact G.
  - left. exact G.
Qed.

Lemma ask_kept E q o k v : dget k (pub o) = Some v -> dget k (pub (ask E q o)) = Some v.
Proof.
  intro G. destruct (ask_cases E q o) as [[h [m S]]|[S|S]]; rewrite (sm_pub _ _ S).
  - destruct (verify_settles E h m o) as [GR|[o1 [R GR]]]; apply (gr_pub _ _ GR); [exact G|].
    assert (DS := reset_data_same E o). rewrite R in DS. rewrite <- (ds_pub _ _ DS) in G. exact G.
  - rewrite (ds_pub _ _ (reset_data_same E o)). exact G.
  - exact G.
Qed.

Lemma ask_ro E q o : ro (ask E q o) = ro o.
Proof.
  destruct (ask_cases E q o) as [[h [m S]]|[S|S]]; rewrite (sm_ro _ _ S).
  - destruct (verify_settles E h m o) as [GR|[o1 [R GR]]]; rewrite (gr_ro _ _ GR); [reflexivity|].
    assert (DS := reset_data_same E o). rewrite R in DS. apply (ds_ro _ _ DS).
  - apply (ds_ro _ _ (reset_data_same E o)).
  - reflexivity.
Qed.

Lemma ask_dicts E q o : dicts_ok o -> dicts_ok (ask E q o).
Proof.
  intro D. assert (SD : forall a b, same a b -> dicts_ok a -> dicts_ok b).
  { intros a b S [D1 D2]. split; [rewrite (sm_pub _ _ S); exact D1|rewrite (sm_custom _ _ S); exact D2]. }
  destruct (ask_cases E q o) as [[h [m S]]|[S|S]]; apply (SD _ _ S).
  - apply (kdict_verify E h m o D).
  - apply (kdict_reset E o D).
  - exact D.
Qed.

Lemma ask_own E q o cv : db_ok E -> dicts_ok o -> convention_of E o cv ->
  own_custom cv (ask E q o) = own_custom cv o.
Proof.
  intros DB DO C.
  assert (RS : forall o1 o2, reset_convention E o = (o1, [], Ok tt) -> custom o2 = custom o1 -> own_custom cv o2 = own_custom cv o).
  { intros o1 o2 R CU. destruct (reset_iff E o DB DO) as [RI _].
    destruct (RI _ R) as [b [c [w [ct [H1 [H2 [H3 RT]]]]]]].
    assert (C2 : convention_of E o (sofar_keys ct)) by (exists b, c, w, ct; auto).
    rewrite (convention_unique E o cv _ DB C C2) in RT. apply (own_custom_reset cv o o1 o2 RT CU). }
  assert (SC : forall a b, custom b = custom a -> own_custom cv b = own_custom cv a)
    by (intros a b H; unfold own_custom; rewrite H; reflexivity).
  destruct (ask_cases E q o) as [[h [m S]]|[S|S]].
  - rewrite (SC _ _ (sm_custom _ _ S)).
    destruct (verify_settles E h m o) as [GR|[o1 [R GR]]]; [apply SC; apply (gr_custom _ _ GR)|].
    apply (RS o1 _ R (gr_custom _ _ GR)).
  - rewrite (SC _ _ (sm_custom _ _ S)).
    destruct (reset_none_or E o) as [[x R]|[o1 R]]; rewrite R; unfold m_obj; cbn [fst]; [reflexivity|].
    apply (RS o1 o1 R eq_refl).
  - apply SC. apply (sm_custom _ _ S).
Qed.

Definition asks (E : env) (qs : list query) (o : sofa) : sofa := fold_left (fun o q => ask E q o) qs o.

(** Any number of such calls keeps all data; missing mandatory data can be added
    with their default, nothing else. *)
Theorem C74_queries_keep_data :
  forall E qs o, db_ok E -> dicts_ok o ->
  (forall k v, dget k (pub o) = Some v -> dget k (pub (asks E qs o)) = Some v)
  /\ only_defaults_added E o (asks E qs o) /\ ro (asks E qs o) = ro o.
Proof.
  intros E qs o DB DO.
  enough (INV : (forall k v, dget k (pub o) = Some v -> dget k (pub (asks E qs o)) = Some v)
    /\ only_defaults_added E o (asks E qs o) /\ ro (asks E qs o) = ro o /\ dicts_ok (asks E qs o)
    /\ forall cv, convention_of E o cv -> own_custom cv (asks E qs o) = own_custom cv o)
    by (destruct INV as [I1 [I2 [I3 _]]]; auto).
  induction qs as [|q qs IH] using rev_ind.
  { cbn. repeat split; auto; try apply DO. intros k v G. left. exact G. }
  unfold asks in *. rewrite fold_left_app. cbn [fold_left].
  set (p := fold_left (fun o q => ask E q o) qs o) in *. destruct IH as [I1 [I2 [I3 [I4 I5]]]].
  assert (UP : forall cv, convention_of E o cv -> convention_of E p cv).
  { intros cv [b [c [w [ct [H1 [H2 H3]]]]]]. exists b, c, w, ct. auto. }
  assert (DOWN : forall cv, convention_of E p cv -> convention_of E o cv).
  { intros cv [b [c [w [ct [H1 [H2 H3]]]]]]. exists b, c, w, ct.
    assert (X : forall k v, (k = "GLOBAL_SOFAConventions" \/ k = "GLOBAL_SOFAConventionsVersion") ->
              dget k (pub p) = Some v -> dget k (pub o) = Some v).
    { intros k v K G. destruct (I2 k v G) as [Y|[cv' [e [[b' [c' [w' [ct' [Y1 [Y2 _]]]]]] [_ [_ [N _]]]]]]]; [exact Y|].
      exfalso. apply N. unfold contained. apply dget_Some_In. destruct K as [->| ->]; eauto. }
    split; [apply X; auto|]. split; [apply X; auto|]. exact H3. }
  split; [|split; [|split; [|split]]].
  - intros k v G. apply ask_kept. apply I1. exact G.
  - intros k v G. destruct (ask_added E q p DB I4 k v G) as [Y|[cv [e [C [D [M [N A]]]]]]]; [apply I2; exact Y|].
    right. exists cv, e. specialize (DOWN cv C). split; [exact DOWN|].
    split; [unfold declared in *; rewrite <- (I5 cv DOWN); exact D|]. split; [exact M|]. split; [|exact A].
    intro K. apply N. unfold contained in *. apply dget_Some_In in K. destruct K as [u U].
    apply dget_Some_In. exists u. apply I1. exact U.
  - rewrite ask_ro. exact I3.
  - apply ask_dicts. exact I4.
  - intros cv C. rewrite (ask_own E q p cv DB I4 (UP cv C)). apply I5. exact C.
Qed.
Print Assumptions C74_queries_keep_data.

(** Objects with all mandatory data are not changed at all. *)
Theorem C74_complete_objects_stay :
  forall E qs o, db_ok E -> dicts_ok o -> complete E o ->
  forall k, dget k (pub (asks E qs o)) = dget k (pub o).
Proof.
  intros E qs o DB DO CO k. destruct (C74_queries_keep_data E qs o DB DO) as [K [A _]].
  destruct (dget k (pub o)) as [v|] eqn:G; [apply K; exact G|].
  destruct (dget k (pub (asks E qs o))) as [v|] eqn:H; [|reflexivity].
  destruct (A k v H) as [Y|[cv [e [C [D [M [N _]]]]]]]; [congruence|].
  exfalso. apply N. apply (CO cv k e C D M).
Qed.
Print Assumptions C74_complete_objects_stay.

(** an object without a sampling rate gets one, everything else stays *)
Example C74_case :
  let qs := [QInfo "all"; QInspect HIgnore; QListDimensions; QDimension "N"; QUpgrades VYes; QWrite "a" disk; QVerify HPrint VRead] in
  dicts_ok no_rate
  /\ dget "Data_SamplingRate" (pub no_rate) = None
  /\ dget "Data_SamplingRate" (pub (asks demo qs no_rate)) = Some (zi 48000)
  /\ List.length (pub (asks demo qs no_rate)) = S (List.length (pub no_rate))
  /\ pub (asks demo qs demo_sofa) = pub demo_sofa.
Proof.
  cbv zeta. split; [split; [apply nodupb_ok; vm_compute; reflexivity|vm_compute; exact I]|].
  split; [vm_compute; reflexivity|]. split; [vm_compute; reflexivity|]. split; [vm_compute; reflexivity|].
  vm_compute. reflexivity.
Qed.
