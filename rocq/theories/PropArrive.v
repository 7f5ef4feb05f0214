(** Writing and reading neither merges nor splits objects (C111). *)
From Coq Require Import ZArith Lia.
From Verif Require Import Base PyStr PyNum NdArray Sofa Verify Upgrade Utils Io Demo
  SpecAttr SpecInit SpecValue SpecVerify SpecUpgrade SpecEquals SpecIo SpecStore
  BaseFacts StrFacts AttrFacts OpFacts InitFacts ProtFacts AddDelFacts MissingFacts CoreFacts IssueFacts ValidFacts VerifyFacts
  DictFacts ShapeFacts DimFacts DemoFacts UpgradeFacts EqualsFacts WriteFacts ReadFacts IoFacts RoundFacts SameFacts AgainFacts
  TotalFacts CheckFacts PropVerify PropEquals PropIo PropRound PropTrans.
Open Scope string_scope.
Open Scope list_scope.
Open Scope nat_scope.

(** ** Values that cannot be told apart by a comparison with others *)
Definition same_number (p q : elt) : Prop := exists x, number p x /\ number q x.

Inductive exact_values (t : string) (v w : value) : Prop :=
| xv_attr b b' s : t = "attribute" -> v = VStr b s -> w = VStr b' s -> exact_values t v w
| xv_double s d d' : t = "double" -> content_of v s d -> content_of w s d' -> Forall2 same_number d d' -> exact_values t v w
| xv_string s d : t = "string" -> content_of v s d -> content_of w s d -> exact_values t v w.

Record exact (o p : sofa) : Prop := {
  ex_dicts : dicts_ok o /\ dicts_ok p;
  ex_plain : plain o /\ plain p;
  ex_typed : all_typed o /\ all_typed p;
  ex_names : forall k, contained o k <-> contained p k;
  ex_types : forall k t, contained o k -> (typed o k t <-> typed p k t);
  ex_values : forall k v w, dget k (pub o) = Some v -> dget k (pub p) = Some w ->
    exists t, typed o k t /\ exact_values t v w }.

Lemma Forall2_flip {A B} (R : A -> B -> Prop) l m : Forall2 R l m -> Forall2 (fun y x => R x y) m l.
Proof. induction 1; constructor; assumption. Qed.
Lemma same_number_flip l m : Forall2 same_number l m -> Forall2 same_number m l.
Proof. intro H. apply Forall2_flip in H. induction H as [|x y l0 m0 [f [F G]] _ IH]; constructor; [exists f; auto|exact IH]. Qed.

Lemma exact_sym o p : exact o p -> exact p o.
Proof.
  intros [[D1 D2] [P1 P2] [T1 T2] N T V]. constructor; auto.
  - intro k. symmetry. apply N.
  - intros k t C. symmetry. apply T. apply N. exact C.
  - intros k v w G H. destruct (V k w v H G) as [t [TY X]]. exists t. split; [apply T; [apply dget_Some_In; eauto|exact TY]|].
    destruct X as [b b' s Q -> ->|s d d' Q C1 C2 F|s d Q C1 C2].
    + eapply xv_attr; eauto.
    + eapply xv_double; eauto. apply same_number_flip. exact F.
    + eapply xv_string; eauto.
Qed.

Lemma repeated_transfer (R : elt -> elt -> Prop) d e d' e' :
  (forall p q p' q', same_number p p' -> same_number q q' -> R p q -> R p' q') ->
  Forall2 same_number d d' -> Forall2 same_number e e' -> repeated R d e -> repeated R d' e'.
Proof.
  intros INV F G H i p' q' P' Q'.
  assert (L1 := Forall2_len _ _ _ F). assert (L2 := Forall2_len _ _ _ G). rewrite <- L2 in Q'.
  destruct (nth_error d i) as [p|] eqn:P.
  2: { apply nth_error_None in P. assert (i < List.length d') by (apply nth_error_Some; congruence). lia. }
  destruct (nth_error e (i mod List.length e)) as [q|] eqn:Q.
  2: { apply nth_error_None in Q. assert (i mod List.length e < List.length e') by (apply nth_error_Some; congruence). lia. }
  apply (INV p q p' q'); [exact (Forall2_nth _ _ _ F _ _ _ P P')|exact (Forall2_nth _ _ _ G _ _ _ Q Q')|exact (H i p q P Q)].
Qed.
Lemma close_transfer p q p' q' : same_number p p' -> same_number q q' -> close_elts p q -> close_elts p' q'.
Proof.
  intros [x [X1 X2]] [y [Y1 Y2]] [f [g [F [G C]]]]. rewrite (number_fun _ _ _ F X1) in C. rewrite (number_fun _ _ _ G Y1) in C.
  exists x, y. auto.
Qed.
Lemma all_numbers d d' : Forall2 same_number d d' -> forall p, In p d' -> exists x, number p x.
Proof. induction 1 as [|x y l m [f [_ F]] _ IH]; [intros p []|]. intros p [<-|I]; eauto. Qed.

Lemma values_transfer t v w v' w' : exact_values t v v' -> exact_values t w w' -> same_values t v w -> same_values t v' w'.
Proof.
  intros X Y S. destruct S as [b b' s Q -> ->|Q N|Q N].
  - destruct X as [c c' r _ E1 ->|? ? ? Q' _ _ _|? ? Q' _ _]; [|congruence|congruence].
    destruct Y as [g g' u _ E2 ->|? ? ? Q' _ _ _|? ? Q' _ _]; [|congruence|congruence].
    injection E1 as _ <-. injection E2 as _ <-. eapply sv_attr; eauto.
  - destruct X as [? ? ? Q' _ _|sx d d' _ C1 C2 F|? ? Q' _ _]; [congruence| |congruence].
    destruct Y as [? ? ? Q' _ _|sy e e' _ C3 C4 G|? ? Q' _ _]; [congruence| |congruence].
    apply sv_double; [exact Q|]. destruct N as [s1 [d1 [s2 [d2 [E1 [E2 [_ [_ H]]]]]]]].
    destruct (content_fun _ _ _ _ _ C1 E1) as [<- <-]. destruct (content_fun _ _ _ _ _ C3 E2) as [<- <-].
    exists sx, d', sy, e'. split; [exact C2|]. split; [exact C4|]. split; [apply (all_numbers _ _ F)|]. split; [apply (all_numbers _ _ G)|].
    destruct H as [[A R]|[[A R]|[A R]]].
    + left. split; [exact A|]. exact (repeated_transfer _ _ _ _ _ close_transfer F G R).
    + right. left. split; [exact A|]. exact (repeated_transfer _ _ _ _ _ close_transfer F G R).
    + right. right. split; [exact A|]. refine (repeated_transfer _ _ _ _ _ _ G F R).
      intros p q p' q' P1 P2. apply close_transfer; assumption.
  - destruct X as [? ? ? Q' _ _|? ? ? Q' _ _ _|sx d _ C1 C2]; [congruence|congruence|].
    destruct Y as [? ? ? Q' _ _|? ? ? Q' _ _ _|sy e _ C3 C4]; [congruence|congruence|].
    apply sv_string; [exact Q|]. destruct N as [s1 [d1 [s2 [d2 [E1 [E2 [N1 [N2 H]]]]]]]].
    destruct (content_fun _ _ _ _ _ C1 E1) as [<- <-]. destruct (content_fun _ _ _ _ _ C3 E2) as [<- <-].
    exists sx, d, sy, e. auto 10.
Qed.

Lemma compared_exact x o p k : exact o p -> (compared x o k <-> compared x p k).
Proof.
  intros X. unfold compared. rewrite (ex_names _ _ X k).
  split; intros [C [N Y]]; (split; [exact C|]); (split; [exact N|]); intro Y'; apply Y; destruct x; cbn in *; auto;
    apply (ex_types _ _ X k); try exact Y'; apply (ex_names _ _ X); exact C.
Qed.

Lemma content_transfer x a b p q : exact a p -> exact b q -> same_content x a b -> same_content x p q.
Proof.
  intros XA XB [N V]. constructor.
  - intro k. rewrite <- (compared_exact x a p k XA), <- (compared_exact x b q k XB). apply N.
  - intros k K. apply (compared_exact x a p k XA) in K. assert (K2 := proj1 (N k) K).
    destruct (V k K) as [t [v [w [T1 [T2 [G1 [G2 S]]]]]]].
    assert (CA := proj1 K). assert (CB := proj1 K2). assert (CP := CA). assert (CQ := CB).
    apply (ex_names _ _ XA) in CP. apply (ex_names _ _ XB) in CQ. apply dget_Some_In in CP. apply dget_Some_In in CQ.
    destruct CP as [v' H1]. destruct CQ as [w' H2].
    destruct (ex_values _ _ XA k v v' G1 H1) as [t1 [U1 E1]]. destruct (ex_values _ _ XB k w w' G2 H2) as [t2 [U2 E2]].
    rewrite (typed_fun _ _ _ _ U1 T1) in E1. rewrite (typed_fun _ _ _ _ U2 T2) in E2.
    exists t, v', w'. split; [apply (ex_types _ _ XA); assumption|]. split; [apply (ex_types _ _ XB); assumption|].
    repeat (split; [assumption|]). exact (values_transfer _ _ _ _ _ E1 E2 S).
Qed.

Lemma equals_transfer a b p q x sx v v' : option_of x sx -> exact a p -> exact b q ->
  (snd (equals p q v sx) = Ok true <-> snd (equals a b v' sx) = Ok true).
Proof.
  intros OX XA XB.
  rewrite (equals_true_iff a b v' x sx OX (proj1 (ex_dicts _ _ XA)) (proj1 (ex_dicts _ _ XB)) (proj1 (ex_plain _ _ XA)) (proj1 (ex_plain _ _ XB))
    (fun _ => conj (proj1 (ex_typed _ _ XA)) (proj1 (ex_typed _ _ XB)))).
  rewrite (equals_true_iff p q v x sx OX (proj2 (ex_dicts _ _ XA)) (proj2 (ex_dicts _ _ XB)) (proj2 (ex_plain _ _ XA)) (proj2 (ex_plain _ _ XB))
    (fun _ => conj (proj2 (ex_typed _ _ XA)) (proj2 (ex_typed _ _ XB)))).
  split; [apply content_transfer; apply exact_sym; assumption|apply content_transfer; assumption].
Qed.

(** an object and what is read from its file *)
Lemma total_exact E name o s s' o' ev cv p :
  db_ok E -> dicts_ok o -> convention_of E o cv -> storable cv o -> write_sofa E name o s = (s', (o', ev, Ok tt)) ->
  regular o -> same_entries cv o p -> dicts_ok p ->
  (forall k, contained o k -> exists e e', declared cv o k = Some e /\ dget k (conv p) = Some e' /\ e_type e' = e_type e) ->
  exact o' p.
Proof.
  intros DB DO CO ST W RG SE DP TY. destruct (total_verified E name o s s' o' ev cv DB DO CO W) as [a [ds [f [V [WC FI]]]]].
  assert (PO := vd_pub _ _ _ _ _ _ V).
  assert (DO' : dicts_ok o').
  { destruct (write_sofa_Ok _ _ _ _ _ _ _ W) as [f0 [e2 [r [VV _]]]].
    assert (X := kdict_verify E HRaise VWrite o DO). rewrite VV in X. exact X. }
  assert (TO : forall k t, contained o k -> (typed o' k t <-> exists e, declared cv o k = Some e /\ e_type e = t)).
  { intros k t C. unfold typed. rewrite (vd_conv _ _ _ _ _ _ V). tauto. }
  assert (TP : forall k t, contained o k -> (typed o' k t <-> typed p k t)).
  { intros k t C. rewrite (TO k t C). destruct (TY k C) as [e [e' [T1 [T2 T3]]]]. unfold typed. split.
    - intros [e0 [D0 T0]]. exists e'. split; [exact T2|congruence].
    - intros [e0 [D0 T0]]. exists e. split; [exact T1|congruence]. }
  assert (KIND : forall k v, dget k (pub o) = Some v -> is_attribute cv o k \/ exists e, is_variable cv o k e v /\ has_type (e_type e) v).
  { intros k v G. destruct (vd_type _ _ _ _ _ _ V k v G) as [e [D HT]].
    destruct (string_dec (e_type e) "attribute") as [A|N].
    - left. split; [apply dget_Some_In; eauto|eauto].
    - right. exists e. split; [split; [exact D|split; [exact N|exact G]]|exact HT]. }
  assert (VALS : forall k v w, dget k (pub o) = Some v -> dget k (pub p) = Some w ->
    plain_value w /\ exists t, typed o' k t /\ exact_values t v w).
  { intros k v w G H. assert (C : contained o k) by (apply dget_Some_In; eauto). destruct (KIND k v G) as [AT|[e [IV HT]]].
    - destruct (se_attrs _ _ _ SE k AT) as [b [t [G' H']]]. rewrite G in G'. injection G' as ->. rewrite H in H'. injection H' as ->.
      split; [exact I|]. exists "attribute". split; [apply TO; [exact C|exact (proj2 AT)]|]. eapply xv_attr; reflexivity.
    - assert (L := var_elements E o o' cv a ds V ST k e v IV).
      assert (TE : typed o' k (e_type e)) by (apply TO; [exact C|exists e; split; [apply IV|reflexivity]]).
      assert (CV : content_of v (sh_squeeze (shape_of v)) (elements v)).
      { assert (RV := RG k v G). destruct v as [b t|z|ar|l]; cbn [elements shape_of].
        - exists (scalar_arr (EStr t)). auto.
        - exists (scalar_arr z). auto.
        - apply content_array. apply RV.
        - destruct RV. }
      destruct (variable_type E o o' cv a ds V k e v IV) as [T|T].
      + destruct (se_numbers _ _ _ SE k e v IV T) as [w' [s1 [d1 [H' [VI [M [FK [SQ _]]]]]]]]. rewrite H in H'. injection H' as <-.
        rewrite T in HT. assert (NM : masked v = false).
        { destruct v as [? ?|?|ar|?]; try reflexivity. apply (RG k _ G). }
        assert (NO : forall z, In z (elements v) -> z <> EObj).
        { intros z IZ ->. assert (Q := proj1 (sound_missing v HT (st_sound _ _ ST k v G)) IZ). congruence. }
        destruct (kept_numbers _ _ NO FK) as [fs [-> FN]]. rewrite NM in M.
        split.
        * apply (value_is_plain _ _ _ VI). rewrite map_length, <- (Forall2_len _ _ _ FN), L.
          rewrite <- (prod_squeeze s1), SQ, prod_squeeze. reflexivity.
        * exists (e_type e). split; [exact TE|]. assert (CW := value_is_content _ _ _ VI M). rewrite SQ in CW.
          apply (xv_double _ _ _ _ _ _ T CV CW). clear - FN. induction FN as [|x y l m H _ IH]; [constructor|].
          constructor; [exists y; split; [exact H|constructor]|exact IH].
      + destruct (se_texts _ _ _ SE k e v IV T) as [w' [s1 [H' [VI [M SQ]]]]]. rewrite H in H'. injection H' as <-.
        split.
        * apply (value_is_plain _ _ _ VI). rewrite L. rewrite <- (prod_squeeze s1), SQ, prod_squeeze. reflexivity.
        * exists (e_type e). split; [exact TE|]. assert (CW := value_is_content _ _ _ VI M). rewrite SQ in CW.
          exact (xv_string _ _ _ _ _ T CV CW). }
  assert (CN : forall k, contained o' k <-> contained o k) by (intro k; unfold contained; rewrite PO; reflexivity).
  constructor.
  - auto.
  - split.
    + intros k v G. rewrite PO in G. apply regular_plain. apply (RG k v G).
    + intros k w H. assert (C : contained o k) by (apply (se_names _ _ _ SE); apply dget_Some_In; eauto).
      apply dget_Some_In in C. destruct C as [v G]. apply (VALS k v w G H).
  - split; intros k C.
    + apply CN in C. destruct (TY k C) as [e [e' [T1 _]]]. exists (e_type e). apply TO; eauto.
    + apply (se_names _ _ _ SE) in C. destruct (TY k C) as [e [e' [_ [T2 _]]]]. exists (e_type e'). exists e'. auto.
  - intro k. rewrite CN. symmetry. apply (se_names _ _ _ SE).
  - intros k t C. apply TP. apply CN. exact C.
  - intros k v w G H. rewrite PO in G. apply (VALS k v w G H).
Qed.

(** ** Statement *)

(** [o] was written, [o'] is the object afterwards; the file gives [p] *)
Definition arrives (E : env) (o o' p : sofa) : Prop :=
  exists name s s' ev cv vo verbose ev2,
  dicts_ok o /\ convention_of E o cv /\ storable cv o /\ regular o /\ faithful cv o /\ readable_again E cv o
  /\ write_sofa E name o s = (s', (o', ev, Ok tt))
  /\ (forall b c w, dget "GLOBAL_SOFAConventions" (pub o) = Some (VStr b c) ->
       dget "GLOBAL_SOFAConventionsVersion" (pub o) = Some w -> is_ok (snd (sofa_init E c false (py_str E w) vo)) = true)
  /\ read_sofa E s' name vo verbose = (ev2, Ok p).

Lemma arrives_exact E o o' p : db_ok E -> db_tidy E -> rules_tidy E -> arrives E o o' p -> exact o' p.
Proof.
  intros DB TD RT [name [s [s' [ev [cv [vo [verbose [ev2 [DO [CO [ST [RG [FA [RA [W [SI R]]]]]]]]]]]]]]]].
  destruct (total_read E name o s s' o' ev cv DB RT DO CO ST W FA TD RA vo verbose SI) as [ev3 [p' [R' [TY [DP _]]]]].
  rewrite R in R'. injection R' as <- <-.
  assert (SE := total_same E name o s s' o' ev cv DB DO CO ST W FA _ _ _ _ R).
  exact (total_exact E name o s s' o' ev cv p DB DO CO ST W RG SE DP TY).
Qed.

(** Two objects are equal exactly if what is read from their files is equal, for all
    options of [equals]. Missing: objects whose data do not survive the storage
    ([C111_refuted]). *)
Theorem C111_files_decide_partial :
  forall E a a' p b b' q x sx v v', db_ok E -> db_tidy E -> rules_tidy E ->
  arrives E a a' p -> arrives E b b' q -> option_of x sx ->
  (snd (equals p q v sx) = Ok true <-> snd (equals a' b' v' sx) = Ok true).
Proof.
  intros E a a' p b b' q x sx v v' DB TD RT A B OX.
  apply (equals_transfer a' b' p q x sx v v' OX); [exact (arrives_exact E a a' p DB TD RT A)|exact (arrives_exact E b b' q DB TD RT B)].
Qed.
Print Assumptions C111_files_decide_partial.

(** ** Examples *)
Definition arrived (o : sofa) : sofa := match written_and_read o with (_, Ok p) => p | _ => empty_sofa end.
Definition after_writing (o : sofa) : sofa := m_obj (snd (write_sofa demo "a" o disk)).

(** floats instead of integers, and another number *)
Definition trip_floats : sofa := put "Data_Delay" (VArr (Arr KF [1; 2] [flt 0; flt 0] false)) trip.
Definition trip_late : sofa := put "Data_Delay" (VArr (Arr KF [1; 2] [flt 0; flt 1] false)) trip.

Definition arrivesb (o : sofa) : bool :=
  nodupb (dkeys (pub o)) && nodupb (match custom o with Some cu => dkeys cu | None => [] end) && in_hrir o && some_text o
  && storableb cv10 o && faithfulb cv10 o && readable_againb demo cv10 o && forallb (fun kv => CheckFacts.regularb (snd kv)) (pub o)
  && is_ok (fst (written_and_read o)) && is_ok (snd (written_and_read o)).
Lemma arrivesb_ok o : arrivesb o = true -> arrives demo o (after_writing o) (arrived o).
Proof.
  unfold arrivesb. rewrite !andb_true_iff. intros [[[[[[[[[H1 H2] H3] H4] H5] H6] H7] H8] H9] H10].
  exists "a", disk, (fst (write_sofa demo "a" o disk)), (m_out (snd (write_sofa demo "a" o disk))), cv10, VAuto, true,
    (fst (read_sofa demo (fst (write_sofa demo "a" o disk)) "a" VAuto true)).
  split; [apply dicts_check; assumption|]. split; [apply in_hrir_ok; exact H3|].
  split; [apply storableb_ok; [apply some_text_ok; exact H4|exact H5]|]. split; [apply CheckFacts.regularb_ok; exact H8|].
  split; [apply faithfulb_ok; exact H6|]. split; [apply readable_againb_ok; exact H7|].
  split; [|split].
  - unfold written_and_read in H9. cbn [fst] in H9. unfold after_writing. destruct (write_sofa demo "a" o disk) as [s' [[o' ev] [[]|e]]]; [|discriminate H9].
    reflexivity.
  - intros b c w G1 G2. unfold in_hrir in H3. rewrite G1, G2 in H3. destruct w as [b' t| | |]; try discriminate H3.
    apply andb_true_iff in H3. destruct H3 as [Q1 Q2]. apply String.eqb_eq in Q1, Q2. subst c t. vm_compute. reflexivity.
  - unfold arrived. unfold written_and_read in *. cbn [snd] in *.
    destruct (read_sofa demo (fst (write_sofa demo "a" o disk)) "a" VAuto true) as [e2 [p|x]]; [reflexivity|discriminate H10].
Qed.

Example C111_case :
  arrives demo trip (after_writing trip) (arrived trip)
  /\ arrives demo trip_floats (after_writing trip_floats) (arrived trip_floats)
  /\ arrives demo trip_late (after_writing trip_late) (arrived trip_late)
  /\ snd (equals (after_writing trip) (after_writing trip_floats) false None) = Ok true
  /\ snd (equals (arrived trip) (arrived trip_floats) false None) = Ok true
  /\ snd (equals (after_writing trip) (after_writing trip_late) false None) = Ok false
  /\ snd (equals (arrived trip) (arrived trip_late) false None) = Ok false.
Proof.
  do 3 (split; [apply arrivesb_ok; vm_compute; reflexivity|]). repeat split; vm_compute; reflexivity.
Qed.

(** titles that differ by a NUL only are the same in the file *)
Definition titled (t : string) : sofa := put "GLOBAL_Title" (VStr false ("A" +++ t +++ "B")) trip.
Theorem C111_refuted :
  fst (written_and_read (titled (nuls 1))) = Ok tt /\ fst (written_and_read (titled "")) = Ok tt
  /\ snd (equals (after_writing (titled (nuls 1))) (after_writing (titled "")) false None) = Ok false
  /\ is_ok (snd (written_and_read (titled (nuls 1)))) = true /\ is_ok (snd (written_and_read (titled ""))) = true
  /\ snd (equals (arrived (titled (nuls 1))) (arrived (titled "")) false None) = Ok true.
Proof. repeat split; vm_compute; reflexivity. Qed.
Print Assumptions C111_refuted.
