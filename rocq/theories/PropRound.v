(** C31-C33, C39, C40: objects written to files and read again. *)
From Verif Require Import Base PyStr PyNum NdArray Sofa Verify Upgrade Utils Io Demo
  SpecAttr SpecInit SpecValue SpecVerify SpecUpgrade SpecEquals SpecIo SpecStore
  BaseFacts StrFacts AttrFacts OpFacts InitFacts ProtFacts AddDelFacts MissingFacts CoreFacts IssueFacts ValidFacts VerifyFacts
  DictFacts ShapeFacts DimFacts DemoFacts UpgradeFacts EqualsFacts WriteFacts ReadFacts IoFacts RoundFacts SameFacts AgainFacts
  TotalFacts CheckFacts PropVerify PropEquals PropIo.
From Coq Require Import ZArith Lia.
Open Scope string_scope.
Open Scope list_scope.
Open Scope nat_scope.

(** ** An object with custom data, texts and more than one measurement *)
Definition trip0 : sofa :=
  put "SourceDescriptions" (VArr (Arr KU [2] [EStr "left"; EStr "right!"] false))
    (put "Data_IR" (nums [2; 2; 3] [1; 2; 3; 4; 5; 6; 7; 8; 9; 10; 11; 12]%Z) demo_sofa).
Definition trip : sofa :=
  m_obj ((do_ add_variable "Weight" (nums [2; 1] [5; 6]%Z) "double" (Some "MI");
          do_ add_attribute "Weight_Units" (VStr false "gram");
          add_attribute "GLOBAL_Note" (VStr false "by hand")) trip0).
Definition cv10 : convention := sofar_keys (hrir "1.0").

Lemma dicts_check o : PropIo.nodupb (dkeys (pub o)) = true ->
  PropIo.nodupb (match custom o with Some cu => dkeys cu | None => [] end) = true -> dicts_ok o.
Proof.
  intros H1 H2. split; [apply nodupb_ok; exact H1|]. destruct (custom o); [|exact I]. apply nodupb_ok. exact H2.
Qed.
Lemma trip_dicts : dicts_ok trip.
Proof. apply dicts_check; vm_compute; reflexivity. Qed.

Definition in_hrir (o : sofa) : bool :=
  match dget "GLOBAL_SOFAConventions" (pub o), dget "GLOBAL_SOFAConventionsVersion" (pub o) with
  | Some (VStr _ c), Some (VStr _ v) => String.eqb c "SimpleFreeFieldHRIR" && String.eqb v "1.0"
  | _, _ => false
  end.
Lemma in_hrir_ok o : in_hrir o = true -> convention_of demo o cv10.
Proof.
  unfold in_hrir. destruct (dget "GLOBAL_SOFAConventions" (pub o)) as [[b c| | |]|] eqn:G1; try discriminate.
  destruct (dget "GLOBAL_SOFAConventionsVersion" (pub o)) as [[b' v| | |]|] eqn:G2; try discriminate.
  rewrite andb_true_iff, !String.eqb_eq. intros [-> ->].
  exists b, "SimpleFreeFieldHRIR", (VStr b' "1.0"), (hrir "1.0"). split; [exact G1|]. split; [exact G2|]. split; [|reflexivity].
  left. reflexivity.
Qed.

(** the longest text is not empty *)
Definition some_text (o : sofa) : bool :=
  match dget "SourceDescriptions" (pub o) with
  | Some (VArr a) => match a_shape a with
                     | [n] => existsb (fun x => match x with EStr t => negb (String.eqb t "") | _ => false end) (a_data a)
                              && forallb (fun x => match x with EStr t => true | _ => false end) (a_data a)
                     | _ => false
                     end
  | _ => false
  end.
Lemma some_text_ok o : some_text o = true -> ~ size cv10 o "S" 0.
Proof.
  unfold some_text. destruct (dget "SourceDescriptions" (pub o)) as [[| |a|]|] eqn:G; try discriminate.
  destruct (a_shape a) as [|n [|]] eqn:SH; try discriminate. rewrite andb_true_iff. intros [H1 H2].
  apply existsb_exists in H1. destruct H1 as [[| | | |t| |] [I NE]]; try discriminate.
  intros [[X _]|[[X _]|[[_ [L _]]|[c [l [r [X [X1 _]]]]]]]]; [discriminate X|discriminate X| |injection X as <-; discriminate X1].
  assert (SV : string_variable cv10 o "SourceDescriptions").
  { assert (D : declared cv10 o "SourceDescriptions" = Some (svar None "MS" (VList [VStr false ""]))) by (unfold declared; vm_compute; reflexivity).
    split.
    - apply in_or_app. left. apply filter_In. split; [apply dget_Some_In; eauto|]. rewrite D. reflexivity.
    - do 2 eexists. split; [exact D|]. split; reflexivity. }
  assert (F : exists ls, Forall2 (fun x l => exists s, (x = EStr s \/ x = EByt s) /\ String.length s = l) (a_data a) ls
     /\ forall t, In (EStr t) (a_data a) -> In (String.length t) ls).
  { clear -H2. induction (a_data a) as [|x d IH].
    - exists []. split; [constructor|intros t []].
    - cbn [forallb] in H2. apply andb_true_iff in H2. destruct H2 as [HX H2]. destruct (IH H2) as [ls [F1 F2]].
      destruct x as [| | | |t| |]; try discriminate. exists (String.length t :: ls). split.
      + constructor; [eauto|exact F1].
      + intros u [X|X]; [injection X as ->; left; reflexivity|right; auto]. }
  destruct F as [ls [F1 F2]].
  assert (ST : strings (VArr a) [n] ls).
  { constructor; [exact SH|right; reflexivity| |exact F1]. intro N. rewrite N in I. destruct I. }
  specialize (L _ _ _ _ _ SV G ST (F2 t I)). destruct t; [discriminate NE|cbn in L; lia].
Qed.
Lemma trip_storable : storable cv10 trip.
Proof. apply storableb_ok; [apply some_text_ok; vm_compute; reflexivity|vm_compute; reflexivity]. Qed.
Lemma trip_faithful : faithful cv10 trip.
Proof. apply faithfulb_ok. vm_compute. reflexivity. Qed.
Lemma trip_readable : readable_again demo cv10 trip.
Proof. apply readable_againb_ok. vm_compute. reflexivity. Qed.

(** ** C31 *)

(** Missing: objects that are accepted by the verification but can not be stored
    are found after the file has been emptied ([C31_refuted]). *)
Theorem C31_all_or_nothing_partial :
  forall E name o s s' o' ev e, db_ok E -> dicts_ok o ->
  (forall cv, convention_of E o cv -> storable cv o) ->
  write_sofa E name o s = (s', (o', ev, Err e)) -> s' = s.
Proof.
  intros E name o s s' o' ev e DB DO ST H.
  destruct (write_sofa_cases E name o s) as [[o1 [e1 [x Q]]]|[o1 [e1 [p [f [r [P [_ [WC Q]]]]]]]]].
  - rewrite Q in H. congruence.
  - exfalso. apply prepare_write_Ok in P. destruct P as [_ [e2 [e3 [r1 [V _]]]]].
    destruct (verify_verified E VWrite o o1 e3 r1 DB DO V) as [cv [a [ds VD]]].
    destruct (write_storable E o o1 cv a ds VD (ST cv (vd_cv _ _ _ _ _ _ VD))) as [g W].
    rewrite Q in H. congruence.
Qed.
Print Assumptions C31_all_or_nothing_partial.

(** The object of the example can be stored, but not verified after one of its
    attributes is changed: the file keeps its content. *)
Example C31_case :
  (let o := put "GLOBAL_DataType" (VStr false "FIRE") trip in
   dicts_ok o /\ (forall cv, convention_of demo o cv -> storable cv o)
   /\ exists e, m_res (snd (write_sofa demo "old" o disk)) = Err e /\ fst (write_sofa demo "old" o disk) = disk)
  /\ exists e, m_res (snd (write_sofa demo "/sys/x" trip disk)) = Err e /\ fst (write_sofa demo "/sys/x" trip disk) = disk.
Proof.
  split; [|eexists; split; vm_compute; reflexivity].
  assert (DP : dicts_ok (put "GLOBAL_DataType" (VStr false "FIRE") trip)) by (apply put_dicts; exact trip_dicts).
  split; [exact DP|]. split; [|eexists; split; vm_compute; reflexivity].
  intros cv CO.
  assert (cv = cv10) by (eapply convention_unique; [exact demo_db_ok| |exact CO]; apply in_hrir_ok; vm_compute; reflexivity).
  subst cv. apply storableb_ok; [apply some_text_ok; vm_compute; reflexivity|vm_compute; reflexivity].
Qed.

(** the file that can be read before can not be read after a failed attempt to
    replace it *)
Theorem C31_refuted :
  let s := fst (write_sofa demo "old" trip disk) in
  let umlaut := with_words (VStr false ("B" +++ str1 (ascii_of_nat 252) +++ "hne")) in
  (exists ev p, read_sofa demo s "old" VAuto true = (ev, Ok p))
  (* an additional axis *)
  /\ (exists s' o' ev e, write_sofa demo "old" extra_axis s = (s', (o', ev, Err e)) /\ exn_kind e = EValueError
      /\ exists ev2 e2, read_sofa demo s' "old" VAuto true = (ev2, Err e2))
  (* a text with other than ASCII characters *)
  /\ (exists s' o' ev e, write_sofa demo "old" umlaut s = (s', (o', ev, Err e)) /\ exn_kind e = EUnicodeError
      /\ exists ev2 e2, read_sofa demo s' "old" VAuto true = (ev2, Err e2)).
Proof.
  intros s umlaut. split; [do 2 eexists; vm_compute; reflexivity|].
  split; do 4 eexists; (split; [vm_compute; reflexivity|]); (split; [vm_compute; reflexivity|]); do 2 eexists; vm_compute; reflexivity.
Qed.
Print Assumptions C31_refuted.

(** ** C32 *)

(** The file can be read with [read_sofa_as_netcdf] and, if an object of the
    convention can be created, with [read_sofa]. In both cases the object
    contains the same data. Missing: objects that are not [storable],
    [faithful] or [readable_again], see [C32_refuted]. *)
Theorem C32_round_trip_partial :
  forall E name o s s' o' ev cv,
  db_ok E -> db_tidy E -> rules_tidy E -> dicts_ok o -> convention_of E o cv ->
  storable cv o -> faithful cv o ->
  write_sofa E name o s = (s', (o', ev, Ok tt)) ->
  (exists ev2 p, read_sofa_as_netcdf s' name = (ev2, Ok p) /\ same_entries cv o p)
  /\ (forall vo verbose ev2 p, read_sofa E s' name vo verbose = (ev2, Ok p) -> same_entries cv o p)
  /\ (readable_again E cv o -> forall vo verbose,
        (forall b c w, dget "GLOBAL_SOFAConventions" (pub o) = Some (VStr b c) ->
           dget "GLOBAL_SOFAConventionsVersion" (pub o) = Some w -> is_ok (snd (sofa_init E c false (py_str E w) vo)) = true) ->
        exists ev2 p, read_sofa E s' name vo verbose = (ev2, Ok p) /\ same_entries cv o p /\ valid E VRead p).
Proof.
  intros E name o s s' o' ev cv DB TD RT DO CO ST FA W.
  split; [apply (total_netcdf E name o s s' o' ev cv DB DO CO ST W FA)|].
  assert (TS := total_same E name o s s' o' ev cv DB DO CO ST W FA). split; [exact TS|].
  intros RA vo verbose SI.
  destruct (total_read E name o s s' o' ev cv DB RT DO CO ST W FA TD RA vo verbose SI) as [ev2 [p [R [_ [_ V]]]]].
  exists ev2, p. split; [exact R|]. split; [exact (TS _ _ _ _ R)|exact V].
Qed.
Print Assumptions C32_round_trip_partial.

(** the object read from the file that has been written *)
Definition written_and_read (o : sofa) : res unit * res sofa :=
  (m_res (snd (write_sofa demo "a" o disk)), snd (read_sofa demo (fst (write_sofa demo "a" o disk)) "a" VAuto true)).
Definition flt (z : Z) : elt := EFlt (f_of_Z z).

(** texts, numbers and custom data of the example after reading *)
Example C32_case :
  db_tidy demo /\ dicts_ok trip /\ convention_of demo trip cv10 /\ storable cv10 trip /\ faithful cv10 trip
  /\ readable_again demo cv10 trip
  /\ (forall b c w, dget "GLOBAL_SOFAConventions" (pub trip) = Some (VStr b c) ->
        dget "GLOBAL_SOFAConventionsVersion" (pub trip) = Some w -> is_ok (snd (sofa_init demo c false (py_str demo w) VAuto)) = true)
  /\ exists p, written_and_read trip = (Ok tt, Ok p)
     /\ dget "SourceDescriptions" (pub p) = Some (VArr (Arr KU [2] [EStr "left"; EStr "right!"] false))
     /\ dget "Data_IR" (pub p) = Some (VArr (Arr KF [2; 2; 3] (map flt [1; 2; 3; 4; 5; 6; 7; 8; 9; 10; 11; 12]%Z) false))
     /\ dget "Weight" (pub p) = Some (VArr (Arr KF [2; 1] (map flt [5; 6]%Z) false))
     /\ dget "Weight_Units" (pub p) = Some (VStr false "gram")
     /\ dget "GLOBAL_Note" (pub p) = Some (VStr false "by hand").
Proof.
  split; [exact demo_tidy|]. split; [exact trip_dicts|]. split; [apply in_hrir_ok; vm_compute; reflexivity|].
  split; [exact trip_storable|]. split; [exact trip_faithful|]. split; [exact trip_readable|]. split.
  - intros b c w G1 G2. assert (X1 : dget "GLOBAL_SOFAConventions" (pub trip) = Some (VStr false "SimpleFreeFieldHRIR")) by (vm_compute; reflexivity).
    assert (X2 : dget "GLOBAL_SOFAConventionsVersion" (pub trip) = Some (VStr false "1.0")) by (vm_compute; reflexivity).
    rewrite X1 in G1. rewrite X2 in G2. injection G1 as <- <-. injection G2 as <-. vm_compute. reflexivity.
  - eexists. split; [vm_compute; reflexivity|]. repeat (split; [vm_compute; reflexivity|]). vm_compute. reflexivity.
Qed.

(** missing data are missing afterwards, at the same positions *)
Definition gaps : sofa := put "Data_Delay" (VArr (Arr KF [1; 2] [EObj; flt 3] true)) trip.
Example C32_missing_data_case :
  dicts_ok gaps /\ convention_of demo gaps cv10 /\ storable cv10 gaps /\ faithful cv10 gaps /\ readable_again demo cv10 gaps
  /\ exists p, written_and_read gaps = (Ok tt, Ok p)
     /\ dget "Data_Delay" (pub p) = Some (VArr (Arr KF [1; 2] [EObj; flt 3] true)).
Proof.
  split; [apply put_dicts; exact trip_dicts|]. split; [apply in_hrir_ok; vm_compute; reflexivity|].
  split; [apply storableb_ok; [apply some_text_ok; vm_compute; reflexivity|vm_compute; reflexivity]|].
  split; [apply faithfulb_ok; vm_compute; reflexivity|]. split; [apply readable_againb_ok; vm_compute; reflexivity|].
  eexists. split; vm_compute; reflexivity.
Qed.

Theorem C32_refuted :
  (* the number that marks missing data is missing *)
  (exists p, written_and_read (put "Data_Delay" (VArr (Arr KF [1; 2] [EFlt fill64; flt 1] false)) trip) = (Ok tt, Ok p)
     /\ dget "Data_Delay" (pub p) = Some (VArr (Arr KF [1; 2] [EObj; flt 1] true)))
  (* NULs in attributes are removed *)
  /\ (exists p, written_and_read (put "GLOBAL_Title" (VStr false ("A" +++ nuls 1 +++ "B")) trip) = (Ok tt, Ok p)
        /\ dget "GLOBAL_Title" (pub p) = Some (VStr false "AB"))
  (* attributes of variables that are not contained are not written *)
  /\ (let o := m_obj (del_attr "RoomTemperature" trip) in
      exists p, written_and_read o = (Ok tt, Ok p)
        /\ dget "RoomTemperature_Units" (pub o) = Some (VStr false "kelvin")
        /\ dget "RoomTemperature_Units" (pub p) = None)
  (* an array with two axes for one dimension *)
  /\ (let o := m_obj (add_variable "Gain" (nums [2; 2] [1; 2; 3; 4]%Z) "double" (Some "M")
                        (put "SourceDescriptions" (VArr (Arr KU [4] (map EStr ["a"; "b"; "c"; "d"]) false))
                          (put "Data_IR" (nums [4; 2; 1] [1; 2; 3; 4; 5; 6; 7; 8]%Z) demo_sofa))) in
      exists p, written_and_read o = (Ok tt, Ok p)
        /\ dget "Gain" (pub p) = Some (VArr (Arr KF [4] (map flt [1; 2; 3; 4]%Z) false)))
  (* files that are written but not read: names with a dot, a variable "Data" *)
  /\ (exists e, written_and_read (m_obj (add_variable "My.Gain" (zi 1) "double" (Some "I") trip)) = (Ok tt, Err e))
  /\ (exists e, written_and_read (m_obj (add_variable "Data" (zi 1) "double" (Some "I") trip)) = (Ok tt, Err e)).
Proof.
  split; [eexists; split; vm_compute; reflexivity|]. split; [eexists; split; vm_compute; reflexivity|].
  split; [intro o; eexists; split; [vm_compute; reflexivity|]; split; vm_compute; reflexivity|].
  split; [intro o; eexists; split; vm_compute; reflexivity|].
  split; eexists; vm_compute; reflexivity.
Qed.
Print Assumptions C32_refuted.

(** ** C33 *)

(** Missing: as in C32, and missing data: masked arrays are compared by numpy in a
    way that is not modelled. *)
Theorem C33_equals_after_reading_partial :
  forall E name o s s' o' ev cv vo verbose x sx verbose',
  db_ok E -> db_tidy E -> rules_tidy E -> dicts_ok o -> convention_of E o cv ->
  storable cv o -> regular o -> faithful cv o -> readable_again E cv o ->
  write_sofa E name o s = (s', (o', ev, Ok tt)) ->
  (forall b c w, dget "GLOBAL_SOFAConventions" (pub o) = Some (VStr b c) ->
     dget "GLOBAL_SOFAConventionsVersion" (pub o) = Some w -> is_ok (snd (sofa_init E c false (py_str E w) vo)) = true) ->
  option_of x sx ->
  exists ev2 p, read_sofa E s' name vo verbose = (ev2, Ok p)
    /\ snd (equals o' p verbose' sx) = Ok true /\ snd (equals p o' verbose' sx) = Ok true.
Proof.
  intros E name o s s' o' ev cv vo verbose x sx verbose' DB TD RT DO CO ST RG FA RA W SI OX.
  destruct (total_read E name o s s' o' ev cv DB RT DO CO ST W FA TD RA vo verbose SI) as [ev2 [p [R [TY [DP _]]]]].
  assert (SE := total_same E name o s s' o' ev cv DB DO CO ST W FA _ _ _ _ R).
  exists ev2, p. split; [exact R|].
  exact (total_equal E name o s s' o' ev cv DB DO CO ST W p verbose' x sx RG SE DP TY OX).
Qed.
Print Assumptions C33_equals_after_reading_partial.

Definition equal_after_reading (o : sofa) : res bool :=
  match write_sofa demo "a" o disk with
  | (s, (o', _, Ok _)) => match read_sofa demo s "a" VAuto true with
                          | (_, Ok p) => snd (equals o' p false None)
                          | (_, Err e) => Err e
                          end
  | (_, (_, _, Err e)) => Err e
  end.
Example C33_case : equal_after_reading trip = Ok true /\ option_of ExAttr (Some "attr")
  (* not a number is kept *)
  /\ equal_after_reading (put "Data_Delay" (VArr (Arr KF [1; 2] [EFlt S754_nan; flt 1] false)) trip) = Ok true.
Proof. repeat split; vm_compute; reflexivity. Qed.

Theorem C33_refuted :
  equal_after_reading (put "GLOBAL_Title" (VStr false ("A" +++ nuls 1 +++ "B")) trip) = Ok false
  /\ equal_after_reading (m_obj (del_attr "RoomTemperature" trip)) = Ok false
  (* not read at all *)
  /\ exists e, equal_after_reading (m_obj (add_variable "Data" (zi 1) "double" (Some "I") trip)) = Err e.
Proof. split; [vm_compute; reflexivity|]. split; [vm_compute; reflexivity|]. eexists. vm_compute. reflexivity. Qed.
Print Assumptions C33_refuted.

(** ** C39 *)

(** Every variable is stored under its name, where the dot in "Data." is the
    underscore of the object, with the letters of one of the alternatives of
    its declaration as dimensions. The extents are the sizes of the dimensions
    of the object, which are those of [get_dimension]. Missing: if all texts are
    empty, the size of S is 0 in the object and 1 in the file
    ([C39_refuted]). *)
Theorem C39_file_dimensions_partial :
  forall E name o s s' o' ev cv, db_ok E -> dicts_ok o -> convention_of E o cv ->
  write_sofa E name o s = (s', (o', ev, Ok tt)) ->
  exists f, file_at s' name f
    /\ (forall k e v d, is_variable cv o k e v -> e_dims e = Some d -> has_char "." k = false ->
          exists n x alt, In (n, x) (nf_vars f) /\ undotted n = k
            /\ In alt (alternatives d) /\ nv_dims x = map str1 (chars (upper alt))
            /\ List.length (nv_shape x) = List.length (nv_dims x)
            /\ forall i l, nth_error (nv_dims x) i = Some l ->
                 exists m z, nth_error (nv_shape x) i = Some m /\ size cv o l z /\ (z <> 0 -> m = z))
    /\ forall l m u, dget l (nf_dims f) = Some (m, u) ->
         exists z, size cv o l z /\ (z <> 0 -> m = z) /\ u = (z =? 0)
           /\ forall o2 ev2 n, get_dimension E l o = (o2, ev2, Ok n) -> pub o2 = pub o -> n = z.
Proof.
  intros E name o s s' o' ev cv DB DO CO W.
  destruct (write_sofa_Ok _ _ _ _ _ _ _ W) as [f [e2 [r [V [WC FA]]]]].
  destruct (verify_verified E VWrite o o' e2 r DB DO V) as [cv' [a [ds VD]]].
  assert (cv' = cv) by (eapply convention_unique; [exact DB|exact CO|apply (vd_cv _ _ _ _ _ _ VD)]). subst cv'.
  exists f. split; [exact FA|]. destruct (written E o o' cv a ds f VD WC) as [_ [W2 _]]. split.
  - intros k e v d IV ED ND.
    destruct (var_file E o o' cv a ds f VD WC k e v IV) as [x [IX SX]].
    destruct SX as [e1 [v1 [d1 [ds1 [n1 [shape [data [is_s [t [S1 [S2 [S3 [S4 [S5 [S6 [S7 [S8 [S9 [_ [_ [_ ->]]]]]]]]]]]]]]]]]]]]].
    rewrite (vd_dims _ _ _ _ _ _ VD) in S4. injection S4 as <-.
    assert (IK : In k (variables cv o)).
    { destruct IV as [D [T G]]. unfold variables. apply in_or_app. left. apply filter_In.
      split; [apply dget_Some_In; eauto|]. rewrite D, ED. reflexivity. }
    destruct (vd_shape _ _ _ _ _ _ VD k IK) as [e' [dd [v' [s0 [alt [A1 [A2 [A3 [A4 [A5 [A6 A7]]]]]]]]]]].
    assert (e' = e) by (destruct IV as [D _]; congruence). subst e'. assert (dd = d) by congruence. subst dd.
    assert (d1 = upper alt) by congruence. subst d1.
    exists (netcdf_name k). eexists. exists alt. split; [exact IX|]. split; [apply netcdf_name_undotted; exact ND|].
    split; [exact A5|]. cbn [nv_dims nv_shape]. split; [reflexivity|].
    destruct (shape_in_at a (map str1 (chars (upper alt))) shape t S9) as [L1 L2].
    split; [exact L1|]. intros i l N. destruct (L2 i l N) as [m [z [M1 [M2 M3]]]]. exists m, z.
    split; [exact M1|]. split; [apply (vd_size _ _ _ _ _ _ VD); exact M2|exact M3].
  - intros l m u G. destruct W2 as [D1 D2]. assert (I : In l (dkeys a)) by (rewrite <- D1; apply dget_Some_In; eauto).
    apply dget_Some_In in I. destruct I as [z Z]. destruct (D2 l z Z) as [m' [G' M]]. rewrite G in G'. injection G' as <- ->.
    assert (SZ := proj1 (vd_size _ _ _ _ _ _ VD l z) Z).
    exists z. split; [exact SZ|]. split; [exact M|]. split; [reflexivity|].
    intros o2 ev2 n GD PE. destruct (get_dimension_fresh E l o o2 ev2 n DB DO GD) as [cv2 [C2 [_ S2]]].
    assert (cv2 = cv) by (eapply convention_unique; [exact DB|exact CO|exact C2]). subst cv2.
    assert (X := proj2 (vd_size _ _ _ _ _ _ VD l n) (S2 PE)). congruence.
Qed.
Print Assumptions C39_file_dimensions_partial.

Example C39_case :
  let s := fst (write_sofa demo "a" trip disk) in
  (exists f, file_at s "a" f
    /\ nf_dims f = [("R", (2, false)); ("E", (1, false)); ("M", (2, false)); ("N", (3, false));
                    ("C", (3, false)); ("I", (1, false)); ("S", (6, false))]
    /\ map (fun nx => (fst nx, nv_dims (snd nx), nv_shape (snd nx)))
           (filter (fun nx => smem (fst nx) ["SourceDescriptions"; "Data.IR"; "Weight"]) (nf_vars f))
       = [("SourceDescriptions", ["M"; "S"], [2; 6]); ("Data.IR", ["M"; "R"; "N"], [2; 2; 3]);
          ("Weight", ["M"; "I"], [2; 1])])
  /\ m_res (get_dimension demo "N" trip) = Ok 3 /\ pub (m_obj (get_dimension demo "N" trip)) = pub trip.
Proof.
  intro s. split; [|split; vm_compute; reflexivity]. eexists. split; [eexists; split; vm_compute; reflexivity|].
  split; vm_compute; reflexivity.
Qed.

Theorem C39_refuted :
  let s := fst (write_sofa demo "a" demo_sofa disk) in
  m_res (snd (write_sofa demo "a" demo_sofa disk)) = Ok tt
  /\ (exists f x, file_at s "a" f /\ dget "SourceDescriptions" (nf_vars f) = Some x
       /\ nv_dims x = ["M"; "S"] /\ nv_shape x = [1; 1] /\ dget "S" (nf_dims f) = Some (1, true))
  /\ m_res (get_dimension demo "S" demo_sofa) = Ok 0.
Proof.
  intro s. split; [vm_compute; reflexivity|]. split; [|vm_compute; reflexivity].
  do 2 eexists. split; [eexists; split; vm_compute; reflexivity|]. split; [vm_compute; reflexivity|]. repeat split; vm_compute; reflexivity.
Qed.
Print Assumptions C39_refuted.

(** ** C40 *)

(** The array that is read has the extents of the file, except that a single
    number loses the first axis. Missing: other singleton dimensions are kept
    ([C40_refuted]). *)
Theorem C40_shape_partial :
  forall E s name vo verbose ev f p n x k fill d,
  file_at s name f -> file_wf f -> NoDup (file_names f) ->
  read_sofa E s name vo verbose = (ev, Ok p) ->
  In (n, x) (nf_vars f) -> nv_data x = DNum k fill d ->
  exists w, dget (undotted n) (pub p) = Some w
    /\ sh_squeeze (shape_of w) = sh_squeeze (nv_shape x)
    /\ (prod (nv_shape x) <> 1 -> shape_of w = nv_shape x)
    /\ (shape_of w <> nv_shape x -> shape_of w = tl (nv_shape x)).
Proof.
  intros E s name vo verbose ev f p n x k fill d FA WF ND R IX ND'.
  assert (SD := C34_exact_content E s name vo verbose ev f p FA WF ND R).
  destruct (sd_vars _ _ SD n x IX) as [w [G [sh [sh' [el [H1 [H2 [_ [H3 _]]]]]]]]].
  exists w. split; [exact G|].
  assert (SH : sh = nv_shape x).
  { inversion H1; subst; [reflexivity|congruence]. }
  assert (SW : shape_of w = sh').
  { destruct w as [b t|e|a|l]; cbn in H2 |- *; [destruct H2 as [-> _]|destruct H2 as [-> _]|destruct H2 as [-> _]|destruct H2]; reflexivity. }
  rewrite SW, <- SH. destruct H3 as [->|[P ->]].
  - split; [reflexivity|]. split; [reflexivity|]. intro X. destruct (X eq_refl).
  - split; [|split; [congruence|reflexivity]]. destruct sh as [|m t]; [reflexivity|]. cbn [tl].
    cbn [prod fold_right] in P. apply Nat.eq_mul_1 in P. destruct P as [-> _]. reflexivity.
Qed.
Print Assumptions C40_shape_partial.

(** the shape after writing and reading *)
Definition shape_after (k : string) (v : value) : option (list nat) :=
  match written_and_read (put k v demo_sofa) with
  | (Ok _, Ok p) => option_map shape_of (dget k (pub p))
  | _ => None
  end.
Example C40_case :
  shape_after "Data_IR" (nums [1; 2; 3] [1; 2; 3; 4; 5; 6]%Z) = Some [1; 2; 3]
  /\ shape_after "Data_SamplingRate" (nums [1] [44100]%Z) = Some [].
Proof. split; vm_compute; reflexivity. Qed.

(** Data_IR has the dimensions MRN *)
Theorem C40_refuted :
  shape_after "Data_IR" (nums [1; 2] [1; 2]%Z) = Some [1; 2; 1]
  /\ shape_after "ListenerPosition" (nums [3] [1; 2; 3]%Z) = Some [1; 3].
Proof. split; vm_compute; reflexivity. Qed.
Print Assumptions C40_refuted.
