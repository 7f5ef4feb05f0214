(** C41, C42: access to files with streams. *)
From Verif Require Import Base PyStr PyNum NdArray Sofa Verify Upgrade Utils Io Stream Demo
  SpecAttr SpecInit SpecValue SpecVerify SpecUpgrade SpecEquals SpecIo SpecStore SpecStream
  BaseFacts StrFacts AttrFacts OpFacts InitFacts ProtFacts AddDelFacts MissingFacts CoreFacts IssueFacts ValidFacts VerifyFacts
  DictFacts ShapeFacts DimFacts DemoFacts UpgradeFacts EqualsFacts WriteFacts ReadFacts IoFacts RoundFacts SameFacts AgainFacts
  TotalFacts CheckFacts StreamFacts PathFacts PropVerify PropIo PropRound.
From Coq Require Import ZArith Lia.
Open Scope string_scope.
Open Scope list_scope.
Open Scope nat_scope.

(** ** C41 *)

(** the data returned by the stream and the entry of the object *)
Definition item_held (i : stream_item) (w : value) : Prop :=
  match i with IVar x => var_held x w | IAttr v => attr_held v w end.

(** Missing: files with other names ([C41_refuted]). *)
Theorem C41_contained_partial :
  forall E s name vo verbose ev f p, file_at s name f -> file_wf f -> NoDup (file_names f) -> conventional f ->
  read_sofa E s name vo verbose = (ev, Ok p) ->
  forall k w, dget k (pub p) = Some w -> exists i, stream_get f k = Ok i /\ item_held i w.
Proof.
  intros E s name vo verbose ev f p FA WF ND CF R k w G.
  assert (SD := C34_exact_content E s name vo verbose ev f p FA WF ND R).
  assert (IK : In k (file_names f)) by (apply (sd_names _ _ SD); apply dget_Some_In; eauto).
  assert (OWN := cf_own _ CF k IK). unfold file_names in IK. apply in_app_or in IK. destruct IK as [IK|IK].
  - apply in_map_iff in IK. destruct IK as [a [<- IA]]. destruct (cf_gattr _ CF a IA) as [A1 A2].
    apply in_map_iff in IA. destruct IA as [[a' v] [Q IA]]. cbn [fst] in Q. subst a'.
    rewrite (get_plain f _ a OWN (inner_global a A1) A1).
    destruct (dget a (nf_vars f)) as [x|] eqn:GV; [destruct A2; apply dget_Some_In; eauto|].
    rewrite (attr_found f ND a v IA). exists (IAttr v). split; [reflexivity|].
    destruct (sd_attrs _ _ SD a v IA) as [w' [G' H]]. cbn [item_held]. congruence.
  - apply in_flat_map in IK. destruct IK as [[n x] [IX IK]]. cbn [fst snd] in IK.
    assert (VN : var_named n) by (apply (cf_var _ CF); apply in_map_iff; exists (n, x); auto).
    destruct (inner_var n VN) as [I1 I2]. destruct IK as [<-|IK].
    + rewrite (get_plain f _ n OWN I1 I2). rewrite (var_found f ND n x IX). exists (IVar x). split; [reflexivity|].
      destruct (sd_vars _ _ SD n x IX) as [w' [G' H]]. cbn [item_held]. congruence.
    + apply in_map_iff in IK. destruct IK as [a [<- IA]]. apply filter_In in IA. destruct IA as [IA NE].
      apply negb_true_iff, String.eqb_neq in NE.
      destruct (cf_vattr _ CF n x a IX IA NE) as [A1 A2]. apply in_map_iff in IA. destruct IA as [[a' v] [Q IA]]. cbn [fst] in Q. subst a'.
      rewrite (get_attr f _ n a OWN (inner_vattr n a VN A1) I2 A1). rewrite (var_found f ND n x IX).
      unfold stream_vattr. apply smem_false in A2. rewrite A2. rewrite (vattr_found f ND n x a v IX IA NE).
      exists (IAttr v). split; [reflexivity|]. destruct (sd_vattrs _ _ SD n x a v IX IA NE) as [w' [G' H]]. cbn [item_held]. congruence.
Qed.
Print Assumptions C41_contained_partial.

(** Missing: other names, and names that begin with the name of a global
    attribute ([C41_refuted]). *)
Theorem C41_others_partial :
  forall E s name vo verbose ev f p, file_at s name f -> file_wf f -> NoDup (file_names f) ->
  read_sofa E s name vo verbose = (ev, Ok p) ->
  forall k, asked f k -> ~ In k stream_members -> ~ contained p k ->
  exists m, stream_get f k = Err (Exn EAttributeError m).
Proof.
  intros E s name vo verbose ev f p FA WF ND R k A OWN NC.
  assert (SD := C34_exact_content E s name vo verbose ev f p FA WF ND R).
  assert (NK : ~ In k (file_names f)) by (intro I; apply NC; apply (sd_names _ _ SD); exact I). clear NC.
  assert (NG : forall a d, ~ In a (dkeys d) -> @dget value a d = None).
  { intros a d H. destruct (dget a d) eqn:G; [destruct H; apply dget_Some_In; eauto|reflexivity]. }
  destruct A as [a A1 A2|n A1 A2|n r A1 A2 A3 A4].
  - rewrite (get_plain f _ a OWN (inner_global a A1) A1).
    destruct (dget a (nf_vars f)) as [x|] eqn:GV; [destruct A2; apply dget_Some_In; eauto|].
    destruct (dget a (nf_attrs f)) as [v|] eqn:GA; [|eauto]. exfalso. apply NK. unfold file_names. apply in_or_app. left.
    apply in_map. apply dget_Some_In. eauto.
  - destruct (inner_var n A1) as [I1 I2]. rewrite (get_plain f _ n OWN I1 I2). rewrite (NG n _ A2).
    destruct (dget n (nf_vars f)) as [x|] eqn:GV; [|eauto]. exfalso. apply NK. unfold file_names. apply in_or_app. right.
    apply in_flat_map. exists (n, x). split; [apply dget_In; exact GV|]. left. reflexivity.
  - destruct (inner_var n A1) as [I1 I2]. rewrite (get_attr f _ n r OWN (inner_vattr n r A1 A3) I2 A3). rewrite (NG n _ A2).
    destruct (dget n (nf_vars f)) as [x|] eqn:GV; [|eauto]. unfold stream_vattr. apply smem_false in A4. rewrite A4.
    destruct (dget r (nv_attrs x)) as [v|] eqn:GA; [|eauto]. exfalso. apply NK. unfold file_names. apply in_or_app. right.
    apply in_flat_map. exists (n, x). split; [apply dget_In; exact GV|]. right. cbn [fst snd].
    apply (in_map (fun a => undotted n +++ "_" +++ a)). apply filter_In. split; [apply dget_Some_In; eauto|].
    apply negb_true_iff, String.eqb_neq. intros ->. discriminate A3.
Qed.
Print Assumptions C41_others_partial.

(** ** Examples *)
Definition simpleb (b : string) : bool :=
  negb (has_char "_" b) && negb (has_char "." b) && negb (endswith "Data" b) && negb (endswith "GLOBAL" b).
Lemma simpleb_ok b : simpleb b = true -> simple b.
Proof.
  unfold simpleb. rewrite !andb_true_iff, !negb_true_iff. intros [[[H1 H2] H3] H4]. split; [exact H1|]. split; [exact H2|].
  split; intros r ->.
  - assert (X : endswith "Data" (r +++ "Data") = true) by (apply endswith_iff; eauto). congruence.
  - assert (X : endswith "GLOBAL" (r +++ "GLOBAL") = true) by (apply endswith_iff; eauto). congruence.
Qed.
Definition var_namedb (n : string) : bool :=
  simpleb n || (startswith "Data." n && simpleb (sdrop 5 n)).
Lemma var_namedb_ok n : var_namedb n = true -> var_named n.
Proof.
  unfold var_namedb. rewrite orb_true_iff, andb_true_iff. intros [H|[H1 H2]].
  - exists n. split; [apply simpleb_ok; exact H|left; reflexivity].
  - exists (sdrop 5 n). split; [apply simpleb_ok; exact H2|right]. apply prefix_spec in H1. destruct H1 as [r ->]. reflexivity.
Qed.
Definition conventionalb (f : ncfile) : bool :=
  forallb (fun k => negb (smem k stream_members)) (file_names f)
  && forallb (fun a => negb (has_char "_" a) && negb (smem a (dkeys (nf_vars f)))) (dkeys (nf_attrs f))
  && forallb var_namedb (dkeys (nf_vars f))
  && forallb (fun nx => forallb (fun a => String.eqb a "_Encoding" || (negb (has_char "_" a) && negb (smem a variable_members)))
                          (dkeys (nv_attrs (snd nx)))) (nf_vars f).
Lemma conventionalb_ok f : conventionalb f = true -> conventional f.
Proof.
  unfold conventionalb. rewrite !andb_true_iff, !forallb_forall. intros [[[H1 H2] H3] H4]. constructor.
  - intros k I. apply smem_false. apply negb_true_iff. apply H1. exact I.
  - intros a I. specialize (H2 a I). rewrite andb_true_iff, !negb_true_iff in H2. destruct H2 as [X Y].
    split; [exact X|apply smem_false; exact Y].
  - intros n I. apply var_namedb_ok. apply H3. exact I.
  - intros n x a IX IA NE. specialize (H4 (n, x) IX). rewrite forallb_forall in H4. specialize (H4 a IA).
    apply String.eqb_neq in NE. rewrite NE in H4. cbn [orb] in H4. rewrite andb_true_iff, !negb_true_iff in H4. destruct H4 as [X Y].
    split; [exact X|apply smem_false; exact Y].
Qed.

Definition trip_disk : fs := fst (write_sofa demo "trip" trip disk).
Definition trip_file : ncfile := file_of trip_disk "trip.sofa".
Example C41_case :
  stream_open trip_disk "trip.sofa" = Ok trip_file
  /\ file_at trip_disk "trip" trip_file /\ file_wf trip_file /\ NoDup (file_names trip_file) /\ conventional trip_file
  /\ (exists ev p, read_sofa demo trip_disk "trip" VAuto true = (ev, Ok p)
       /\ ~ contained p "Data_Real" /\ ~ contained p "Weight_Type")
  /\ asked trip_file "Data_Real" /\ asked trip_file "Weight_Type"
  /\ stream_get trip_file "GLOBAL_Note" = Ok (IAttr (VStr false "by hand"))
  /\ stream_get trip_file "Data_SamplingRate_Units" = Ok (IAttr (VStr false "hertz"))
  /\ (exists x, stream_get trip_file "Data_IR" = Ok (IVar x) /\ nv_shape x = [2; 2; 3]).
Proof.
  split; [vm_compute; reflexivity|]. split; [eexists; split; vm_compute; reflexivity|].
  split; [apply file_wfb_ok; vm_compute; reflexivity|]. split; [apply PropIo.nodupb_ok; vm_compute; reflexivity|].
  split; [apply conventionalb_ok; vm_compute; reflexivity|].
  split; [do 2 eexists; split; [vm_compute; reflexivity|]; split; apply smem_false; vm_compute; reflexivity|].
  split; [apply (as_var trip_file "Data.Real"); [apply var_namedb_ok; reflexivity|apply smem_false; vm_compute; reflexivity]|].
  split; [apply (as_attr trip_file "Weight" "Type");
    [apply var_namedb_ok; reflexivity|apply smem_false; vm_compute; reflexivity|reflexivity|apply smem_false; reflexivity]|].
  split; [vm_compute; reflexivity|]. split; [vm_compute; reflexivity|]. eexists. split; vm_compute; reflexivity.
Qed.

(** the stream of the written object *)
Definition streamed (o : sofa) (k : string) : res stream_item :=
  stream_get (file_of (fst (write_sofa demo "a" o disk)) "a.sofa") k.
Theorem C41_refuted :
  (* a variable is returned instead of a global attribute of the same name *)
  (let o := m_obj (add_variable "Note" (zi 1) "double" (Some "I") trip) in
   (exists p, written_and_read o = (Ok tt, Ok p) /\ dget "GLOBAL_Note" (pub p) = Some (VStr false "by hand"))
   /\ exists x, streamed o "GLOBAL_Note" = Ok (IVar x))
  (* names with an underscore *)
  /\ (let f := NcFile (nf_dims trip_file) (nf_attrs trip_file ++ [("My_Note", VStr false "x")]) (nf_vars trip_file) in
      (exists ev p, read_sofa demo (fs_set "a.sofa" f disk) "a" VNo true = (ev, Ok p)
         /\ dget "GLOBAL_My_Note" (pub p) = Some (VStr false "x"))
      /\ exists m, stream_get f "GLOBAL_My_Note" = Err (Exn EAttributeError m))
  (* names that are not contained in the object *)
  /\ (exists p, written_and_read trip = (Ok tt, Ok p)
        /\ Forall (fun k => ~ contained p k /\ streamed trip k = Ok (IAttr (VStr false "by hand")))
             ["Note"; "Note_Units"; "GLOBAL_GLOBAL_Note"])
  (* ValueError instead of AttributeError *)
  /\ exists m, streamed trip "Data_IR_Units_x" = Err (Exn EValueError m).
Proof.
  split; [intro o; split; [eexists; split; vm_compute; reflexivity|eexists; vm_compute; reflexivity]|].
  split; [intro f; split; [do 2 eexists; split; vm_compute; reflexivity|eexists; vm_compute; reflexivity]|].
  split; [|eexists; vm_compute; reflexivity].
  eexists. split; [vm_compute; reflexivity|]. repeat (constructor; [split; [apply smem_false; vm_compute; reflexivity|vm_compute; reflexivity]|]). constructor.
Qed.
Print Assumptions C41_refuted.

(** How the path is spelled does not matter for streams, too. [last_named]: the name does
    not end with a slash or with a single dot as for directories. *)
Definition last_named (p : string) : Prop :=
  exists b, named b = true /\ has_char "/" b = false /\ (p = b \/ exists d, p = d +++ "/" +++ b).
Lemma join_last cs b : cs <> [] -> join "/" cs +++ "/" +++ b = join "/" (cs ++ [b]).
Proof.
  intro NE. induction cs as [|c cs IH]; [congruence|]. destruct cs as [|c' cs]; [reflexivity|].
  change (join "/" (c :: c' :: cs)) with (c +++ "/" +++ join "/" (c' :: cs)).
  change (join "/" ((c :: c' :: cs) ++ [b])) with (c +++ "/" +++ join "/" ((c' :: cs) ++ [b])).
  rewrite <- IH by discriminate. rewrite !sapp_assoc. reflexivity.
Qed.
Lemma last_named_path p : last_named p -> os_path p = Some (path_root p +++ join "/" (path_parts p)).
Proof.
  intros [b [N [S P]]]. unfold os_path. assert (Q : exists t, rev (split "/" p) = b :: t).
  { destruct P as [->|[d ->]]; [exists []; change "/" with (str1 "/"); rewrite (split_no_char "/" b S); reflexivity|].
    exists (rev (split "/" d)). assert (W : split "/" (d +++ "/" +++ b) = split "/" d ++ [b]).
    { rewrite <- (split_join "/" d) at 1. assert (G := split_pieces d). assert (NE := split_cons "/" d).
      change (str1 "/") with "/". revert G NE. generalize (split "/" d). intros cs G NE.
      rewrite (join_last cs b NE). apply split_of_join; [destruct cs; discriminate|]. apply Forall_app. split; [exact G|].
      constructor; [exact S|constructor]. }
    rewrite W, rev_app_distr. reflexivity. }
  destruct Q as [t ->]. unfold named in N. destruct (_ || _); [discriminate N|reflexivity].
Qed.
Theorem C41_spelling :
  forall n m r l, denotes n r l -> denotes m r l -> last_named n -> last_named m ->
  forall s f, stream_open s n = Ok f <-> stream_open s m = Ok f.
Proof.
  assert (X : forall n m r l, denotes n r l -> denotes m r l -> last_named n -> last_named m ->
    forall s f, stream_open s n = Ok f -> stream_open s m = Ok f).
  { intros n m r l D1 D2 N1 N2 s f. unfold stream_open. rewrite (last_named_path n N1), (last_named_path m N2).
    apply denotes_iff in D1. apply denotes_iff in D2. destruct D1 as [R1 L1]. destruct D2 as [R2 L2].
    rewrite <- R1, <- L1, <- R2, <- L2. destruct (dget (r +++ join "/" l) (fs_files s)) as [[g|]|]; congruence. }
  intros n m r l D1 D2 N1 N2 s f. split; [apply (X n m r l)|apply (X m n r l)]; assumption.
Qed.
Print Assumptions C41_spelling.

(** what is opened: the content of the file that the path denotes; names without file and
    files that are not in the NetCDF format ([Some None]) raise *)
Theorem C41_opened :
  forall s n r l, denotes n r l -> last_named n ->
  (forall f, stream_open s n = Ok f <-> dget (path_text r l) (fs_files s) = Some (Some f))
  /\ ((forall f, dget (path_text r l) (fs_files s) <> Some (Some f)) -> stream_open s n = Err (Exn EOSError n)).
Proof.
  intros s n r l D N. unfold stream_open. rewrite (last_named_path n N). apply denotes_iff in D. destruct D as [R L].
  rewrite <- R, <- L. fold (path_text r l). destruct (dget (path_text r l) (fs_files s)) as [[g|]|].
  - split; [intro f; split; congruence|]. intro H. destruct (H g eq_refl).
  - split; [intro f; split; discriminate|reflexivity].
  - split; [intro f; split; discriminate|reflexivity].
Qed.
Print Assumptions C41_opened.

(** other names raise *)
Theorem C41_directories :
  forall s n, ~ last_named n -> exists t, stream_open s n = Err (Exn EOSError t).
Proof.
  intros s n N. unfold stream_open, os_path. destruct (rev (split "/" n)) as [|c t] eqn:R; [eauto|].
  destruct (String.eqb c "" || String.eqb c ".") eqn:B; [eauto|]. destruct N. exists c.
  assert (Q : split "/" n = rev t ++ [c]) by (rewrite <- (rev_involutive (split "/" n)), R; reflexivity).
  assert (G := split_pieces n). rewrite Q in G. apply Forall_app in G. destruct G as [_ G]. inversion G as [|x y S _]; subst.
  split; [unfold named; rewrite B; reflexivity|]. split; [exact S|].
  assert (J : n = join "/" (rev t ++ [c])) by (rewrite <- Q; symmetry; exact (split_join "/" n)).
  destruct (rev t) as [|x y]; [left; exact J|]. right. exists (join "/" (x :: y)). rewrite join_last by discriminate. exact J.
Qed.
Print Assumptions C41_directories.

Example C41_spelling_case :
  last_named "./trip.sofa" /\ denotes "./trip.sofa" "" ["trip.sofa"] /\ last_named "trip.sofa" /\ denotes "trip.sofa" "" ["trip.sofa"]
  /\ stream_open trip_disk "./trip.sofa" = Ok trip_file
  /\ stream_open (Fs [("trip.sofa", None)] (fun _ => true)) "./trip.sofa" = Err (Exn EOSError "./trip.sofa")
  /\ exists t, stream_open trip_disk "trip.sofa/" = Err (Exn EOSError t).
Proof.
  split. { exists "trip.sofa". split; [reflexivity|]. split; [reflexivity|]. right. exists ".". reflexivity. }
  split; [apply denotes_iff; split; reflexivity|].
  split. { exists "trip.sofa". split; [reflexivity|]. split; [reflexivity|]. left. reflexivity. }
  split; [apply denotes_iff; split; reflexivity|]. do 2 (split; [vm_compute; reflexivity|]). eexists. vm_compute. reflexivity.
Qed.

(** ** C42 *)

(** Missing: if all texts are empty, S is 0 in the object and 1 in the file
    ([C42_refuted]). *)
Theorem C42_same_dimensions_partial :
  forall E name o s s' o' ev cv p, db_ok E -> dicts_ok o -> convention_of E o cv ->
  write_sofa E name o s = (s', (o', ev, Ok tt)) -> sofa_path name = Ok p ->
  exists f, stream_open s' p = Ok f
    /\ (forall d o2 ev2 n, get_dimension E d o = (o2, ev2, Ok n) -> pub o2 = pub o -> n <> 0 ->
          stream_get_dimension f d = Ok n)
    /\ (forall d n, size cv o d n -> n <> 0 -> stream_get_dimension f d = Ok n)
    /\ (forall d, ~ (exists n, size cv o d n) -> exists m, stream_get_dimension f d = Err (Exn EValueError m)).
Proof.
  intros E name o s s' o' ev cv p DB DO CO W SP.
  destruct (write_sofa_Ok _ _ _ _ _ _ _ W) as [f [e2 [r [V [WC FA]]]]].
  destruct (verify_verified E VWrite o o' e2 r DB DO V) as [cv' [a [ds VD]]].
  assert (cv' = cv) by (eapply convention_unique; [exact DB|exact CO|apply (vd_cv _ _ _ _ _ _ VD)]). subst cv'.
  exists f. destruct FA as [p' [SP' FI]]. assert (p' = p) by congruence. subst p'.
  split; [apply (stream_open_written name p s' SP f FI)|].
  destruct (written E o o' cv a ds f VD WC) as [_ [[W1 W2] _]].
  assert (A : forall d n, size cv o d n -> n <> 0 -> stream_get_dimension f d = Ok n).
  { intros d n S NZ. apply (vd_size _ _ _ _ _ _ VD) in S. destruct (W2 d n S) as [m [G M]].
    unfold stream_get_dimension. rewrite G. rewrite (M NZ). reflexivity. }
  split; [|split; [exact A|]].
  - intros d o2 ev2 n G P NZ. destruct (get_dimension_fresh E d o o2 ev2 n DB DO G) as [cv2 [C2 [_ S2]]].
    assert (cv2 = cv) by (eapply convention_unique; [exact DB|exact CO|exact C2]). subst cv2. auto.
  - intros d NS. unfold stream_get_dimension. destruct (dget d (nf_dims f)) as [[m u]|] eqn:G; [|eauto].
    destruct NS. assert (I : In d (dkeys a)) by (rewrite <- W1; apply dget_Some_In; eauto).
    apply dget_Some_In in I. destruct I as [n I]. exists n. apply (vd_size _ _ _ _ _ _ VD). exact I.
Qed.
Print Assumptions C42_same_dimensions_partial.

Example C42_case :
  map (stream_get_dimension trip_file) ["M"; "R"; "E"; "N"; "C"; "I"; "S"] = map Ok [2; 2; 1; 3; 3; 1; 6]
  /\ map (fun d => m_res (get_dimension demo d trip)) ["M"; "R"; "E"; "N"; "C"; "I"; "S"] = map Ok [2; 2; 1; 3; 3; 1; 6]
  /\ exists m, stream_get_dimension trip_file "X" = Err (Exn EValueError m).
Proof. split; [vm_compute; reflexivity|]. split; [vm_compute; reflexivity|]. eexists. vm_compute. reflexivity. Qed.

Theorem C42_refuted :
  let f := file_of (fst (write_sofa demo "a" demo_sofa disk)) "a.sofa" in
  m_res (snd (write_sofa demo "a" demo_sofa disk)) = Ok tt
  /\ stream_get_dimension f "S" = Ok 1 /\ m_res (get_dimension demo "S" demo_sofa) = Ok 0.
Proof. repeat split; vm_compute; reflexivity. Qed.
Print Assumptions C42_refuted.
