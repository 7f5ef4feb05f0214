(** Information about opened files (C62). *)
From Verif Require Import ReadFacts Base PyStr PyNum NdArray Sofa Verify Utils Io Stream Demo SpecAttr SpecInit SpecVerify SpecEquals SpecIo SpecStore
  SpecStream SpecInfo SpecListing SpecStreamInfo BaseFacts StrFacts CoreFacts InitFacts ValidFacts DictFacts VerifyFacts DimFacts
  WriteFacts IoFacts PathFacts RoundFacts SameFacts TotalFacts DemoFacts PropVerify PropIo PropRound PropInfo PropStream.
From Coq Require Import Permutation ZArith Lia.
Open Scope Z_scope.
Open Scope string_scope.
Open Scope list_scope.
Open Scope nat_scope.

Lemma replace_undotted n : replace_char "." "_" n = undotted n.
Proof. unfold undotted. induction n as [|c n IH]; [reflexivity|]. cbn [replace_char smap]. rewrite IH. reflexivity. Qed.

Lemma sconcat_app {A} (g : A -> string) l m : sconcat g (l ++ m) = sconcat g l +++ sconcat g m.
Proof. induction l as [|x l IH]; [reflexivity|]. cbn [app sconcat]. rewrite IH, sapp_assoc. reflexivity. Qed.

Lemma sconcat_map {A} (g : A -> string) l : sconcat (fun r => r) (map g l) = sconcat g l.
Proof. induction l as [|x l IH]; [reflexivity|]. cbn [map sconcat]. rewrite IH. reflexivity. Qed.

Lemma dashes (l : list ascii) : String.length (sconcat (fun _ => "-") l) = List.length l
  /\ forall x, In x (chars (sconcat (fun _ => "-") l)) -> x = "-"%char.
Proof.
  induction l as [|c l [IH1 IH2]]; [split; [reflexivity|intros x []]|]. cbn [sconcat append]. split.
  - cbn [String.length List.length]. rewrite IH1. reflexivity.
  - intros x [<-|I]; [reflexivity|apply IH2, I].
Qed.

(** the shape in words *)
Lemma verbose_shape dims : forall shape, List.length dims = List.length shape -> shape <> [] ->
  exists l, sconcat (fun p => snd p +++ "=" +++ nat_str (fst p) +++ ", ") (combine shape dims) = commas l +++ ", "
    /\ Forall2 (fun p t => t = fst p +++ "=" +++ nat_str (snd p)) (combine dims shape) l.
Proof.
  induction dims as [|d dims IH]; intros [|n shape] L N; try discriminate L; [destruct (N eq_refl)|].
  injection L as L. destruct shape as [|m shape].
  - destruct dims; [|discriminate L]. exists [d +++ "=" +++ nat_str n]. split; [|repeat constructor].
    cbn [combine sconcat fst snd commas]. rewrite !sapp_assoc. reflexivity.
  - destruct (IH (m :: shape) L ltac:(discriminate)) as [l [Q F]].
    exists ((d +++ "=" +++ nat_str n) :: l). split.
    + change (combine (n :: m :: shape) (d :: dims)) with ((n, d) :: combine (m :: shape) dims).
      cbn [sconcat]. rewrite Q. destruct l as [|t l].
      { destruct dims; [discriminate L|]. inversion F. }
      cbn [commas fst snd]. rewrite !sapp_assoc. reflexivity.
    + change (combine (d :: dims) (n :: m :: shape)) with ((d, n) :: combine dims (m :: shape)). constructor; [reflexivity|exact F].
Qed.

Lemma raw_array_Ok x : var_wf x -> nv_data x <> DOther ->
  exists a, raw_array x = Ok a /\ a_shape a = nv_shape x /\ raw_elements x (a_data a) /\ a_mask a = has_missing x
    /\ (forall e, In e (a_data a) -> elt_kind e = a_kind a \/ (a_mask a = true /\ e = EObj)) /\ a_kind a <> KU /\ List.length (a_data a) = prod (nv_shape x).
Proof.
  intros W N. unfold raw_array, var_wf, has_missing in *. destruct (nv_data x) as [k fill d|t|] eqn:D; [| |congruence].
  - eexists. split; [reflexivity|]. cbn. destruct W as [K [L KE]]. split; [reflexivity|]. split; [apply (re_num x k fill d _ D); apply read_elts|].
    split; [destruct fill; reflexivity|]. split; [exact (read_elts_kind fill d k KE)|]. split; [destruct K; subst; discriminate|rewrite map_length; exact L].
  - eexists. split; [reflexivity|]. cbn [a_shape a_data a_mask a_kind]. split; [reflexivity|].
    split.
    { replace (map (fun c => EByt (strip_nul (str1 c))) (chars t)) with (map (fun c => EByt (if Ascii.eqb c Ascii.zero then "" else str1 c)) (chars t));
        [exact (re_char x t D)|]. apply map_ext. intro c. reflexivity. }
    split; [reflexivity|]. split; [|split; [discriminate|rewrite map_length, chars_length; exact W]].
    intros e I. apply in_map_iff in I. destruct I as [c [<- _]]. left. reflexivity.
Qed.

Lemma elt_not_text e : elt_kind e <> KU -> scalar_value e = VScal e.
Proof. destruct e; cbn; try reflexivity. intro H. destruct (H eq_refl). Qed.

Lemma inspect_var_Ok E f n x : In (n, x) (nf_vars f) -> inspectable f ->
  exists rows, stream_inspect_var E (n, x) = Ok (sconcat (fun r => r) rows)
    /\ Forall2 (fun k r => exists t, r = k +++ " : " +++ t /\ shows E f k t)
         (undotted n :: map (fun a => undotted n +++ "_" +++ a) (dkeys (nv_attrs x))) rows.
Proof.
  intros I IP. destruct (ip_var _ IP n x I) as [W [N [NS L]]].
  destruct (raw_array_Ok x W N) as [a [RA [AS [RE [AM [KE [KU LE]]]]]]].
  unfold stream_inspect_var. rewrite RA, replace_undotted. cbn [rbind]. cbv zeta.
  match goal with |- context[rbind (rconcat ?g (nv_attrs x)) _] => assert (AT : exists rows, rconcat g (nv_attrs x) = Ok (sconcat (fun r => r) rows)
    /\ Forall2 (fun k r => exists t, r = k +++ " : " +++ t /\ shows E f k t) (map (fun a => undotted n +++ "_" +++ a) (dkeys (nv_attrs x))) rows) end.
  { assert (Q : forall b v, In (b, v) (nv_attrs x) -> (exists c t, v = VStr c t /\ shows E f (undotted n +++ "_" +++ b) (t +++ nl)) /\ ~ In b variable_members).
    { intros b v J. destruct (ip_attr _ IP n x b v I J) as [[c [t ->]] M]. split; [|exact M]. exists c, t. split; [reflexivity|].
      apply (sh_attr E f n x b c t I J). }
    revert Q. unfold dkeys. induction (nv_attrs x) as [|[b v] l IH]; intro Q; [exists []; split; [reflexivity|constructor]|].
    destruct (Q b v (or_introl eq_refl)) as [[c [t [-> SH]]] M].
    destruct IH as [rows [R F]]; [intros b' v' J; apply Q; right; exact J|].
    cbn [rconcat map fst snd]. apply smem_false in M. rewrite M. cbn [rbind]. rewrite R. cbn [rbind].
    exists ((undotted n +++ "_" +++ b +++ " : " +++ t +++ nl) :: rows). split; [reflexivity|].
    constructor; [|exact F]. exists (t +++ nl). split; [|exact SH]. rewrite !sapp_assoc. reflexivity. }
  destruct AT as [rows [R F]]. rewrite R.
  assert (VS : forall s, raw_value x s (VArr (reshape a s))).
  { intro s. exists (a_data a). split; [exact RE|]. split; [|exact AM]. split; [reflexivity|]. split; [reflexivity|exact KE]. }
  assert (TX : forall txt, shows E f (undotted n) txt ->
     exists rows', Ok (undotted n +++ " : " +++ txt +++ sconcat (fun r => r) rows) = Ok (sconcat (fun r => r) rows')
    /\ Forall2 (fun k r => exists t, r = k +++ " : " +++ t /\ shows E f k t)
         (undotted n :: map (fun a => undotted n +++ "_" +++ a) (dkeys (nv_attrs x))) rows').
  { intros txt SH. exists ((undotted n +++ " : " +++ txt) :: rows). split; [cbn [sconcat]; rewrite !sapp_assoc; reflexivity|].
    constructor; [eauto|exact F]. }
  destruct (Nat.eqb_spec (prod (nv_shape x)) 1) as [P1|P1].
  - assert (SV : exists v, match a_shape a, a_data a with
                | [_], [e] => if a_mask a then Ok (VArr (reshape a [])) else Ok (scalar_value e)
                | _ :: rest, _ => Ok (VArr (reshape a rest))
                | _, _ => Err (Exn EIndexError "too many indices for array")
                end = Ok v /\ raw_value x (tl (nv_shape x)) v).
    { rewrite AS. destruct (nv_shape x) as [|m [|m' rest]] eqn:SX; [destruct (NS eq_refl)| |].
      - rewrite P1 in LE. destruct (a_data a) as [|e [|]] eqn:AD; try discriminate LE.
        destruct (a_mask a) eqn:MM; eexists; (split; [reflexivity|]); [apply VS|].
        assert (NE : elt_kind e <> NdArray.KU) by (destruct (KE e (or_introl eq_refl)) as [->|[X _]]; [exact KU|discriminate X]).
        rewrite (elt_not_text e NE). exists [e]. split; [exact RE|]. split; [|exact AM].
        split; [reflexivity|]. split; [reflexivity|exact NE].
      - destruct (a_data a) as [|e [|]]; eexists; (split; [reflexivity|apply VS]). }
    destruct SV as [v [-> RV]]. cbn [rbind]. apply TX. apply (sh_single E f n x v I P1 RV).
  - cbn [rbind]. destruct (verbose_shape (nv_dims x) (nv_shape x) L NS) as [l [Q FL]]. rewrite Q.
    change 2 with (String.length ", ") at 1.
    match goal with |- context[drop_end _ ?t] => replace t with (("(" +++ commas l) +++ ", ") by reflexivity end.
    rewrite drop_end_app, AS.
    destruct (Nat.ltb_spec (prod (nv_shape x)) 7) as [P7|P7].
    + apply TX. rewrite sapp_assoc. apply (sh_small E f n x l (VArr (reshape a (sh_squeeze (nv_shape x)))) I P1 ltac:(lia) FL (VS _)).
    + apply TX. rewrite sapp_assoc. change (")" +++ nl +++ "") with (")" +++ nl). apply (sh_large E f n x l I ltac:(lia) FL).
Qed.

(** ** C62: inspect *)
(** Missing for the full claim: inspect raises for some files that read_sofa can
    read, see [C62_refuted]. *)
Theorem C62_inspect_partial : forall E f, inspectable f ->
  exists text, stream_inspect E f = Ok text /\ inspection E f text.
Proof.
  intros E f IP. unfold stream_inspect, inspection.
  assert (HD : forall k, In k ["SOFAConventions"; "SOFAConventionsVersion"; "Version"] -> exists v, dget k (nf_attrs f) = Some v /\ getncattr (nf_attrs f) k = Ok v).
  { intros k I. apply (ip_head _ IP) in I. apply dget_Some_In in I. destruct I as [v G]. exists v. split; [exact G|]. unfold getncattr. rewrite G. reflexivity. }
  destruct (HD "SOFAConventions") as [c [G1 ->]]; [cbn [In]; auto|].
  destruct (HD "SOFAConventionsVersion") as [v [G2 ->]]; [cbn [In]; auto|].
  destruct (HD "Version") as [s [G3 ->]]; [cbn [In]; auto|].
  cbn [rbind]. cbv zeta.
  assert (VR : exists rows, rconcat (stream_inspect_var E) (nf_vars f) = Ok (sconcat (fun r => r) rows)
    /\ Forall2 (fun k r => exists t, r = k +++ " : " +++ t /\ shows E f k t)
       (flat_map (fun nx => undotted (fst nx)
        :: map (fun a => undotted (fst nx) +++ "_" +++ a) (dkeys (nv_attrs (snd nx)))) (nf_vars f)) rows).
  { assert (Q : forall n x, In (n, x) (nf_vars f) -> In (n, x) (nf_vars f)) by auto. revert Q. generalize (nf_vars f) at 1 3 4.
    induction d as [|[n x] d IH]; intro Q; [exists []; split; [reflexivity|constructor]|].
    destruct (inspect_var_Ok E f n x (Q n x (or_introl eq_refl)) IP) as [r1 [R1 F1]].
    destruct IH as [r2 [R2 F2]]; [intros m y J; apply Q; right; exact J|].
    exists (r1 ++ r2). cbn [rconcat]. rewrite R1, R2. cbn [rbind]. rewrite sconcat_app. split; [reflexivity|].
    cbn [flat_map fst snd]. apply Forall2_app; [exact F1|exact F2]. }
  destruct VR as [rows [-> FR]]. cbn [rbind]. eexists. split; [reflexivity|].
  set (title := py_str E c +++ " " +++ py_str E v +++ " (SOFA version " +++ py_str E s +++ ")").
  exists c, v, s, title, (sconcat (fun _ => "-") (chars (title +++ nl))),
    (map (fun av => "GLOBAL_" +++ fst av +++ " : " +++ py_str E (snd av) +++ nl) (nf_attrs f) ++ rows).
  split; [exact G1|]. split; [exact G2|]. split; [exact G3|]. split; [reflexivity|].
  split; [rewrite (proj1 (dashes _)), chars_length, sapp_length; cbn; lia|].
  split; [apply (proj2 (dashes _))|]. split.
  - rewrite sconcat_app, sconcat_map. unfold title. rewrite !sapp_assoc. reflexivity.
  - unfold inspected_names. apply Forall2_app; [|exact FR].
    assert (Q : forall a v, In (a, v) (nf_attrs f) -> In (a, v) (nf_attrs f)) by auto. revert Q. unfold dkeys. generalize (nf_attrs f) at 1 3 4.
    induction d as [|[b w] d IH]; intro Q; cbn [map]; constructor; [|apply IH; intros a' v' J; apply Q; right; exact J].
    exists (py_str E w +++ nl). cbn [fst snd]. split; [rewrite !sapp_assoc; reflexivity|]. apply sh_global. apply Q. left. reflexivity.
Qed.
Print Assumptions C62_inspect_partial.

(** no attribute of the file is left out *)
Lemma inspected_eq f : (forall n x, In (n, x) (nf_vars f) -> ~ In "_Encoding" (dkeys (nv_attrs x))) ->
  inspected_names f = file_names f.
Proof.
  intro H. unfold inspected_names, file_names. f_equal. revert H. induction (nf_vars f) as [|[n x] l IH]; intro H; [reflexivity|].
  cbn [flat_map fst snd]. rewrite IH by (intros m y I; apply (H m y); right; exact I).
  do 3 f_equal. assert (N := H n x (or_introl eq_refl)). clear -N. induction (dkeys (nv_attrs x)) as [|b l IH]; [reflexivity|].
  cbn [filter]. destruct (String.eqb_spec b "_Encoding") as [->|_]; [destruct N; left; reflexivity|]. cbn [negb].
  rewrite <- IH; [reflexivity|]. intro I. apply N. right. exact I.
Qed.

(** Every object that is written can be inspected in its file; exactly its data
    are listed *)
Theorem C62_written_partial : forall E name o s s' o' ev cv p, db_ok E -> dicts_ok o -> convention_of E o cv ->
  storable cv o -> faithful cv o -> contained o "GLOBAL_Version" ->
  write_sofa E name o s = (s', (o', ev, Ok tt)) -> sofa_path name = Ok p ->
  exists f text, stream_open s' p = Ok f /\ stream_inspect E f = Ok text /\ inspection E f text
    /\ Permutation (inspected_names f) (dkeys (pub o)).
Proof.
  intros E name o s s' o' ev cv p DB DO CO ST FT GV W SP.
  destruct (write_sofa_Ok _ _ _ _ _ _ _ W) as [f [e2 [r [V [WC FA]]]]].
  destruct (verify_verified E VWrite o o' e2 r DB DO V) as [cv' [a [ds VD]]].
  assert (cv' = cv) by (eapply convention_unique; [exact DB|exact CO|apply (vd_cv _ _ _ _ _ _ VD)]). subst cv'.
  destruct FA as [p' [SP' FI]]. assert (p' = p) by congruence. subst p'.
  destruct (written E o o' cv a ds f VD WC) as [W1 _].
  assert (FW := file_is_wf E o o' cv a ds f VD ST WC).
  assert (FR := file_can_be_read E o o' cv a ds f VD ST FT WC).
  assert (GA : forall r, contained o ("GLOBAL_" +++ r) -> In r (dkeys (nf_attrs f))).
  { intros q C. assert (I : In ("GLOBAL_" +++ q) (filter (startswith "GLOBAL_") (dkeys (pub o)))).
    { apply filter_In. split; [exact C|]. apply startswith_iff. eauto. }
    rewrite W1, gattrs_keys, (vd_pub _ _ _ _ _ _ VD). apply (in_map (sdrop 7)) in I. exact I. }
  assert (NE : forall n x, In (n, x) (nf_vars f) -> ~ In "_Encoding" (dkeys (nv_attrs x))).
  { intros n x I J. destruct (file_var E o o' cv a ds f VD ST WC n x I) as [k [e [v [d [alt [m [sh [bb [IV [_ [_ [_ [_ [_ [_ [_ H4]]]]]]]]]]]]]]]].
    rewrite H4, (vattrs_keys E o o' cv a ds VD) in J. apply in_map_iff in J. destruct J as [j [Q J]].
    apply sub_spec in J. destruct J as [C [q ->]]. rewrite sdrop_sub in Q. subst q.
    destruct (fa_once _ _ FT k "_Encoding" _ ltac:(split; [eauto|reflexivity]) C) as [_ [_ [X _]]]. apply X. reflexivity. }
  assert (IP : inspectable f).
  { constructor.
    - destruct CO as [b [c [w [ct [G1 [G2 _]]]]]].
      intros k [<-|[<-|[<-|[]]]]; apply GA; [apply dget_Some_In; eauto..|exact GV].
    - intros n x I. split; [apply (fw_vars _ FW n x I)|]. assert (VRE := proj1 (proj1 (proj2 FR) n x I)).
      destruct (file_var E o o' cv a ds f VD ST WC n x I) as [k [e [v [d [alt [m [sh [bb [IV [_ [H1 [H2 [_ [_ [H3 [H5 H4]]]]]]]]]]]]]]]].
      assert (NA := alt_nonempty o cv ST k e v d alt IV H1 H2). rewrite H5, map_length, chars_length, upper_length.
      revert H3. generalize (nv_data x) (nv_shape x). intros dd ss H3.
      destruct H3 as [sh0 fs t X1 X2 [X3 _] X5 X6|sh0 ts t X1 X2 X3 [X4 _] [b0 [-> X7]] X8]; (split; [discriminate|]).
      + rewrite X3. split; [|reflexivity]. intros ->. destruct alt; [congruence|discriminate X3].
      + split; [destruct t; discriminate|]. rewrite app_length, X4, sapp_length. cbn. lia.
    - intros n x b v I J. split.
      + destruct (file_var E o o' cv a ds f VD ST WC n x I) as [k [e [v0 [d [alt [m [sh [bb [IV [_ [_ [_ [_ [_ [_ [_ H4]]]]]]]]]]]]]]]].
        rewrite H4 in J. destruct (attrs_texts E o' k b v (or_intror J)) as [t ->]. eauto.
      + assert (IB : In b (dkeys (nv_attrs x))) by (apply in_map_iff; exists (b, v); split; [reflexivity|exact J]).
        apply (proj2 (proj2 (proj1 (proj2 FR) n x I)) b IB). intros ->. apply (NE n x I IB). }
  destruct (C62_inspect_partial E f IP) as [text [T1 T2]]. exists f, text.
  split; [apply (stream_open_written name p s' SP f FI)|]. split; [exact T1|]. split; [exact T2|].
  rewrite (inspected_eq f NE). apply NoDup_Permutation.
  - apply (names_nodup E o o' cv a ds f VD ST FT WC).
  - apply (vd_nodup _ _ _ _ _ _ VD).
  - intro k. apply (names_iff E o o' cv a ds f VD ST FT WC k).
Qed.
Print Assumptions C62_written_partial.

(** ** list_dimensions of a stream shows what get_dimension returns *)
Theorem C62_dimensions_partial : forall f text, NoDup (dkeys (nf_dims f)) -> stream_list_dimensions f = Ok text ->
  exists l, table text "" l dimension_line /\ NoDup (map fst l)
    /\ forall d n, In (d, n) l <-> stream_get_dimension f d = Ok n.
Proof.
  intros f text ND H. exists (map (fun kn : string * (nat * bool) => (fst kn, fst (snd kn))) (nf_dims f)).
  split; [|split].
  - assert (HB : stream_dimensions_text f = Ok text)
      by (unfold stream_list_dimensions in H; destruct (stream_dimensions_text f) as [u|[[] m]]; try discriminate H; try exact H;
          destruct (_ || _); discriminate H).
    clear H. rename HB into H. unfold stream_dimensions_text in H.
    destruct (getncattr (nf_attrs f) "DataType") as [[b dt| | |]|]; cbn [rbind] in H; try discriminate H. cbv zeta in H.
    match type of H with rbind ?m _ = _ => destruct m as [r|]; cbn [rbind] in H; [|discriminate H] end.
    match type of H with rbind ?m _ = _ => destruct m as [e|]; cbn [rbind] in H; [|discriminate H] end.
    match type of H with rbind ?m _ = _ => destruct m as [nv|]; cbn [rbind] in H; [|discriminate H] end.
    injection H as <-.
    match goal with |- table (sconcat ?g ?a) _ _ _ => exists (map g a); split; [rewrite sconcat_map; reflexivity|] end.
    clear. induction (nf_dims f) as [|[k [n u]] l IH]; constructor; [|exact IH]. cbn [fst snd]. unfold dimension_line. cbn [fst snd].
    eexists. reflexivity.
  - rewrite map_map. cbn [fst]. exact ND.
  - intros d n. unfold stream_get_dimension. split.
    + intro I. apply in_map_iff in I. destruct I as [[k [m u]] [Q I]]. injection Q as -> ->.
      apply (In_dget _ _ _ ND) in I. rewrite I. reflexivity.
    + destruct (dget d (nf_dims f)) as [[m u]|] eqn:G; [|discriminate]. intro Q. injection Q as ->.
      apply in_map_iff. exists (d, (n, u)). split; [reflexivity|apply dget_In; exact G].
Qed.
Print Assumptions C62_dimensions_partial.

Example C62_case :
  dicts_ok trip /\ convention_of demo trip cv10 /\ storable cv10 trip /\ faithful cv10 trip /\ contained trip "GLOBAL_Version"
  /\ m_res (snd (write_sofa demo "trip" trip disk)) = Ok tt
  /\ (exists text, stream_inspect demo trip_file = Ok text
        /\ contains ("SimpleFreeFieldHRIR 1.0 (SOFA version 2.1)" +++ nl) text = true
        /\ contains ("GLOBAL_Note : by hand" +++ nl) text = true
        /\ contains ("Data_IR : (M=2, R=2, N=3)" +++ nl) text = true
        /\ contains ("Data_SamplingRate_Units : hertz" +++ nl) text = true)
  /\ (exists text, stream_list_dimensions trip_file = Ok text
        /\ contains ("N = 3 samples" +++ nl) text = true).
Proof.
  split; [exact trip_dicts|]. split; [apply in_hrir_ok; vm_compute; reflexivity|]. split; [exact trip_storable|]. split; [exact trip_faithful|].
  split; [assert (X : smem "GLOBAL_Version" (dkeys (pub trip)) = true) by (vm_compute; reflexivity); exact (proj1 (smem_In _ _) X)|]. split; [vm_compute; reflexivity|]. split.
  - eexists. split; [vm_compute; reflexivity|]. repeat (split; [vm_compute; reflexivity|]). vm_compute. reflexivity.
  - eexists. split; vm_compute; reflexivity.
Qed.

(** a file with another attribute of a variable *)
Definition attr_file (a : string) (v : value) : ncfile :=
  NcFile (nf_dims trip_file) (nf_attrs trip_file)
    (map (fun nx => if String.eqb (fst nx) "ListenerPosition"
                    then (fst nx, NcVar (nv_dims (snd nx)) (nv_shape (snd nx)) (nv_data (snd nx)) (nv_attrs (snd nx) ++ [(a, v)]))
                    else nx) (nf_vars trip_file)).

Theorem C62_refuted :
  (* an attribute that is a number: the file can be read but not inspected *)
  (let f := attr_file "Number" (VScal (EInt 3)) in
   (exists ev p, read_sofa demo (fs_set "a.sofa" f disk) "a" VNo true = (ev, Ok p)
      /\ dget "ListenerPosition_Number" (pub p) = Some (VScal (EInt 3)))
   /\ exists m, stream_inspect demo f = Err (Exn ETypeError m))
  (* the file has another data type: inspected, but the dimensions are not listed *)
  /\ (let f := NcFile (nf_dims trip_file) (dset "DataType" (VStr false "Audio") (nf_attrs trip_file)) (nf_vars trip_file) in
      is_ok (stream_inspect demo f) = true /\ stream_list_dimensions f = Err (Exn EUnboundLocalError "N_verbose")).
Proof.
  split; [split|].
  - eexists _, _. split; vm_compute; reflexivity.
  - eexists. vm_compute. reflexivity.
  - split; vm_compute; reflexivity.
Qed.
Print Assumptions C62_refuted.
