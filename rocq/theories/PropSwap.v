(** C100, C101: the order of the convention files and files of other conventions. *)
From Verif Require Import Base PyStr PyNum NdArray Sofa Verify Upgrade Utils Io Listing Demo SpecAttr SpecInit SpecVerify SpecSwap
  BaseFacts StrFacts InitFacts MissingFacts SwapFacts LibSwapFacts DemoFacts.
From Coq Require Import Permutation.
Open Scope string_scope.
Open Scope list_scope.

(** ** C100 *)
Definition same_class (e f : exn) : Prop := exn_kind e = exn_kind f.
Lemma same_class_refl e : same_class e e. Proof. reflexivity. Qed.
Definition any_name (n : string) : Prop := True.
Lemma named_any o : named any_name o. Proof. intros b c _. exact I. Qed.

Lemma perm_verify E d : db_ok E -> Permutation (db E) d ->
  forall c v, any_name c -> rrel same_class (verify_convention_and_version E v c) (verify_convention_and_version (with_db E d) v c).
Proof. intros DB P c v _. rewrite (verify_cv_perm E d v c DB P). apply rrel_refl. exact same_class_refl. Qed.
Lemma perm_load E d : db_ok E -> Permutation (db E) d ->
  forall c v, any_name c -> rrel same_class (load_convention E c v) (load_convention (with_db E d) c v).
Proof.
  intros DB P c v _. assert (H := load_perm E d c v DB P).
  destruct (load_convention E c v) as [a|[k m]], (load_convention (with_db E d) c v) as [b|[k' m']]; exact H.
Qed.

(** The calls of the API do not depend on the order in which the convention files are listed *)
Theorem C100_any_order : forall E d, db_ok E -> Permutation (db E) d ->
  (forall c m v vo, same_new (sofa_init E c m v vo) (sofa_init (with_db E d) c m v vo))
  /\ (forall h m o, same_call (verify E h m o) (verify (with_db E d) h m o))
  /\ (forall x o, same_call (get_dimension E x o) (get_dimension (with_db E d) x o))
  /\ (forall t vo o, same_call (upgrade_convention E t vo o) (upgrade_convention (with_db E d) t vo o))
  /\ (forall p o, same_call (run_op E p o) (run_op (with_db E d) p o))
  /\ (forall ops o, run (with_db E d) o ops = run E o ops)
  /\ (forall name o s, fst (write_sofa E name o s) = fst (write_sofa (with_db E d) name o s)
        /\ same_call (snd (write_sofa E name o s)) (snd (write_sofa (with_db E d) name o s)))
  /\ (forall s name vo verbose,
        same_new (read_sofa E s name vo verbose) (read_sofa (with_db E d) s name vo verbose)).
Proof.
  intros E d DB P. assert (HV := perm_verify E d DB P). assert (HL := perm_load E d DB P).
  assert (R := same_class_refl). assert (T : forall n, any_name n) by (intro; exact I).
  split; [intros; apply (init_swap same_class R E d any_name HV HL DB); exact I|].
  split; [intros; apply (verify_call same_class R E d any_name HV HL DB); apply named_any|].
  split; [intros; apply (get_dimension_call same_class R E d any_name HV HL DB); apply named_any|].
  split; [intros; apply (upgrade_call same_class R E d any_name HV HL DB); [apply named_any|intros; exact I|left; exact T]|].
  split; [intros; apply (op_call same_class R E d any_name HV HL DB); apply named_any|].
  split; [intros; apply (run_call same_class R E d any_name HV HL DB); intro; apply named_any|].
  split; [intros; apply (write_call same_class R E d any_name HV HL DB); apply named_any|].
  intros. apply (read_call same_class R E d any_name HV HL DB). left; exact T.
Qed.
Print Assumptions C100_any_order.

(** list_conventions prints the same lines in the order of the files *)
Theorem C100_listed : forall E d, db_ok E -> Permutation (db E) d ->
  exists nv nv', Permutation nv nv'
    /\ Forall2 (fun (f : string * convention) cv => fst f = fst cv +++ "_" +++ snd cv +++ ".json") (db E) nv
    /\ Forall2 (fun (f : string * convention) cv => fst f = fst cv +++ "_" +++ snd cv +++ ".json") d nv'
    /\ list_conventions E = ([EvPrint ("Available SOFA conventions:" +++ nl
          +++ String.concat "" (map (fun cv => fst cv +++ " (Version " +++ snd cv +++ ")" +++ nl) nv))], Ok tt)
    /\ list_conventions (with_db E d) = ([EvPrint ("Available SOFA conventions:" +++ nl
          +++ String.concat "" (map (fun cv => fst cv +++ " (Version " +++ snd cv +++ ")" +++ nl) nv'))], Ok tt).
Proof.
  intros E d DB P. assert (DB' := db_ok_perm E d DB P).
  destruct (name_version_spec E DB) as [nv [N1 N2]]. destruct (name_version_spec _ DB') as [nv' [N1' N2']].
  destruct (rmap_perm _ (db E) d P nv N1) as [nv2 [Q1 Q2]]. unfold get_name_version in N1'. cbn [with_db db] in N1', N2'. rewrite Q1 in N1'. injection N1' as ->.
  assert (SC : forall l, sconcat convention_line l = String.concat "" (map (fun cv : string * string => fst cv +++ " (Version " +++ snd cv +++ ")" +++ nl) l)).
  { intro l. induction l as [|x [|y l] IH]; [reflexivity| |].
    - cbn [sconcat map String.concat]. rewrite sapp_nil_r. reflexivity.
    - cbn [sconcat map String.concat] in *. rewrite IH. reflexivity. }
  exists nv, nv'. split; [exact Q2|].
  split; [clear -N2; induction N2 as [|f x l l' [H _] F IH]; constructor; [exact H|exact IH]|].
  split; [clear -N2'; induction N2' as [|f x l l' [H _] F IH]; constructor; [exact H|exact IH]|].
  unfold list_conventions, conventions_text. unfold get_name_version at 2. cbn [with_db db]. rewrite N1, Q1. cbn [rbind]. rewrite !SC. split; reflexivity.
Qed.
Print Assumptions C100_listed.

(** the files in the reverse order *)
Example C100_case :
  db_ok demo /\ Permutation (db demo) (rev (db demo)) /\ db demo <> rev (db demo)
  /\ sofa_init (with_db demo (rev (db demo))) "SimpleFreeFieldHRIR" false "latest" VAuto = ([], Ok demo_sofa)
  /\ getattr demo_sofa "GLOBAL_SOFAConventionsVersion" = Ok (VStr false "1.0")
  /\ snd (sofa_init demo "SimpleFreeFieldHRIR" false "3.0" VAuto) =
       Err (Exn EValueError "Version 3.0 not found. Available versions are ['1.0', '0.4']")
  /\ snd (sofa_init (with_db demo (rev (db demo))) "SimpleFreeFieldHRIR" false "3.0" VAuto) =
       Err (Exn EValueError "Version 3.0 not found. Available versions are ['0.4', '1.0']").
Proof.
  split; [exact demo_db_ok|]. split; [apply Permutation_rev|]. split; [intro H; apply (f_equal (map fst)) in H; vm_compute in H; discriminate H|].
  split; [vm_compute; reflexivity|]. split; [vm_compute; reflexivity|]. split; vm_compute; reflexivity.
Qed.

(** without the form of the version numbers (two files of the same number) the order decides *)
Example C100_two_forms :
  let a := ("A_1.0.json", hrir "1.0") in let b := ("A_1.00.json", hrir "0.4") in
  load_convention (with_db demo [a; b]) "A" "latest" = Ok (sofar_keys (hrir "1.0"))
  /\ load_convention (with_db demo [b; a]) "A" "latest" = Ok (sofar_keys (hrir "0.4")).
Proof. split; vm_compute; reflexivity. Qed.

(** ** C101 *)
Definition other (n c : string) : Prop := c <> n.
Lemma eq_crel {A} (x y : sofa * list event * res A) : crel eq x y -> y = x.
Proof.
  intros [H1 [H2 H3]]. destruct x as [[o e] r], y as [[o' e'] r']. unfold m_obj, m_out, m_res in *. cbn [fst snd] in *. subst.
  destruct r, r'; cbn in H3; try contradiction; subst; reflexivity.
Qed.
Lemma eq_nrel {A} (x y : list event * res A) : nrel eq x y -> y = x.
Proof. intros [H1 H2]. destruct x as [e r], y as [e' r']. cbn [fst snd] in *. subst. destruct r, r'; cbn in H2; try contradiction; subst; reflexivity. Qed.

(** Files of a convention with another name change nothing *)
Theorem C101_others : forall E n d, db_ok E -> has_char "_" n = false -> inserted n (db E) d ->
  (forall c m v vo, c <> n -> sofa_init (with_db E d) c m v vo = sofa_init E c m v vo)
  /\ (forall h m o, not_of n o -> verify (with_db E d) h m o = verify E h m o)
  /\ (forall x o, not_of n o -> get_dimension (with_db E d) x o = get_dimension E x o)
  /\ (forall t vo o, not_of n o -> (forall s a b, t = Some s -> split "_" s = [a; b] -> a <> n) -> moves_no_name E ->
        upgrade_convention (with_db E d) t vo o = upgrade_convention E t vo o)
  /\ (forall p o, not_of n o -> run_op (with_db E d) p o = run_op E p o)
  /\ (forall ops o, (forall k, not_of n (run E o (firstn k ops))) -> run (with_db E d) o ops = run E o ops)
  /\ (forall name o s, not_of n o -> write_sofa (with_db E d) name o s = write_sofa E name o s)
  /\ (forall s name vo verbose, (forall f, open_file s name = Ok f -> file_not_of n f) ->
        read_sofa (with_db E d) s name vo verbose = read_sofa E s name vo verbose).
Proof.
  intros E n d DB U IN.
  assert (HV : forall c v, other n c -> rrel eq (verify_convention_and_version E v c) (verify_convention_and_version (with_db E d) v c)).
  { intros c v O. rewrite (verify_cv_inserted E d n v c U IN O). apply rrel_refl. reflexivity. }
  assert (HL : forall c v, other n c -> rrel eq (load_convention E c v) (load_convention (with_db E d) c v)).
  { intros c v O. rewrite (load_inserted E d n v c U IN O). apply rrel_refl. reflexivity. }
  assert (R : forall e : exn, e = e) by reflexivity.
  split; [intros; apply eq_nrel; apply (init_swap eq R E d (other n) HV HL DB); assumption|].
  split; [intros; apply eq_crel; apply (verify_call eq R E d (other n) HV HL DB); assumption|].
  split; [intros; apply eq_crel; apply (get_dimension_call eq R E d (other n) HV HL DB); assumption|].
  split; [intros t vo o NO TT MV; apply eq_crel; apply (upgrade_call eq R E d (other n) HV HL DB); [exact NO|exact TT|right; exact MV]|].
  split; [intros; apply eq_crel; apply (op_call eq R E d (other n) HV HL DB); assumption|].
  split; [intros; apply (run_call eq R E d (other n) HV HL DB); assumption|].
  split.
  { intros name o s NO. destruct (write_call eq R E d (other n) HV HL DB name o s NO) as [W1 W2]. apply eq_crel in W2.
    destruct (write_sofa E name o s), (write_sofa (with_db E d) name o s). cbn [fst snd] in *. congruence. }
  intros s name vo verbose F. apply eq_nrel. apply (read_call eq R E d (other n) HV HL DB). right. exact F.
Qed.
Print Assumptions C101_others.

(** one file among the others *)
Definition demo_more : list (string * convention) :=
  [("SimpleFreeFieldHRIR_1.0.json", hrir "1.0"); ("SimpleFreeField_2.0.json", old_conv);
   ("SimpleFreeFieldHRIR_0.4.json", hrir "0.4"); ("Old_0.4.json", old_conv)].
Lemma demo_not_of : not_of "SimpleFreeField" demo_sofa.
Proof.
  intros b c I.
  assert (H : forallb (fun kv => negb (String.eqb (fst kv) "GLOBAL_SOFAConventions")
     || match snd kv with VStr _ c => negb (String.eqb c "SimpleFreeField") | _ => true end) (pub demo_sofa) = true) by (vm_compute; reflexivity).
  rewrite forallb_forall in H. specialize (H _ I). cbn [fst snd] in H. rewrite eqb_refl_s in H. cbn [negb orb] in H.
  intros ->. rewrite eqb_refl_s in H. discriminate H.
Qed.
Example C101_case :
  db_ok demo /\ inserted "SimpleFreeField" (db demo) demo_more /\ not_of "SimpleFreeField" demo_sofa
  /\ moves_no_name demo
  /\ load_convention demo "SimpleFreeField" "latest" = Err (Exn EValueError "Convention 'SimpleFreeField' not found. See sofar.list_conventions() for available conventions.")
  /\ is_ok (load_convention (with_db demo demo_more) "SimpleFreeField" "latest") = true.
Proof.
  split; [exact demo_db_ok|]. split.
  { unfold demo_more. cbn [demo db]. apply ins_keep. apply (ins_new "SimpleFreeField" "2.0"); [reflexivity|]. apply ins_keep, ins_keep, ins_nil. }
  split; [exact demo_not_of|]. split.
  { intros c u id sp s mv U S I. cbn [demo upgrades demo_upgrades dget] in U. destruct (String.eqb c "Old"); [|discriminate U]. injection U as <-.
    cbn [u_specs dget] in S. destruct (String.eqb id "to_hrir"); [|discriminate S]. injection S as <-. cbn [u_move] in I. destruct I as [I|[]].
    injection I as <- <-. vm_compute. discriminate. }
  split; vm_compute; reflexivity.
Qed.

(** a name with an underscore: files of the new convention Old_X are taken for files of Old *)
Example C101_underscore :
  let d := [("Old_0.4.json", old_conv); ("Old_X_9.0.json", hrir "1.0")] in
  load_convention (with_db demo [("Old_0.4.json", old_conv)]) "Old" "latest" = Ok (sofar_keys old_conv)
  /\ load_convention (with_db demo d) "Old" "latest" = Ok (sofar_keys (hrir "1.0")).
Proof. split; vm_compute; reflexivity. Qed.
