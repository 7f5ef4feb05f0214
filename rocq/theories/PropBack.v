(** Assigning stored data (C109). *)
From Coq Require Import ZArith.
From Verif Require Import Base PyStr PyNum NdArray Sofa Verify Upgrade Io Demo SpecAttr SpecInit SpecVerify SpecUpgrade SpecIo SpecReach
  BaseFacts InitFacts DictFacts DemoFacts ReachFacts PropVerify PropUpgrade PropIo PropReach.
Open Scope string_scope.
Open Scope list_scope.
Open Scope nat_scope.

Lemma dset_stored {A} k (v : A) d : dget k d = Some v -> dset k v d = d.
Proof.
  induction d as [|[j w] d IH]; cbn [dget dset]; [discriminate|].
  destruct (String.eqb_spec k j) as [->|N]; intro H; [congruence|]. rewrite (IH H). reflexivity.
Qed.

Lemma normalize_stored v : plain_value v -> normalize v = Ok v.
Proof.
  destruct v as [b s|x|a|l]; cbn [plain_value]; intro P; try reflexivity; [|contradiction].
  destruct x; try reflexivity. exfalso. apply P. reflexivity.
Qed.

(** Assigning an entry's own value either does nothing at all or is refused because the
    entry is read only. *)
Theorem C109_assign_back :
  forall E s os o k v, defaults_ok E -> world E s os -> In o os -> k <> "list_dimensions" ->
  dget k (pub o) = Some v ->
  set_attr k v o = (o, [], Ok tt)
  \/ (prot o = true /\ in_ro k (ro o) = true
      /\ set_attr k v o = (o, [], Err (Exn ETypeError (k +++ " is a read only attribute. Iy you know what you are doing, you can set Sofa.protected = False to write read only data (e.g., to repair corrupted SOFA data).")))).
Proof.
  intros E s os o k v DE W I NL G. destruct (C75_programs E s os DE W) as [_ SO]. destruct (SO o I) as [D PL NM _].
  destruct (NM k) as [P1 P2]; [apply dget_Some_In; eauto|].
  assert (HA : hasattr o k = true) by (unfold hasattr, dmem; rewrite G; reflexivity).
  unfold set_attr. rewrite P1, (eqb_neq_s _ _ NL), HA, andb_false_r. cbn [orb].
  destruct (in_ro k (ro o) && prot o) eqn:RO.
  - apply andb_true_iff in RO. destruct RO as [R1 R2]. right. auto.
  - left. rewrite (eqb_neq_s _ _ P2), (normalize_stored v (PL k v G)), (dset_stored k v (pub o) G). destruct o; reflexivity.
Qed.
Print Assumptions C109_assign_back.

(** Assigning any number of entries back leaves the object as it is, whether the
    assignments are refused or not. *)
Theorem C109_all_back :
  forall E s os o ops, defaults_ok E -> world E s os -> In o os ->
  Forall (fun p => exists k v, p = OSet k v /\ k <> "list_dimensions" /\ dget k (pub o) = Some v) ops ->
  run E o ops = o.
Proof.
  intros E s os o ops DE W I F. induction F as [|p ops [k [v [-> [N G]]]] F IH]; [reflexivity|].
  unfold run in *. cbn [fold_left]. unfold step at 2. cbn [run_op].
  destruct (C109_assign_back E s os o k v DE W I N G) as [H|[_ [_ H]]]; rewrite H; exact IH.
Qed.
Print Assumptions C109_all_back.

Example C109_case :
  defaults_ok demo /\ world demo disk [demo_sofa]
  /\ (exists v, dget "Data_IR" (pub demo_sofa) = Some v /\ set_attr "Data_IR" v demo_sofa = (demo_sofa, [], Ok tt))
  /\ (exists v m, dget "GLOBAL_DataType" (pub demo_sofa) = Some v
        /\ set_attr "GLOBAL_DataType" v demo_sofa = (demo_sofa, [], Err (Exn ETypeError m))).
Proof.
  split; [exact demo_defaults|]. split.
  - unfold demo_sofa. destruct (sofa_init demo "SimpleFreeFieldHRIR" false "latest" VAuto) as [ev [o|e]] eqn:I.
    + refine (wo_create demo disk [] _ _ _ _ _ _ _ I). apply wo_start. exact disk_ok.
    + exfalso. assert (X : is_ok (snd (sofa_init demo "SimpleFreeFieldHRIR" false "latest" VAuto)) = true) by (vm_compute; reflexivity).
      rewrite I in X. discriminate X.
  - split; [eexists; split; vm_compute; reflexivity|]. eexists _, _. split; vm_compute; reflexivity.
Qed.
