(** Lemmas about attribute access, convention loading, adding and deleting,
    and about what verify and the other operations leave unchanged. *)
From Verif Require Import Base PyStr PyNum NdArray Sofa Verify Upgrade SpecAttr BaseFacts.
From Coq Require Import RelationClasses.
Open Scope string_scope.
Open Scope list_scope.

(** ** The monad *)

Lemma m_obj_bind {A B} (m : M A) (f : A -> M B) o :
  m_obj (bind m f o) =
  match m o with
  | (o1, _, Ok a) => m_obj (f a o1)
  | (o1, _, Err _) => o1
  end.
Proof.
  unfold bind. destruct (m o) as [[o1 e1] [a|e]]; [|reflexivity].
  destruct (f a o1) as [[o2 e2] r]. reflexivity.
Qed.

Lemma m_res_bind {A B} (m : M A) (f : A -> M B) o :
  m_res (bind m f o) =
  match m o with
  | (o1, _, Ok a) => m_res (f a o1)
  | (_, _, Err e) => Err e
  end.
Proof.
  unfold bind. destruct (m o) as [[o1 e1] [a|e]]; [|reflexivity].
  destruct (f a o1) as [[o2 e2] r]. reflexivity.
Qed.

Lemma rel_bind {A B} (R : sofa -> sofa -> Prop) `{Transitive _ R}
  (m : M A) (f : A -> M B) o :
  R o (m_obj (m o)) ->
  (forall a o1 e1, m o = (o1, e1, Ok a) -> R o1 (m_obj (f a o1))) ->
  R o (m_obj (bind m f o)).
Proof.
  intros H1 H2. rewrite m_obj_bind.
  destruct (m o) as [[o1 e1] [a|e]] eqn:E; [|exact H1].
  etransitivity; [exact H1|]. apply (H2 a o1 e1). reflexivity.
Qed.

(** a method that relates the object before and after for all objects *)
Definition always {A} (R : sofa -> sofa -> Prop) (m : M A) : Prop :=
  forall o, R o (m_obj (m o)).

Section Always.
Context (R : sofa -> sofa -> Prop) `{Reflexive _ R} `{Transitive _ R}.

Lemma always_bind {A B} (m : M A) (f : A -> M B) :
  always R m -> (forall a, always R (f a)) -> always R (bind m f).
Proof. intros H1 H2 o. apply rel_bind; [assumption | apply H1 | intros; apply H2]. Qed.
Lemma always_ret {A} (a : A) : always R (ret a).
Proof. intro o. cbn. reflexivity. Qed.
Lemma always_raise {A} e : always R (@raise A e).
Proof. intro o. cbn. reflexivity. Qed.
Lemma always_get : always R get.
Proof. intro o. cbn. reflexivity. Qed.
Lemma always_emit e : always R (emit e).
Proof. intro o. cbn. reflexivity. Qed.
Lemma always_lift {A} (r : res A) : always R (lift r).
Proof. intro o. cbn. reflexivity. Qed.
Lemma always_when b m : always R m -> always R (when b m).
Proof. intro Hm. destruct b; [exact Hm | apply always_ret]. Qed.
Lemma always_mfor {A} (l : list A) f :
  (forall x, In x l -> always R (f x)) -> always R (mfor l f).
Proof.
  induction l as [|x l IH]; intro Hf; [apply always_ret|].
  apply always_bind; [apply Hf; left; reflexivity|].
  intros _. apply IH. intros y Hy. apply Hf. right; exact Hy.
Qed.
End Always.

(** ** Growing: data are only added; everything about the convention stays *)
Record grow (o o' : sofa) : Prop := {
  gr_pub : forall k v, dget k (pub o) = Some v -> dget k (pub o') = Some v;
  gr_conv : conv o' = conv o;
  gr_custom : custom o' = custom o;
  gr_ro : ro o' = ro o }.

Global Instance grow_refl : Reflexive grow.
Proof. intro o. constructor; auto. Qed.
Global Instance grow_trans : Transitive grow.
Proof.
  intros a b c [H1 H2 H3 H4] [K1 K2 K3 K4].
  constructor; [auto | congruence | congruence | congruence].
Qed.

(** data, convention, custom entries and protection list unchanged *)
Record same (o o' : sofa) : Prop := {
  sm_pub : pub o' = pub o;
  sm_conv : conv o' = conv o;
  sm_custom : custom o' = custom o;
  sm_ro : ro o' = ro o }.

Global Instance same_refl : Reflexive same.
Proof. intro o. constructor; auto. Qed.
Global Instance same_trans : Transitive same.
Proof. intros a b c [H1 H2 H3 H4] [K1 K2 K3 K4]. constructor; congruence. Qed.

Lemma same_grow o o' : same o o' -> grow o o'.
Proof. intros [H1 H2 H3 H4]. constructor; auto. intros. rewrite H1. assumption. Qed.

Lemma always_same_grow {A} (m : M A) : always same m -> always grow m.
Proof. intros H o. apply same_grow. apply H. Qed.

Ltac triv_same := intro o_; unfold m_obj; cbn; constructor; reflexivity.

Lemma same_set_protected b : always same (set_protected b).
Proof. triv_same. Qed.

Lemma same_verify_dims : always same verify_dims.
Proof.
  unfold verify_dims.
  apply always_bind; [typeclasses eauto | triv_same | intros _].
  apply always_bind; [typeclasses eauto | apply always_get; typeclasses eauto | intro o].
  destruct (detect o) as [s r].
  apply always_bind; [typeclasses eauto | triv_same | intros _].
  apply always_bind; [typeclasses eauto | apply always_lift; typeclasses eauto | intros _].
  apply always_bind; [typeclasses eauto | triv_same | intros _].
  destruct (check_shapes _ _ _ _ _) as [d r'].
  apply always_bind; [typeclasses eauto | triv_same | intros _].
  apply always_lift; typeclasses eauto.
Qed.

Lemma same_handle_issues w e h : always same (handle_issues w e h).
Proof.
  unfold handle_issues.
  repeat (apply always_bind;
    [typeclasses eauto
    | apply always_when; [typeclasses eauto |
        first [apply always_emit | apply always_raise]; typeclasses eauto]
    | intros _]).
  apply always_ret; typeclasses eauto.
Qed.

(** ** set_attr *)

Lemma set_attr_cases name v o :
  (exists e, set_attr name v o = (o, [], Err e))
  \/ (exists b, name = "protected" /\ v = VScal (EBool b)
                /\ set_attr name v o = (with_prot o b, [], Ok tt))
  \/ (exists w, normalize v = Ok w /\ is_private name = false
                /\ set_attr name v o = (with_pub o (dset name w (pub o)), [], Ok tt)
                /\ (prot o = true -> hasattr o name = true /\ in_ro name (ro o) = false)).
Proof.
  unfold set_attr.
  destruct (is_private name || String.eqb name "list_dimensions") eqn:E1; [left; eauto|].
  destruct (prot o && negb (hasattr o name)) eqn:E2; [left; eauto|].
  destruct (in_ro name (ro o) && prot o) eqn:E3; [left; eauto|].
  destruct (String.eqb_spec name "protected") as [->|N].
  - destruct v as [np s|[z|f|re im|b|s|s|]|a|l]; try (left; eauto; fail).
    right; left. exists b. auto.
  - destruct (normalize v) as [w|e] eqn:E4; [|left; eauto].
    right; right. exists w. apply orb_false_iff in E1. destruct E1 as [E1 _].
    repeat split; auto.
    + intros; destruct (prot o); [|discriminate]. destruct (hasattr o name); [reflexivity|discriminate].
    + intros; destruct (prot o); [|discriminate]. rewrite andb_true_r in E3. exact E3.
Qed.

(** assigning to a name that is not contained only adds *)
Lemma grow_set_attr_new name v o :
  ~ In name (dkeys (pub o)) -> grow o (m_obj (set_attr name v o)).
Proof.
  intro N. destruct (set_attr_cases name v o) as [[e H]|[[b [_ [_ H]]]|[w [_ [_ [H _]]]]]];
    rewrite H; unfold m_obj; cbn.
  - reflexivity.
  - constructor; auto.
  - constructor; auto. cbn. intros k u Hk. rewrite dget_dset_other; [exact Hk|].
    intros ->. apply N. apply dget_Some_In. eauto.
Qed.

Lemma set_attr_keys name v o k :
  In k (dkeys (pub (m_obj (set_attr name v o)))) -> k = name \/ In k (dkeys (pub o)).
Proof.
  destruct (set_attr_cases name v o) as [[e H]|[[b [_ [_ H]]]|[w [_ [_ [H _]]]]]];
    rewrite H; unfold m_obj; cbn; try tauto.
  apply In_dkeys_dset.
Qed.

Lemma set_attr_frame name v o k :
  k <> name -> dget k (pub (m_obj (set_attr name v o))) = dget k (pub o).
Proof.
  intro N.
  destruct (set_attr_cases name v o) as [[e H]|[[b [_ [_ H]]]|[w [_ [_ [H _]]]]]];
    rewrite H; unfold m_obj; cbn; try reflexivity.
  apply dget_dset_other. exact N.
Qed.

Lemma grow_add_defaults l : forall o,
  NoDup (map fst l) -> (forall k, In k (map fst l) -> ~ In k (dkeys (pub o))) ->
  grow o (m_obj (add_defaults l o)).
Proof.
  induction l as [|[k e] l IH]; intros o ND HN; [reflexivity|].
  unfold add_defaults in *. cbn [mfor].
  inversion ND as [|? ? N1 N2]; subst.
  apply rel_bind; [typeclasses eauto| |].
  - apply rel_bind; [typeclasses eauto | apply same_grow; apply same_set_protected |].
    intros [] o1 e1 H1. inversion H1; subst.
    apply rel_bind; [typeclasses eauto | |].
    + apply grow_set_attr_new. cbn. apply HN. left; reflexivity.
    + intros. apply same_grow. apply same_set_protected.
  - intros [] o1 e1 H1. apply IH; [exact N2|].
    intros j Hj C. apply (HN j); [right; exact Hj|].
    cbn [bind] in H1.
    assert (E : o1 = m_obj (bind (set_protected false) (fun _ =>
         bind (set_attr (fst (k, e)) (e_default (snd (k, e))))
              (fun _ => set_protected true)) o)).
    { rewrite H1. reflexivity. }
    rewrite E in C. rewrite m_obj_bind in C. cbn in C. rewrite m_obj_bind in C.
    destruct (set_attr k (e_default e) (with_prot o false)) as [[o2 e2] r2] eqn:E2.
    assert (C' : In j (dkeys (pub o2))) by (destruct r2; exact C).
    assert (Hk := set_attr_keys k (e_default e) (with_prot o false) j).
    rewrite E2 in Hk. cbn in Hk. destruct (Hk C') as [->|Hin]; [|exact Hin].
    exfalso. apply N1. exact Hj.
Qed.

(** ** reset_convention *)

Lemma NoDup_sofar_keys {A} (d : dict A) : NoDup (dkeys (sofar_keys d)).
Proof.
  unfold sofar_keys, rename_keys.
  apply (NoDup_fold_dset (fun kv : string * A => (replace_char "." "_" (fst kv), snd kv))).
  constructor.
Qed.

Lemma load_convention_NoDup E c v cv : load_convention E c v = Ok cv -> NoDup (dkeys cv).
Proof.
  unfold load_convention. intro H. apply rbind_Ok in H. destruct H as [nv [_ H]].
  destruct (filter _ (db E)) as [|f0 fs]; [discriminate|].
  apply rbind_Ok in H. destruct H as [raw [_ H]]. inversion H; subst.
  apply NoDup_sofar_keys.
Qed.

Lemma NoDup_dupdate {A} (d c : dict A) : NoDup (dkeys d) -> NoDup (dkeys (dupdate d c)).
Proof. apply (NoDup_fold_dset (fun kv : string * A => kv)). Qed.

Definition keep_custom (cv cu : dict entry) : dict entry :=
  filter (fun kv => negb (dmem (fst kv) cv)) cu.

Lemma reset_convention_cases E o :
  (exists e, reset_convention E o = (o, [], Err e))
  \/ (exists c b v cv,
        dget "GLOBAL_SOFAConventions" (pub o) = Some (VStr b c)
        /\ dget "GLOBAL_SOFAConventionsVersion" (pub o) = Some v
        /\ verify_convention_and_version E (py_str E v) c = Ok tt
        /\ load_convention E c (py_str E v) = Ok cv
        /\ reset_convention E o =
           (match custom o with
            | None => with_conv o cv
            | Some cu => with_custom (with_conv o (dupdate cv (keep_custom cv cu)))
                                     (Some (keep_custom cv cu))
            end, [], Ok tt)).
Proof.
  unfold reset_convention, getattr.
  destruct (dget "GLOBAL_SOFAConventions" (pub o)) as [vc|] eqn:E1; [|left; cbn; eauto].
  destruct (dget "GLOBAL_SOFAConventionsVersion" (pub o)) as [vv|] eqn:E2; [|left; cbn; eauto].
  destruct vc as [b c|e|a|l]; cbn [as_str]; try (left; eauto; fail).
  destruct (verify_convention_and_version E (py_str E vv) c) as [[]|e] eqn:E3;
    cbn [rbind]; [|left; eauto].
  destruct (load_convention E c (py_str E vv)) as [cv|e] eqn:E4; [|left; eauto].
  right. exists c, b, vv, cv.
  destruct (custom o) as [cu|]; repeat split; auto.
Qed.

(** data, protection list and protection unchanged; the convention may be
    reloaded *)
Record data_same (o o' : sofa) : Prop := {
  ds_pub : pub o' = pub o; ds_ro : ro o' = ro o; ds_prot : prot o' = prot o }.

Lemma reset_data_same E o : data_same o (m_obj (reset_convention E o)).
Proof.
  destruct (reset_convention_cases E o) as [[e H]|[c [b [v [cv [_ [_ [_ [_ H]]]]]]]]];
    rewrite H; unfold m_obj; cbn.
  - constructor; reflexivity.
  - destruct (custom o); constructor; reflexivity.
Qed.

Lemma reset_ok_NoDup E o o1 e1 u :
  reset_convention E o = (o1, e1, Ok u) -> NoDup (dkeys (conv o1)).
Proof.
  intro H0. destruct (reset_convention_cases E o) as [[e H]|[c [b [v [cv [_ [_ [_ [HL H]]]]]]]]];
    rewrite H in H0; inversion H0; subst.
  apply load_convention_NoDup in HL.
  destruct (custom o); cbn; [apply NoDup_dupdate|]; exact HL.
Qed.

Lemma missing_not_in o k :
  In k (map fst (missing o)) -> ~ In k (dkeys (pub o)).
Proof.
  unfold missing. rewrite in_map_iff. intros [[j e] [Hj Hin]]. cbn in Hj; subst.
  apply filter_In in Hin. destruct Hin as [_ Hin]. cbn in Hin.
  apply andb_true_iff in Hin. destruct Hin as [_ Hin].
  apply negb_true_iff in Hin. apply smem_false in Hin. exact Hin.
Qed.

Lemma missing_NoDup o : NoDup (dkeys (conv o)) -> NoDup (map fst (missing o)).
Proof. intro H. apply (NoDup_filter_keys _ _ H). Qed.

(** everything verify does after resetting the convention *)
Definition verify_rest (norm : value -> value -> list event * res (list string))
    (E : env) (h : handling) (m : vmode) : M (option string) :=
  do o <- get;
  let keys := dkeys (pub o) in
  let miss := missing o in
  do_ when (negb (h_raise h)) (add_defaults miss);
  let miss_txt := sconcat (fun kv => bullet (fst kv)) miss in
  do o <- get;
  do terr <- lift (type_errors E o keys);
  let err := (if h_raise h then section msg_missing miss_txt else "")
             +++ section msg_type terr in
  let wrn := if h_raise h then "" else section msg_added miss_txt in
  if negb (String.eqb (err_head +++ err) err_head) && negb (h_ignore h)
  then
    do r <- handle_issues warn_head (err_head +++ err) h;
    ret (if h_print h then None else snd r)
  else
    do o <- get;
    do nerr <- lift (name_errors o keys);
    do cerr <-
      match custom o with
      | None => ret ""
      | Some _ =>
          do c <- lift (getattr o "GLOBAL_SOFAConventions");
          do v <- lift (getattr o "GLOBAL_SOFAConventionsVersion");
          let '(ev, r) := norm c v in
          do_ mfor ev emit;
          do nk <- lift r;
          ret (custom_errors nk o)
      end;
    do serr <- verify_dims;
    do o <- get;
    let a := match api o with Some a => a | None => [] end in
    do rerr <- lift (rconcat (check_rule E o a) (rules E));
    do uerr <- lift (if m_write m then check_units o else Ok "");
    do dmsg <- lift (deprecation_msg E o);
    do pmsg <- lift (preliminary_msg E o);
    let err := err +++ nerr +++ cerr +++ section msg_shape serr
               +++ section msg_rules (rerr +++ uerr)
               +++ (if m_write m then dmsg else "") in
    let wrn := wrn +++ (if m_write m then "" else dmsg) +++ pmsg in
    if h_ignore h then ret None
    else
      do r <- handle_issues (warn_head +++ wrn) (err_head +++ err) h;
      ret (if fst r && h_return h then snd r else None).

Lemma verify_gen_eq norm E h m o :
  verify_gen norm E h m o = (do_ reset_convention E; verify_rest norm E h m) o.
Proof. reflexivity. Qed.

(** the part of verify after the type check changes nothing but the cached
    dimensions and the protection *)
Ltac alw := first
  [ apply same_handle_issues
  | apply same_verify_dims
  | apply same_set_protected
  | apply always_ret; typeclasses eauto
  | apply always_raise; typeclasses eauto
  | apply always_get; typeclasses eauto
  | apply always_emit; typeclasses eauto
  | apply always_lift; typeclasses eauto
  | apply always_bind; [typeclasses eauto | |] ].

Lemma verify_rest_grow norm E h m o :
  NoDup (dkeys (conv o)) -> grow o (m_obj (verify_rest norm E h m o)).
Proof.
  intro ND. unfold verify_rest.
  apply rel_bind; [typeclasses eauto | reflexivity |].
  intros o' o1 e1 H. inversion H; subst. clear H.
  apply rel_bind; [typeclasses eauto | |].
  - destruct (h_raise h); cbn [negb when]; [reflexivity|].
    apply grow_add_defaults; [apply missing_NoDup; exact ND | apply missing_not_in].
  - intros _ o2 e2 _. apply always_same_grow. clear.
    alw; [alw|intro o3]. alw; [alw|intro terr].
    destruct (negb _ && negb _).
    + alw; [alw|intros r]; alw.
    + alw; [alw|intro o4]. alw; [alw|intro nerr].
      alw; [destruct (custom o4)|intro cerr].
      * alw; [alw|intro c]. alw; [alw|intro v].
        destruct (norm c v) as [ev r].
        alw; [|intros _]; [apply always_mfor; [typeclasses eauto|typeclasses eauto|intros; alw]|].
        alw; [alw|intros ?]; alw.
      * alw.
      * alw; [alw|intro serr]. alw; [alw|intro o5].
        alw; [alw|intro rerr]. alw; [alw|intro uerr]. alw; [alw|intro dmsg].
        alw; [alw|intro pmsg].
        destruct (h_ignore h); [alw|]. alw; [alw|intros ?]; alw.
Qed.

(** verify: either the convention could not be loaded and nothing changes, or
    the convention is reloaded and data are only added *)
Lemma verify_gen_obj norm E h m o :
  (m_obj (verify_gen norm E h m o) = o /\ exists e, m_res (verify_gen norm E h m o) = Err e
     /\ m_res (reset_convention E o) = Err e)
  \/ (exists o1, reset_convention E o = (o1, [], Ok tt)
        /\ m_obj (verify_gen norm E h m o) = m_obj (verify_rest norm E h m o1)
        /\ m_res (verify_gen norm E h m o) = m_res (verify_rest norm E h m o1)
        /\ grow o1 (m_obj (verify_gen norm E h m o))).
Proof.
  rewrite verify_gen_eq, m_obj_bind, m_res_bind.
  destruct (reset_convention_cases E o) as [[e H]|[c [b [v [cv [_ [_ [_ [HL H]]]]]]]]].
  - left. rewrite H. split; [reflexivity|]. exists e. split; reflexivity.
  - right. rewrite H. eexists. split; [reflexivity|].
    split; [reflexivity|]. split; [reflexivity|].
    apply verify_rest_grow.
    apply load_convention_NoDup in HL.
    destruct (custom o); cbn; [apply NoDup_dupdate|]; exact HL.
Qed.
