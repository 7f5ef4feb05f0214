(** The argument verbose, and short descriptions of objects. *)
From Verif Require Import Base PyStr PyNum NdArray Sofa Verify Utils Io Repr Demo SpecAttr SpecInit SpecIo
  BaseFacts StrFacts CoreFacts ProtFacts InitFacts IoFacts DemoFacts PropAttr PropVerify PropIo PropRound PropReadOnly.
Open Scope string_scope.
Open Scope list_scope.
Open Scope nat_scope.

(** ** C93: verbose only decides about messages *)

(** [quiet] is [loud] without at most one of its messages *)
Definition one_less (quiet loud : list event) : Prop :=
  exists a b, quiet = a ++ b /\ (loud = a ++ b \/ exists text, loud = a ++ [EvPrint text] ++ b).

Lemma compare_quiet a b l : forall acc,
  snd (compare_keys a b true l acc) = snd (compare_keys a b false l acc) /\ fst (compare_keys a b false l acc) = [].
Proof.
  induction l as [|k l IH]; intro acc; [split; reflexivity|]. cbn [compare_keys]. destruct (compare_key a b k) as [[m|]|e]; [|apply IH|split; reflexivity].
  destruct (IH false) as [H1 H2]. destruct (compare_keys a b true l false) as [e1 r1]. destruct (compare_keys a b false l false) as [e2 r2].
  cbn in *. split; assumption.
Qed.

Lemma one_less_refl l : one_less l l.
Proof. exists l, []. rewrite app_nil_r. auto. Qed.
Lemma one_less_app c q l : one_less q l -> one_less (c ++ q) (c ++ l).
Proof.
  intros [a [b [-> H]]]. exists (c ++ a), b. split; [apply app_assoc|]. destruct H as [->|[t ->]]; [left|right; exists t]; rewrite ?app_assoc; reflexivity.
Qed.

Lemma loud_quiet (m : M (list string)) (rest : M unit) o :
  let go b := finished ((do custom <- m;
    do_ when (negb (match custom with [] => true | _ => false end) && b) (emit (EvPrint (custom_notice custom))); rest) o) in
  snd (go true) = snd (go false) /\ one_less (fst (go false)) (fst (go true)).
Proof.
  cbv zeta. unfold bind. destruct (m o) as [[o1 e1] [custom|e]]; [|split; [reflexivity|apply one_less_refl]].
  generalize (custom_notice custom). intro t. unfold when. rewrite andb_false_r, andb_true_r. unfold ret, emit.
  destruct custom as [|k custom]; cbn [negb].
  - destruct (rest o1) as [[o2 e2] [u|e]]; split; try reflexivity; apply one_less_refl.
  - destruct (rest o1) as [[o2 e2] [u|e]]; (split; [reflexivity|]); cbn [finished fst app]; apply one_less_app; exists [], e2;
      (split; [reflexivity|right; eexists; reflexivity]).
Qed.

Theorem C93_verbose_only_messages :
  (* equals *)
  (forall a b x, snd (equals a b true x) = snd (equals a b false x) /\ fst (equals a b false x) = [])
  (* add_missing: the same object, and silent unless it raises *)
  /\ (forall E m p o, let loud := add_missing E m p true o in let quiet := add_missing E m p false o in
        m_obj loud = m_obj quiet /\ m_res loud = m_res quiet /\ one_less (m_out quiet) (m_out loud)
        /\ (forall u, m_res quiet = Ok u -> exists text, m_out loud = m_out quiet ++ [EvPrint text]))
  (* read_sofa *)
  /\ (forall E s name vo, snd (read_sofa E s name vo true) = snd (read_sofa E s name vo false)
        /\ one_less (fst (read_sofa E s name vo false)) (fst (read_sofa E s name vo true))).
Proof.
  split; [|split].
  - intros a b x. unfold equals. destruct (select x a) as [ka|e]; [|split; reflexivity]. destruct (select x b) as [kb|e]; [|split; reflexivity].
    destruct (negb (Nat.eqb _ _)); [split; reflexivity|]. destruct (negb (_ && _)); [split; reflexivity|]. apply compare_quiet.
  - intros E m p o loud quiet. unfold loud, quiet, add_missing, bind, get. destruct (reset_convention E o) as [[o1 e1] [u|e]].
    2: { cbn. repeat split; [apply one_less_refl|discriminate]. }
    destruct (set_protected false o1) as [[o2 e2] [u2|e]].
    2: { cbn. repeat split; [apply one_less_refl|discriminate]. }
    match goal with |- context[mfor ?l ?k o2] => destruct (mfor l k o2) as [[o3 e3] [u3|e]] end.
    2: { cbn. repeat split; [apply one_less_refl|discriminate]. }
    destruct (set_protected true o3) as [[o4 e4] [u4|e]].
    2: { cbn. repeat split; [apply one_less_refl|discriminate]. }
    unfold when, ret, emit. match goal with |- context[has_char "-" ?t] => destruct (has_char "-" t) end;
      cbn [m_obj m_res m_out fst snd app]; (split; [reflexivity|]); (split; [reflexivity|]);
      (split; [|intros x _; eexists; rewrite !app_assoc, ?app_nil_r; reflexivity]).
    all: repeat apply one_less_app. all: exists [], []; split; [reflexivity|right; eexists; reflexivity].
  - intros E s name vo. unfold read_sofa.
    match goal with |- context[match ?r with Ok _ => _ | Err _ => _ end] => destruct r as [[[f c] v]|e] end; [|split; [reflexivity|apply one_less_refl]].
    destruct (sofa_init E c false v vo) as [ev [o|e]]; [|split; [reflexivity|apply one_less_refl]].
    unfold prepend. cbn [fst snd]. destruct (loud_quiet (read_content f)
      (do ver <- match vo with VAuto => lift (version_geb v "1.0") | VYes => ret true | VNo => ret false end;
       if ver then verify_read E else ret tt) o) as [G1 G2].
    split; [exact G1|]. apply one_less_app. exact G2.
Qed.
Print Assumptions C93_verbose_only_messages.

(** an object with missing data, two different objects and a file with custom
    data *)
Example C93_case :
  (exists w, equals demo_sofa trip true None = ([EvWarn w], Ok false)) /\ equals demo_sofa trip false None = ([], Ok false)
  /\ (let o := m_obj (del_attr "RoomTemperature_Units" demo_sofa) in
      m_out (add_missing demo true true false o) = [] /\ exists t, m_out (add_missing demo true true true o) = [EvPrint t])
  /\ (let s := fst (write_sofa demo "trip" trip disk) in
      fst (read_sofa demo s "trip" VAuto false) = []
      /\ exists t, fst (read_sofa demo s "trip" VAuto true) = [EvPrint t]).
Proof.
  split; [eexists; vm_compute; reflexivity|]. split; [vm_compute; reflexivity|].
  split; (split; [vm_compute; reflexivity|eexists; vm_compute; reflexivity]).
Qed.

(** ** C94: an object keeps telling what it is *)

(** the text that identifies convention [c] in version [v] *)
Definition identity (c v : string) : string := "sofar.SOFA object: " +++ c +++ " " +++ v.

Lemma repr_armed E o c v cv : armed_with E o c v cv -> repr E o = Ok (identity c v).
Proof.
  intro A. destruct (ar_name _ _ _ _ _ A) as [b1 G1]. destruct (ar_version _ _ _ _ _ A) as [b2 G2].
  unfold repr, getattr. rewrite G1, G2. reflexivity.
Qed.

(** repr shows the convention and the version that were asked for, or the newest
    version, and those of a file; neither successful nor failing calls change
    this. Missing for the full claim: adding a value that can not be stored, after
    which the object is not protected ([C94_refuted]). *)
Theorem C94_identity_partial :
  (forall E c mandatory version vo ev o ops, db_ok E -> db_tidy E ->
     sofa_init E c mandatory version vo = (ev, Ok o) -> Forall safe_op ops ->
     exists v, repr E (run E o ops) = Ok (identity c v) /\ (version <> "latest" -> v = version)
       /\ load_convention E c v = load_convention E c version)
  /\ (forall E s name vo verbose ev f p ops, db_ok E -> db_tidy E ->
     file_at s name f -> file_wf f -> NoDup (file_names f) -> read_sofa E s name vo verbose = (ev, Ok p) -> Forall safe_op ops ->
     exists c v, file_text f "SOFAConventions" = Ok c /\ file_text f "SOFAConventionsVersion" = Ok v
       /\ repr E (run E p ops) = Ok (identity c v)).
Proof.
  split.
  - intros E c mandatory version vo ev o ops D T I S.
    destruct (armed_init E c mandatory version vo ev o D I) as [v [A [P [L [_ [_ [C W]]]]]]].
    assert (PR : protected_run E o ops).
    { apply protected_run_safe; [exact T| |exact P|exact S]. intros cu ke H. rewrite C in H. discriminate. }
    exists v. split; [exact (repr_armed _ _ _ _ _ (proj1 (run_kept E c v _ ops o A PR)))|]. split; [exact W|].
    rewrite L. exact (ar_load _ _ _ _ _ A).
  - intros E s name vo verbose ev f p ops DB DT FA WF N H S.
    assert (PP : prot p = true) by (eapply C36_protected; left; exact H).
    destruct (read_armed _ _ _ _ _ _ _ _ DB DT FA WF N H) as [c [v [cv [FC [FV [A T]]]]]].
    exists c, v. split; [exact FC|]. split; [exact FV|].
    exact (repr_armed _ _ _ _ _ (proj1 (run_kept E c v cv ops p A (protected_run_safe E p ops DT T PP S)))).
Qed.
Print Assumptions C94_identity_partial.

Example C94_case :
  db_ok demo /\ db_tidy demo
  /\ repr demo demo_sofa = Ok "sofar.SOFA object: SimpleFreeFieldHRIR 1.0"
  /\ (let ops := [OSet "GLOBAL_SOFAConventionsVersion" (VStr false "0.1"); ODel "GLOBAL_SOFAConventions"; OAddAttr "GLOBAL_Note" (VStr false "x")] in
      Forall safe_op ops /\ repr demo (run demo demo_sofa ops) = Ok "sofar.SOFA object: SimpleFreeFieldHRIR 1.0").
Proof.
  split; [exact demo_db_ok|]. split; [exact demo_tidy|]. split; [vm_compute; reflexivity|]. split; [|vm_compute; reflexivity].
  constructor; [left; discriminate|]. constructor; [exact I|]. constructor; [split; reflexivity|constructor].
Qed.

(** After adding a list that is not rectangular the object is not protected, and
    it can be made to tell another version or nothing at all. *)
Theorem C94_refuted :
  let bad := OAddVar "Temp" ragged "double" (Some "MR") in
  repr demo (run demo demo_sofa [bad; OSet "GLOBAL_SOFAConventionsVersion" (VStr false "0.1")])
    = Ok "sofar.SOFA object: SimpleFreeFieldHRIR 0.1"
  /\ repr demo (run demo demo_sofa [bad; ODel "GLOBAL_SOFAConventions"]) = Err (Exn EAttributeError "GLOBAL_SOFAConventions").
Proof. intro bad. split; vm_compute; reflexivity. Qed.
Print Assumptions C94_refuted.
