(** upgrade_convention. *)
From Verif Require Import Base PyStr PyNum NdArray Sofa Verify Upgrade SpecAttr SpecInit SpecVerify SpecUpgrade
  BaseFacts StrFacts AttrFacts OpFacts InitFacts ProtFacts AddDelFacts MissingFacts CoreFacts
  ValidFacts RuleFacts DictFacts DimFacts AxisFacts.
From Coq Require Import Lia.
Open Scope string_scope.
Open Scope list_scope.

(** ** Moving axes *)
Lemma max_list_ge l i : In i l -> i <= max_list l.
Proof.
  unfold max_list. assert (G : forall l n, n <= fold_left Nat.max l n /\ forall i, In i l -> i <= fold_left Nat.max l n).
  { clear. induction l as [|x l IH]; intro n; [split; [apply le_n|intros ? []]|]. cbn [fold_left].
    destruct (IH (Nat.max n x)) as [I1 I2]. split; [lia|]. intros i [->|I]; [lia|auto]. }
  apply G.
Qed.

Lemma prod_pad s n : prod (pad1 n s) = prod s.
Proof.
  unfold pad1. assert (P1 : forall k, prod (repeat 1 k) = 1) by (induction k as [|k IHk]; cbn; [reflexivity|lia]).
  induction s as [|x s IH]; cbn [app prod].
  - rewrite P1. reflexivity.
  - cbn [List.length]. destruct n as [|n]; cbn [Nat.sub]; [|].
    + clear IH. cbn. rewrite app_nil_r. reflexivity.
    + f_equal. 
      assert (PA : forall x y, prod (x ++ y) = prod x * prod y)
        by (induction x0 as [|x0 xs IHx]; intros; cbn in *; [lia|rewrite IHx; lia]).
      rewrite PA, P1. lia.
Qed.

Lemma move_axes_spec v ax w : plain_value v -> move_axes v ax = Ok w -> moved (Some ax) v w.
Proof.
  destruct ax as [src dst]. intros PV H. unfold move_axes in H. cbn [fst snd] in H.
  set (n := S (max_axis (src, dst))) in *.
  assert (LT : forall i, In i src \/ In i dst -> i < n).
  { intros i I. unfold n, max_axis. cbn [fst snd]. apply Nat.lt_succ_r, max_list_ge. apply in_or_app. exact I. }
  destruct v as [b s|x|a|l]; [discriminate| | |destruct PV].
  - assert (A : moved (Some (src, dst)) (VScal x) w).
    { destruct (moveaxis (reshape (scalar_arr x) (pad1 n [])) src dst) as [b|] eqn:M;
        [|destruct x; discriminate].
      assert (W : w = VArr b) by (destruct x; try discriminate; inversion H; reflexivity).
      assert (WF : wf_arr (reshape (scalar_arr x) (pad1 n [])) = true).
      { unfold wf_arr. cbn [a_data a_shape reshape]. rewrite prod_pad. reflexivity. }
      destruct (moveaxis_spec _ _ _ _ WF M) as [order [O1 [O2 _]]].
      exists (reshape (scalar_arr x) (repeat 1 n)), b, n, order.
      split; [right; eauto|]. split; [exact W|]. split; [exact LT|].
      unfold pad1 in *. cbn [List.length app] in *. rewrite Nat.sub_0_r in *. auto. }
    exact A.
  - destruct (moveaxis (reshape a (pad1 n (a_shape a))) src dst) as [b|] eqn:M; [|discriminate].
    inversion H; subst w. clear H.
    assert (WF : wf_arr (reshape a (pad1 n (a_shape a))) = true).
    { unfold wf_arr. cbn [a_data a_shape reshape]. rewrite prod_pad. exact PV. }
    destruct (moveaxis_spec _ _ _ _ WF M) as [order [O1 [O2 _]]].
    exists (reshape a (pad1 n (a_shape a))), b, n, order.
    split; [left; exists a; split; reflexivity|]. split; [reflexivity|]. auto.
Qed.

Lemma moved_plain ax v w : plain_value v ->
  match ax with None => ret v | Some ax => lift (move_axes v ax) end empty_sofa = (empty_sofa, [], Ok w) ->
  moved ax v w /\ normalize w = Ok w.
Proof.
  intros PV H. destruct ax as [ax|].
  - unfold lift in H. destruct (move_axes v ax) as [w'|] eqn:M; [|discriminate]. inversion H; subst w'.
    split; [apply move_axes_spec; assumption|].
    unfold move_axes in M. destruct v as [b s|x|a|l]; [discriminate| | |destruct PV].
    + destruct x; try discriminate; apply rbind_Ok in M; destruct M as [b' [_ M]]; inversion M; reflexivity.
    + apply rbind_Ok in M; destruct M as [b' [_ M]]; inversion M; reflexivity.
  - inversion H; subst. split; [reflexivity|]. destruct w as [b s|x|a|l]; [reflexivity| |reflexivity|destruct PV].
    destruct x; try reflexivity. cbn in PV. congruence.
Qed.

Lemma dget_ddel {A} k j (d : dict A) : NoDup (dkeys d) ->
  dget k (ddel j d) = if String.eqb k j then None else dget k d.
Proof.
  intro N. destruct (String.eqb_spec k j) as [->|Q]; [apply dget_ddel_same; exact N|].
  apply dget_ddel_other. exact Q.
Qed.

(** ** One entry *)
Lemma sofar_name_python k : sofar_name k = python_name k.
Proof. apply sofar_name_eq. Qed.

Lemma del_unprot name o o' ev u : prot o = false -> del_attr name o = (o', ev, Ok u) ->
  pub o' = ddel name (pub o) /\ prot o' = false /\ (exists v, dget name (pub o) = Some v)
  /\ ro o' = ro o /\ conv o' = conv o
  /\ custom o' = match custom o with Some c => Some (ddel name c) | None => None end.
Proof.
  intros P H. unfold del_attr in H. destruct (is_private name); [discriminate|].
  destruct (negb (hasattr o name)); [discriminate|]. rewrite P in H.
  destruct (dmem name (pub o)) eqn:D; [|discriminate]. inversion H; subst. cbn.
  repeat split; [exact P|]. apply dget_Some_In. unfold dmem in D.
  destruct (dget name (pub o)) eqn:G; [apply dget_Some_In; eauto|discriminate].
Qed.

Lemma set_unprot name v o o' ev u : name <> "protected" -> set_attr name v o = (o', ev, Ok u) ->
  exists w, normalize v = Ok w /\ o' = with_pub o (dset name w (pub o)).
Proof.
  intros N H. destruct (set_attr_cases name v o) as [[x A]|[[b [A _]]|[w [A [_ [B _]]]]]].
  - rewrite A in H. discriminate.
  - congruence.
  - rewrite B in H. inversion H; subst. eauto.
Qed.

(** what upgrading does to the dictionary of custom entries: only deletions *)
Definition fewer_custom (o o' : sofa) : Prop :=
  match custom o' with
  | None => custom o = None
  | Some cu' => exists cu, custom o = Some cu /\ incl cu' cu
  end.
Lemma fewer_refl o : fewer_custom o o.
Proof. unfold fewer_custom. destruct (custom o) as [cu|]; [|reflexivity]. exists cu. split; [reflexivity|apply incl_refl]. Qed.
Lemma ddel_incl {A} k (d : dict A) : incl (ddel k d) d.
Proof.
  induction d as [|[j v] d IH]; intros x H; [exact H|]. cbn in H. destruct (String.eqb k j).
  - right. exact H.
  - destruct H as [H|H]; [left; exact H|right; apply IH; exact H].
Qed.
Lemma fewer_trans a b c : fewer_custom a b -> fewer_custom b c -> fewer_custom a c.
Proof.
  unfold fewer_custom. destruct (custom c) as [x|]; [|destruct (custom b); [intros _ ?; discriminate|auto]].
  intros H1 [cu [H2 H3]]. rewrite H2 in H1. destruct H1 as [cu0 [H4 H5]]. exists cu0. split; [exact H4|]. eapply incl_tran; eassumption.
Qed.

Lemma move_entry_Ok s m o o' ev u : prot o = false ->
  (forall v, dget (python_name s) (pub o) = Some v -> plain_value v) -> python_name (mv_target m) <> "protected" ->
  move_entry (s, m) o = (o', ev, Ok u) ->
  exists v w, dget (python_name s) (pub o) = Some v /\ moved (mv_axis m) v w /\ normalize w = Ok w
    /\ pub o' = dset (python_name (mv_target m)) w (ddel (python_name s) (pub o))
    /\ prot o' = false /\ ro o' = ro o /\ conv o' = conv o /\ fewer_custom o o'.
Proof.
  intros P PL NP H. unfold move_entry in H. cbn [fst snd] in H. cbv zeta in H. rewrite !sofar_name_python in H.
  apply bind_Ok in H. destruct H as [o1 [e1 [x [e2 [H1 [H2 _]]]]]]. inversion H1; subst. clear H1.
  apply bind_Ok in H2. destruct H2 as [o1 [e1 [v [e3 [H1 [H2 _]]]]]].
  unfold lift, getattr in H1.
  destruct (dget (python_name s) (pub x)) as [v0|] eqn:G;
    [|destruct (smem _ _); discriminate].
  assert (PV := PL v0 eq_refl). inversion H1; subst; clear H1.
  apply bind_Ok in H2. destruct H2 as [o2 [e1 [[] [e4 [H1 [H2 _]]]]]].
  destruct (del_unprot _ _ _ _ _ P H1) as [D1 [D2 [_ [D3 [D4 D5]]]]].
  apply bind_Ok in H2. destruct H2 as [o3 [e5 [w [e6 [H2 [H3 _]]]]]].
  assert (MV : o3 = o2 /\ moved (mv_axis m) v w /\ normalize w = Ok w).
  { destruct (mv_axis m) as [ax|] eqn:AX.
    - unfold lift in H2. destruct (move_axes v ax) as [w'|] eqn:MA; inversion H2; subst.
      split; [reflexivity|]. apply (moved_plain (Some ax)); [exact PV|].
      unfold lift. rewrite MA. reflexivity.
    - inversion H2; subst. split; [reflexivity|]. apply (moved_plain None w w); [exact PV|reflexivity]. }
  destruct MV as [-> [MV NW]].
  apply bind_Ok in H3. destruct H3 as [o4 [e7 [[] [e8 [H3 [H4 _]]]]]]. inversion H4; subst. clear H4.
  destruct (set_unprot _ _ _ _ _ _ NP H3) as [w' [W ->]]. rewrite NW in W. inversion W; subst w'.
  exists v, w. split; [first [exact G|reflexivity]|]. split; [exact MV|]. split; [exact NW|]. cbn [pub with_pub prot ro conv].
  rewrite D1. repeat (split; [reflexivity || assumption|]).
  unfold fewer_custom. cbn [custom with_pub]. rewrite D5. match goal with |- context [custom ?y] => destruct (custom y) as [cu|] end; [|reflexivity].
  exists cu. split; [reflexivity|apply ddel_incl].
Qed.

Lemma moved_plain_value ax v w : plain_value v -> moved ax v w -> plain_value w.
Proof.
  intros PV. destruct ax as [[src dst]|]; cbn; [|intros ->; exact PV].
  intros [a [b [n [order [_ [-> [_ [_ P]]]]]]]]. cbn. unfold wf_arr. apply Nat.eqb_eq. apply (pe_size _ _ _ P).
Qed.

(** ** All entries to move *)
Lemma moves_Ok l : forall o o' ev u,
  let src := map (fun sm : string * move => python_name (fst sm)) l in
  let tgt := map (fun sm : string * move => python_name (mv_target (snd sm))) l in
  prot o = false -> NoDup (dkeys (pub o)) ->
  (forall k v, In k src -> dget k (pub o) = Some v -> plain_value v) -> NoDup src -> NoDup tgt ->
  (forall i j s t, nth_error src i = Some s -> nth_error tgt j = Some t -> s = t -> i = j) ->
  ~ In "protected" tgt ->
  mfor l move_entry o = (o', ev, Ok u) ->
  (forall s m, In (s, m) l -> exists v w, dget (python_name s) (pub o) = Some v
      /\ moved (mv_axis m) v w /\ dget (python_name (mv_target m)) (pub o') = Some w)
  /\ (forall k, ~ In k src -> ~ In k tgt -> dget k (pub o') = dget k (pub o))
  /\ (forall k, In k src -> ~ In k tgt -> dget k (pub o') = None)
  /\ NoDup (dkeys (pub o')) /\ prot o' = false /\ ro o' = ro o /\ conv o' = conv o /\ fewer_custom o o'.
Proof.
  induction l as [|[s m] l IH]; intros o o' ev u src tgt P ND PL NS NT CR NP H.
  { inversion H; subst. split; [intros ? ? []|]. split; [reflexivity|]. split; [intros ? []|].
    repeat (split; [reflexivity || assumption|]). apply fewer_refl. }
  cbn [mfor] in H. apply bind_Ok in H. destruct H as [o1 [e1 [[] [e2 [H1 [H2 _]]]]]].
  cbn [map fst snd] in src, tgt.
  destruct (move_entry_Ok s m o o1 e1 tt P) as [v [w [G [MV [NW [PU [P1 [R1 [C1 F1]]]]]]]]];
    [intros v; apply PL; left; reflexivity|intro Q; apply NP; left; exact Q|exact H1|].
  inversion NS as [|x1 t1 NS1 NS2]; subst x1 t1. inversion NT as [|x1 t1 NT1 NT2]; subst x1 t1.
  assert (SR : ~ In (python_name (mv_target m)) (map (fun sm : string * move => python_name (fst sm)) l)).
  { intro I. apply In_nth_error in I. destruct I as [i I].
    discriminate (CR (S i) 0 (python_name (mv_target m)) (python_name (mv_target m)) I eq_refl eq_refl). }
  assert (TS : ~ In (python_name s) (map (fun sm : string * move => python_name (mv_target (snd sm))) l)).
  { intro I. apply In_nth_error in I. destruct I as [i I].
    discriminate (CR 0 (S i) (python_name s) (python_name s) eq_refl I eq_refl). }
  assert (ND1 : NoDup (dkeys (pub o1))) by (rewrite PU; apply NoDup_dset, NoDup_ddel; exact ND).
  assert (SAME : forall k, k <> python_name s -> k <> python_name (mv_target m) -> dget k (pub o1) = dget k (pub o)).
  { intros k K1 K2. rewrite PU, dget_dset, dget_ddel by exact ND.
    rewrite (eqb_neq_s _ _ K1), (eqb_neq_s _ _ K2). reflexivity. }
  destruct (IH o1 o' e2 u P1 ND1) as [I1 [I2 [I3 [I4 [I5 [I6 [I7 I8]]]]]]].
  { intros k v' I Q. rewrite SAME in Q; [apply (PL k v'); [right; exact I|exact Q]| |].
    - intros ->. apply NS1. exact I.
    - intros ->. apply SR. exact I. }
  { exact NS2. }
  { exact NT2. }
  { intros i j s' t' A B Q. specialize (CR (S i) (S j) s' t' A B Q). lia. }
  { intro I. apply NP. right. exact I. }
  { exact H2. }
  split; [|split; [|split]].
  - intros s' m' [I|I].
    + inversion I; subst s' m'. exists v, w. split; [exact G|]. split; [exact MV|].
      rewrite I2 by assumption. rewrite PU, dget_dset, String.eqb_refl. reflexivity.
    + destruct (I1 s' m' I) as [v' [w' [A [B C]]]]. exists v', w'. split; [|auto].
      assert (IS : In (python_name s') (map (fun sm : string * move => python_name (fst sm)) l)).
      { apply in_map_iff. exists (s', m'). auto. }
      rewrite SAME in A; [exact A| |].
      * intro Q. rewrite Q in IS. contradiction.
      * intro Q. rewrite Q in IS. contradiction.
  - intros k N1 N2. rewrite I2.
    + apply SAME; intros ->; [apply N1|apply N2]; left; reflexivity.
    + intro I. apply N1. right. exact I.
    + intro I. apply N2. right. exact I.
  - intros k [K|K] N2.
    + subst k. rewrite I2; [|exact NS1|exact TS]. rewrite PU, dget_dset.
      destruct (String.eqb_spec (python_name s) (python_name (mv_target m))) as [Q|Q].
      { exfalso. apply N2. left. auto. }
      rewrite dget_ddel, String.eqb_refl by exact ND. reflexivity.
    + apply I3; [exact K|]. intro I. apply N2. right. exact I.
  - split; [exact I4|]. split; [exact I5|]. split; [congruence|]. split; [congruence|].
    eapply fewer_trans; eassumption.
Qed.

(** ** All entries to remove *)
Lemma removes_Ok l : forall o o' ev u, prot o = false -> NoDup (dkeys (pub o)) ->
  mfor l remove_entry o = (o', ev, Ok u) ->
  (forall k, In k (map python_name l) -> (exists v, dget k (pub o) = Some v) /\ dget k (pub o') = None)
  /\ (forall k, ~ In k (map python_name l) -> dget k (pub o') = dget k (pub o))
  /\ prot o' = false /\ ro o' = ro o /\ conv o' = conv o /\ fewer_custom o o'.
Proof.
  induction l as [|t l IH]; intros o o' ev u P ND H.
  { inversion H; subst. split; [intros ? []|]. split; [reflexivity|].
    repeat (split; [reflexivity || assumption|]). apply fewer_refl. }
  cbn [mfor] in H. apply bind_Ok in H. destruct H as [o1 [e1 [[] [e2 [H1 [H2 _]]]]]].
  unfold remove_entry in H1. rewrite sofar_name_python in H1.
  apply bind_Ok in H1. destruct H1 as [o2 [e3 [[] [e4 [H1 [H3 _]]]]]]. inversion H3; subst. clear H3.
  destruct (del_unprot _ _ _ _ _ P H1) as [D1 [D2 [D3 [D4 [D5 D6]]]]].
  assert (ND1 : NoDup (dkeys (pub o1))) by (rewrite D1; apply NoDup_ddel; exact ND).
  destruct (IH _ _ _ _ D2 ND1 H2) as [I1 [I2 [I3 [I4 [I5 I6]]]]].
  cbn [map]. split; [|split; [|repeat (split; [congruence|])]].
  - intros k [<-|K].
    + split; [exact D3|]. destruct (in_dec String.string_dec (python_name t) (map python_name l)) as [I|N].
      * apply I1. exact I.
      * rewrite I2 by exact N. rewrite D1, dget_ddel, String.eqb_refl by exact ND. reflexivity.
    + destruct (I1 k K) as [[v A] B]. split; [|exact B]. exists v. rewrite D1, dget_ddel in A by exact ND.
      destruct (String.eqb_spec k (python_name t)); [discriminate|exact A].
  - intros k N. rewrite I2 by (intro I; apply N; right; exact I). rewrite D1, dget_ddel by exact ND.
    destruct (String.eqb_spec k (python_name t)) as [->|]; [|reflexivity]. exfalso. apply N. left. reflexivity.
  - eapply fewer_trans; [|exact I6]. unfold fewer_custom. rewrite D6. destruct (custom o) as [cu|]; [|reflexivity].
    exists cu. split; [reflexivity|apply ddel_incl].
Qed.

(** ** Stating the target convention *)
Lemma stated_Ok cv l : forall o o' ev u, prot o = false -> NoDup l -> ~ In "protected" l ->
  mfor l (fun k => do e <- lift (dgetE k cv); set_attr k (e_default e)) o = (o', ev, Ok u) ->
  (forall k, In k l -> exists e w, dget k cv = Some e /\ normalize (e_default e) = Ok w
     /\ dget k (pub o') = Some w)
  /\ (forall k, ~ In k l -> dget k (pub o') = dget k (pub o))
  /\ prot o' = false /\ ro o' = ro o /\ conv o' = conv o /\ custom o' = custom o.
Proof.
  induction l as [|t l IH]; intros o o' ev u P ND NP H.
  { inversion H; subst. split; [intros ? []|]. auto. }
  cbn [mfor] in H. apply bind_Ok in H. destruct H as [o1 [e1 [[] [e2 [H1 [H2 _]]]]]].
  apply bind_Ok in H1. destruct H1 as [o2 [e3 [e [e4 [H1 [H3 _]]]]]].
  unfold lift, dgetE in H1. destruct (dget t cv) as [e0|] eqn:G; [|discriminate]. inversion H1; subst. clear H1.
  destruct (set_unprot t (e_default e) o2 o1 e4 tt) as [w [W ->]]; [intros ->; apply NP; left; reflexivity|exact H3|].
  inversion ND as [|x y N1 N2]; subst x y.
  destruct (IH (with_pub o2 (dset t w (pub o2))) o' e2 u P N2 ltac:(intro I; apply NP; right; exact I) H2) as [I1 [I2 [I3 [I4 [I5 I6]]]]].
  split; [|split; [|auto]].
  - intros k [<-|K]; [|exact (I1 k K)]. exists e, w. split; [exact G|]. split; [exact W|].
    rewrite I2 by exact N1. cbn [pub with_pub]. rewrite dget_dset, String.eqb_refl. reflexivity.
  - intros k N. rewrite I2 by (intro I; apply N; right; exact I). cbn [pub with_pub]. rewrite dget_dset.
    destruct (String.eqb_spec k t) as [->|]; [exfalso; apply N; left; reflexivity|reflexivity].
Qed.


Lemma load_own_file E c version cv : db_ok E -> load_convention E c version = Ok cv ->
  exists v content, has_file E c v content /\ cv = sofar_keys content
    /\ (version <> "latest" -> v = version) /\ ~ In "protected" (dkeys cv)
    /\ states_own "GLOBAL_SOFAConventions" c cv /\ states_own "GLOBAL_SOFAConventionsVersion" v cv.
Proof.
  intros DB HL. destruct (load_convention_file _ _ _ _ HL) as [f [F1 [F2 [F3 F4]]]].
  destruct (file_ok_prefix f c (proj2 DB f F1) F2) as [v [V1 [V2 [V3 [V4 [V5 [VP [V6 V7]]]]]]]].
  exists v, (snd f). subst cv.
  split; [unfold has_file, file_name; rewrite <- V1; destruct f; exact F1|]. split; [reflexivity|].
  split; [intro N; rewrite <- (F4 N); auto|]. auto.
Qed.

(** ** The whole upgrade *)
Lemma NoDup_kdict o o' : kdict o o' -> dicts_ok o -> NoDup (dkeys (pub o')).
Proof. intros K D. apply K in D. apply D. Qed.

Lemma stated_NoDup : NoDup upgrade_keys /\ ~ In "protected" upgrade_keys.
Proof.
  split.
  - repeat constructor; cbn; intuition discriminate.
  - cbn. intuition discriminate.
Qed.

Lemma fewer_no_flags o o' : dicts_ok o -> NoDup (match custom o' with Some cu => dkeys cu | None => [] end) ->
  fewer_custom o o' -> no_flags o -> no_flags o'.
Proof.
  intros [_ D] D' F NF cu k e C G. unfold fewer_custom in F. rewrite C in F.
  destruct F as [cu0 [C0 I]]. apply dget_In in G. apply I in G. rewrite C0 in D.
  apply (NF cu0 k e C0). apply In_dget; assumption.
Qed.

Lemma apply_upgrade_Ok E c v sv t id vo o o' ev u : db_ok E -> dicts_ok o -> no_flags o ->
  (forall cu, custom o = Some cu -> ~ In "protected" (dkeys cu)) ->
  apply_upgrade E c v sv t id vo o = (o', ev, Ok u) ->
  exists ur sp ct vt cv, dget c (upgrades E) = Some ur /\ dget id (u_specs ur) = Some sp
    /\ split "_" t = [ct; vt] /\ load_convention E ct vt = Ok cv
    /\ (changes_tidy sp ->
        (forall k x, In k (sources sp) -> dget k (pub o) = Some x -> plain_value x) ->
        upgraded cv sp (pub o) (pub o')).
Proof.
  intros DB DO NF NPC H. unfold apply_upgrade in H.
  apply bind_Ok in H. destruct H as [o1 [e1 [ur [e2 [H1 [H _]]]]]].
  unfold lift, dgetE in H1. destruct (dget c (upgrades E)) as [ur'|] eqn:G1; [|discriminate].
  inversion H1; subst. clear H1.
  apply bind_Ok in H. destruct H as [o2 [e1 [sp [e3 [H1 [H _]]]]]].
  unfold lift, dgetE in H1. destruct (dget id (u_specs ur)) as [sp'|] eqn:G2; [|discriminate].
  inversion H1; subst. clear H1.
  apply bind_Ok in H. destruct H as [o1 [e1 [cvt [e4 [H1 [H _]]]]]].
  unfold lift in H1. destruct (split "_" t) as [|ct [|vt [|? ?]]] eqn:G3; try discriminate.
  inversion H1; subst. clear H1. cbn [fst snd] in H.
  apply bind_Ok in H. destruct H as [o2 [e1 [cv [e5 [H1 [H _]]]]]].
  unfold lift in H1. destruct (load_convention E ct vt) as [cv'|] eqn:G4; [|discriminate].
  inversion H1; subst. clear H1.
  exists ur, sp, ct, vt, cv. do 4 (split; [first [assumption|reflexivity]|]). intros CT PS.
  apply bind_Ok in H. destruct H as [o3 [e6 [[] [e7 [H1 [H _]]]]]]. inversion H1; subst. clear H1.
  apply bind_Ok in H. destruct H as [o3 [e8 [gv [e9 [H1 [H _]]]]]].
  assert (o3 = with_conv o2 cv) as -> by (unfold lift in H1; destruct (dgetE _ cv); inversion H1; reflexivity). clear H1.
  apply bind_Ok in H. destruct H as [o3 [e6 [[] [e10 [H1 [H _]]]]]]. inversion H1; subst. clear H1.
  apply bind_Ok in H. destruct H as [o3 [e6 [[] [e11 [H1 [H _]]]]]]. inversion H1; subst. clear H1.
  set (oa := with_prot (with_conv o2 cv) false) in *.
  apply bind_Ok in H. destruct H as [ob [e6 [[] [e12 [HS [H _]]]]]].
  apply bind_Ok in H. destruct H as [oc [e13 [[] [e14 [HM [H _]]]]]].
  apply bind_Ok in H. destruct H as [oc' [e15 [[] [e16 [H1 [H _]]]]]].
  assert (oc' = oc) as -> by (destruct (u_move sp); inversion H1; reflexivity). clear H1.
  apply bind_Ok in H. destruct H as [od [e17 [[] [e18 [HR [H _]]]]]].
  apply bind_Ok in H. destruct H as [od' [e19 [[] [e20 [H1 [H _]]]]]].
  assert (od' = od) as -> by (destruct (u_remove sp); inversion H1; reflexivity). clear H1.
  apply bind_Ok in H. destruct H as [oe [e21 [[] [e22 [HA [H _]]]]]].
  (* nothing after add_missing changes data *)
  assert (PE : pub o' = pub oe).
  { apply bind_Ok in H. destruct H as [of [e23 [[] [e24 [H1 [H _]]]]]]. inversion H1; subst. clear H1.
    apply bind_Ok in H. destruct H as [og [e25 [[] [e26 [H1 [H _]]]]]].
    assert (og = with_prot oe true) as -> by (destruct (u_message sp); inversion H1; reflexivity). clear H1.
    apply bind_Ok in H. destruct H as [oh [e27 [og [e28 [H1 [H _]]]]]]. inversion H1; subst. clear H1.
    apply bind_Ok in H. destruct H as [oi [e29 [ver [e30 [H1 [H _]]]]]].
    assert (oi = with_prot oe true) as ->.
    { destruct vo.
      - apply bind_Ok in H1; destruct H1 as [o9 [e31 [y [e32 [A1 [A2 _]]]]]].
        unfold lift in *. inversion A1; subst. inversion A2; reflexivity.
      - inversion H1; reflexivity.
      - inversion H1; reflexivity. }
    destruct ver; [|inversion H; reflexivity].
    apply bind_Ok in H. destruct H as [oj [e33 [y [e34 [A1 [A2 _]]]]]]. inversion A2; subst.
    assert (V := proj1 (verify_raise_pub (normative_keys E) E VWrite (with_prot oe true))).
    unfold verify in A1. rewrite A1 in V. exact V. }
  rewrite PE. clear H PE.
  assert (DOa : dicts_ok oa) by exact DO.
  assert (DOb : dicts_ok ob).
  { assert (X := fun K => (K : always kdict (mfor upgrade_keys (fun k => do e <- lift (dgetE k cv); set_attr k (e_default e)))) oa).
    rewrite HS in X. apply X; [|exact DOa]. alds. }
  assert (DOc : dicts_ok oc).
  { assert (X := fun K => (K : always kdict (mfor (u_move sp) move_entry)) ob).
    rewrite HM in X. apply X; [|exact DOb]. apply always_mfor; [typeclasses eauto..|].
    intros [s m]. unfold move_entry. repeat (intros; cbv beta zeta; first [apply kdict_del_attr|ald]). }
  assert (DOd : dicts_ok od).
  { assert (X := fun K => (K : always kdict (mfor (u_remove sp) remove_entry)) oc).
    rewrite HR in X. apply X; [|exact DOc]. apply always_mfor; [typeclasses eauto..|].
    intros s. unfold remove_entry. repeat (intros; cbv beta zeta; first [apply kdict_del_attr|ald]). }
  destruct stated_NoDup as [SN SP].
  destruct (stated_Ok cv upgrade_keys oa ob e6 tt eq_refl SN SP HS) as [S1 [S2 [S3 [S4 [S5 S6]]]]].
  destruct (moves_Ok (u_move sp) ob oc e13 tt S3 (proj1 DOb)) as [M1 [M2 [M3 [M4 [M5 [M6 [M7 M8]]]]]]].
  { intros k x I G. apply (PS k x I). rewrite S2 in G; [exact G|]. intro K.
    destruct (ct_stated _ CT k K) as [N _]. apply N. exact I. }
  { apply (ct_sources _ CT). }
  { apply (ct_targets _ CT). }
  { apply (ct_cross _ CT). }
  { apply (ct_protected _ CT). }
  { exact HM. }
  fold (sources sp) in M2, M3. fold (targets_of sp) in M2, M3.
  destruct (removes_Ok (u_remove sp) oc od e17 tt M5 (proj1 DOc) HR) as [R1 [R2 [R3 [R4 [R5 R6]]]]].
  fold (removals sp) in R1, R2.
  (* the target convention is the one stated *)
  destruct (load_own_version E ct vt cv DB G4) as [vt' [L1 [L2 [L3 [L4 L5]]]]].
  assert (NAME : forall key own, In key upgrade_keys -> states_own key own cv ->
    exists b, dget key (pub od) = Some (VStr b own)).
  { intros key own I [e [b [X1 [X2 [X3 X4]]]]]. destruct (S1 key I) as [e' [w [Y1 [Y2 Y3]]]].
    rewrite X1 in Y1. inversion Y1; subst e'. rewrite X4 in Y2. inversion Y2; subst w. exists b.
    destruct (ct_stated _ CT key I) as [N1 [N2 N3]]. rewrite R2, M2 by assumption. exact Y3. }
  destruct (NAME "GLOBAL_SOFAConventions" ct) as [b1 N1]; [left; reflexivity|exact L4|].
  destruct (NAME "GLOBAL_SOFAConventionsVersion" vt') as [b2 N2]; [right; left; reflexivity|exact L5|].
  destruct (add_missing_Ok E true false true od oe e21 tt HA) as [o6 [A1 [A2 [A3 A4]]]].
  assert (FC : fewer_custom o2 od).
  { eapply fewer_trans; [|exact R6]. eapply fewer_trans; [|exact M8].
    unfold fewer_custom. rewrite S6. cbn [custom with_prot with_conv oa].
    destruct (custom o2) as [cu|]; [|reflexivity]. exists cu. split; [reflexivity|apply incl_refl]. }
  assert (NFd : no_flags od).
  { apply (fewer_no_flags o2 od DO); [|exact FC|exact NF].
    destruct DOd as [_ X]. destruct (custom od); [exact X|constructor]. }
  assert (CO : (forall k e, dget k cv = Some e -> dget k (conv o6) = Some e)
     /\ (forall k e, dget k (conv o6) = Some e -> is_mandatory (e_flags e) = true -> dget k cv = Some e)
     /\ ~ In "protected" (dkeys (conv o6))).
  { destruct (reset_declared E od o6 DOd A1) as [b [c' [w [cv' [X1 [X2 [_ [X4 RT]]]]]]]].
    rewrite N1 in X1. inversion X1; subst b c'. rewrite N2 in X2. inversion X2; subst w. cbn in X4.
    rewrite L1 in X4. inversion X4; subst cv'. split; [|split].
    - intros k e Q. rewrite (rt_conv _ _ _ RT). unfold declared. rewrite Q. reflexivity.
    - intros k e Q M. rewrite (rt_conv _ _ _ RT) in Q. unfold declared in Q.
      destruct (dget k cv); [exact Q|]. exfalso. unfold own_custom in Q.
      destruct (custom od) as [cu|] eqn:CU; [|discriminate].
      apply dget_In in Q. apply filter_In in Q. destruct Q as [Q _].
      apply In_dget in Q; [|destruct DOd as [_ D]; rewrite CU in D; exact D].
      rewrite (NFd _ _ _ CU Q) in M. discriminate.
    - intro I. apply dget_Some_In in I. destruct I as [e Q]. rewrite (rt_conv _ _ _ RT) in Q. unfold declared in Q.
      destruct (dget "protected" cv) as [e'|] eqn:Q'; [exfalso; apply L3; apply dget_Some_In; eauto|].
      unfold own_custom in Q. unfold fewer_custom in FC. destruct (custom od) as [cu|]; [|discriminate].
      apply dget_In in Q. apply filter_In in Q. destruct Q as [Q _]. destruct FC as [cu0 [C0 I0]].
      apply (NPC cu0 C0). apply I0 in Q. apply (in_map fst) in Q. exact Q. }
  destruct CO as [CO1 [CO2 CO3]].
  destruct (A4 CO3) as [_ [_ [B1 [B2 [B3 _]]]]]. clear A4 HA HR HM HS.
  assert (OTH : forall k, ~ In k stated_keys -> ~ In k (sources sp) -> ~ In k (targets_of sp) ->
            ~ In k (removals sp) -> dget k (pub od) = dget k (pub o2)).
  { intros k K1 K2 K3 K4. rewrite R2, M2, S2 by assumption. reflexivity. }
  assert (UP : forall k w, dget k (pub od) = None -> dget k (pub oe) = Some w ->
            exists e, dget k cv = Some e /\ is_mandatory (e_flags e) = true /\ added_default e w).
  { intros k w Q1 Q2. destruct (dget k (conv o6)) as [e|] eqn:Q3.
    - destruct (wanted true false e) eqn:WA.
      + destruct (B2 k e Q3 WA Q1) as [w' [Q4 Q5]]. rewrite Q2 in Q4. inversion Q4; subst w'.
        assert (MA : is_mandatory (e_flags e) = true).
        { unfold wanted in WA. destruct (is_mandatory (e_flags e)); [reflexivity|discriminate]. }
        exists e. split; [apply CO2; assumption|]. split; [exact MA|]. apply normalize_added. exact Q5.
      + rewrite (B3 k Q1) in Q2; [discriminate|]. intros e' Q4. congruence.
    - rewrite (B3 k Q1) in Q2; [discriminate|]. intros e' Q4. congruence. }
  split.
  - intros k K. destruct (S1 k K) as [e [w [Q1 [Q2 Q3]]]]. exists e, w. split; [exact Q1|].
    split; [apply normalize_added; exact Q2|]. apply B1.
    destruct (ct_stated _ CT k K) as [K1 [K2 K3]]. rewrite R2, M2 by assumption. exact Q3.
  - intros s m I. destruct (M1 s m I) as [x [w [Q1 [Q2 Q3]]]]. exists x, w.
    assert (IS : In (python_name s) (sources sp)) by (apply in_map_iff; exists (s, m); auto).
    assert (IT : In (python_name (mv_target m)) (targets_of sp)) by (apply in_map_iff; exists (s, m); auto).
    split; [|split; [exact Q2|]].
    + rewrite S2 in Q1; [exact Q1|]. intro K. apply (proj1 (ct_stated _ CT _ K)). exact IS.
    + apply B1. rewrite R2; [exact Q3|]. intro K. apply (ct_removed _ CT _ K). exact IT.
  - intros k x Q K1 K2 K3 K4. apply B1. rewrite OTH by assumption. exact Q.
  - intros k K. destruct (R1 k K) as [[x Q] _]. assert (NT := ct_removed _ CT k K).
    destruct (in_dec String.string_dec k (sources sp)) as [IS|NS].
    { rewrite M3 in Q by assumption. discriminate. }
    exists x. rewrite M2 in Q by assumption. rewrite S2 in Q; [exact Q|].
    intro KK. apply (proj2 (proj2 (ct_stated _ CT _ KK))). exact K.
  - intros k w Q K1 K2. destruct (dget k (pub od)) as [x|] eqn:Q1.
    + left. assert (Q2 := B1 _ _ Q1). rewrite Q in Q2. inversion Q2; subst x.
      assert (K4 : ~ In k (removals sp)) by (intro K; rewrite (proj2 (R1 k K)) in Q1; discriminate).
      assert (K3 : ~ In k (sources sp)).
      { intro K. rewrite R2 in Q1 by assumption. rewrite M3 in Q1 by assumption. discriminate. }
      split; [|auto]. rewrite OTH in Q1 by assumption. exact Q1.
    + right. apply UP; assumption.
  - intros k e Q MA. destruct (dget k (pub od)) as [x|] eqn:Q1; [exists x; apply B1; exact Q1|].
    destruct (B2 k e (CO1 _ _ Q)) as [w [Q2 _]]; [|exact Q1|exists w; exact Q2].
    unfold wanted. rewrite MA. reflexivity.
Qed.

(** ** Upgrades that can be applied do not raise *)
Lemma move_axes_ok v ax : movable (Some ax) v -> exists w, move_axes v ax = Ok w.
Proof.
  destruct ax as [src dst]. intros [M [N1 [N2 L]]]. unfold move_axes. cbn [fst snd].
  set (n := S (max_axis (src, dst))).
  assert (LT : forall i, In i src \/ In i dst -> i < n).
  { intros i I. unfold n, max_axis. cbn [fst snd]. apply Nat.lt_succ_r, max_list_ge. apply in_or_app. exact I. }
  assert (PL : forall s, n <= List.length (pad1 n s)).
  { intro s. unfold pad1. rewrite app_length, repeat_length. lia. }
  assert (G : forall a s, exists b, moveaxis (reshape a (pad1 n s)) src dst = Ok b).
  { intros a s. apply moveaxis_ok. split; [|auto]. intros i I. apply LT in I.
    assert (P := PL s). unfold a_ndim. cbn [a_shape reshape]. lia. }
  destruct v as [b s|x|a|l]; try contradiction.
  - destruct (G (scalar_arr x) []) as [b G0]. destruct x; try congruence; rewrite G0; eexists; reflexivity.
  - destruct (G a (a_shape a)) as [b G0]. rewrite G0. eexists; reflexivity.
Qed.

Lemma del_ok name o v : prot o = false -> is_private name = false -> dget name (pub o) = Some v ->
  exists o', del_attr name o = (o', [], Ok tt).
Proof.
  intros P IP G. unfold del_attr. rewrite IP, P.
  assert (D : dmem name (pub o) = true) by (unfold dmem; rewrite G; reflexivity).
  unfold hasattr. rewrite D. cbn [orb negb]. eauto.
Qed.

Definition fine {A} (m : M A) (o : sofa) : Prop := exists o' ev a, m o = (o', ev, Ok a).

Lemma bind_fine {A B} (m : M A) (f : A -> M B) o o1 ev a :
  m o = (o1, ev, Ok a) -> fine (f a) o1 -> fine (bind m f) o.
Proof.
  intros H [o2 [e2 [b H2]]]. unfold fine, bind. rewrite H, H2. eauto.
Qed.

Lemma move_entry_ok s m o v : prot o = false -> is_private (python_name s) = false ->
  clean_key (python_name (mv_target m)) -> dget (python_name s) (pub o) = Some v -> plain_value v ->
  movable (mv_axis m) v -> fine (move_entry (s, m)) o.
Proof.
  intros P IP CK G PV MV. unfold move_entry. cbn [fst snd]. cbv zeta. rewrite !sofar_name_python.
  unfold fine. rewrite bind_get. unfold getattr. rewrite G, bind_lift.
  destruct (del_ok _ _ _ P IP G) as [o1 D].
  destruct (del_unprot _ _ _ _ _ P D) as [_ [P1 _]]. rewrite (bind_silent _ _ _ _ _ D).
  assert (W : exists w, match mv_axis m with None => ret v | Some ax => lift (move_axes v ax) end o1 = (o1, [], Ok w)
      /\ is_ok (normalize w) = true).
  { destruct (mv_axis m) as [ax|] eqn:AX.
    - destruct (move_axes_ok v ax MV) as [w W]. rewrite W. exists w. split; [reflexivity|].
      destruct (moved_plain (Some ax) v w PV) as [_ N]; [unfold lift; rewrite W; reflexivity|]. rewrite N. reflexivity.
    - exists v. split; [reflexivity|]. destruct (moved_plain None v v PV) as [_ N]; [reflexivity|]. rewrite N. reflexivity. }
  destruct W as [w [W N]]. rewrite (bind_silent _ _ _ _ _ W).
  destruct (set_attr_fine _ w o1 CK N P1) as [w' S]. rewrite (bind_silent _ _ _ _ _ S).
  unfold emit. eauto.
Qed.

Lemma moves_ok l : forall o,
  let src := map (fun sm : string * move => python_name (fst sm)) l in
  let tgt := map (fun sm : string * move => python_name (mv_target (snd sm))) l in
  prot o = false -> NoDup (dkeys (pub o)) -> NoDup src ->
  (forall i j s t, nth_error src i = Some s -> nth_error tgt j = Some t -> s = t -> i = j) ->
  (forall s m, In (s, m) l -> is_private (python_name s) = false /\ clean_key (python_name (mv_target m))
    /\ exists v, dget (python_name s) (pub o) = Some v /\ plain_value v /\ movable (mv_axis m) v) ->
  fine (mfor l move_entry) o.
Proof.
  induction l as [|[s m] l IH]; intros o src tgt P ND NS CR H; [unfold fine; do 3 eexists; reflexivity|].
  cbn [mfor]. cbn [map fst snd] in src, tgt.
  destruct (H s m (or_introl eq_refl)) as [H1 [H2 [v [H3 [H4 H5]]]]].
  destruct (move_entry_ok s m o v P H1 H2 H3 H4 H5) as [o1 [e1 [[] M]]].
  apply (bind_fine _ _ _ _ _ _ M).
  destruct (move_entry_Ok s m o o1 e1 tt P) as [v' [w [G [MV [NW [PU [P1 _]]]]]]];
    [intros v' G; congruence|apply H2|exact M|].
  inversion NS as [|x1 t1 NS1 NS2]; subst x1 t1.
  apply (IH o1 P1); [rewrite PU; apply NoDup_dset, NoDup_ddel; exact ND|exact NS2| |].
  - intros i j s' t' A B Q. specialize (CR (S i) (S j) s' t' A B Q). lia.
  - intros s' m' I. destruct (H s' m' (or_intror I)) as [K1 [K2 [x [K3 [K4 K5]]]]].
    split; [exact K1|]. split; [exact K2|]. exists x. split; [|auto].
    assert (IS : In (python_name s') (map (fun sm : string * move => python_name (fst sm)) l))
      by (apply in_map_iff; exists (s', m'); auto).
    rewrite PU, dget_dset, dget_ddel by exact ND.
    destruct (String.eqb_spec (python_name s') (python_name (mv_target m))) as [Q|Q].
    { apply In_nth_error in IS. destruct IS as [i IS].
      discriminate (CR (S i) 0 _ _ IS eq_refl Q). }
    destruct (String.eqb_spec (python_name s') (python_name s)) as [Q'|Q']; [|exact K3].
    rewrite Q' in IS. contradiction.
Qed.

Lemma removes_ok l : forall o, prot o = false -> NoDup (dkeys (pub o)) -> NoDup (map python_name l) ->
  (forall k, In k (map python_name l) -> is_private k = false /\ exists v, dget k (pub o) = Some v) ->
  fine (mfor l remove_entry) o.
Proof.
  induction l as [|t l IH]; intros o P ND NR H; [unfold fine; do 3 eexists; reflexivity|].
  cbn [mfor map] in *. inversion NR as [|x1 t1 N1 N2]; subst x1 t1.
  destruct (H _ (or_introl eq_refl)) as [H1 [v H2]].
  destruct (del_ok _ _ _ P H1 H2) as [o1 D].
  destruct (del_unprot _ _ _ _ _ P D) as [D1 [P1 _]].
  unfold remove_entry at 1. rewrite sofar_name_python.
  eapply bind_fine.
  - rewrite (bind_silent _ _ _ _ _ D). unfold emit. reflexivity.
  - apply IH; [exact P1|rewrite D1; apply NoDup_ddel; exact ND|exact N2|].
    intros k K. destruct (H k (or_intror K)) as [K1 [x K2]]. split; [exact K1|]. exists x.
    rewrite D1, dget_ddel by exact ND. destruct (String.eqb_spec k (python_name t)) as [->|]; [contradiction|exact K2].
Qed.

Lemma stated_ok cv l : forall o, prot o = false ->
  (forall k, In k l -> exists e, dget k cv = Some e /\ entry_fine (k, e)) ->
  fine (mfor l (fun k => do e <- lift (dgetE k cv); set_attr k (e_default e))) o.
Proof.
  induction l as [|k l IH]; intros o P H; [unfold fine; do 3 eexists; reflexivity|].
  cbn [mfor]. destruct (H k (or_introl eq_refl)) as [e [H1 [H2 H3]]]. cbn [fst snd] in *.
  destruct (set_attr_fine k (e_default e) o H2 H3 P) as [w S].
  eapply bind_fine.
  - unfold dgetE. rewrite H1, bind_lift. exact S.
  - apply IH; [exact P|]. intros j J. apply H. right. exact J.
Qed.

Lemma add_missing_fine E o o1 b p : db_tidy E -> tidy o -> reset_convention E o = (o1, [], Ok tt) ->
  fine (add_missing E b p true) o.
Proof.
  intros DT T R. destruct (reset_tidy E o o1 DT T R) as [_ [F _]].
  unfold add_missing, fine. rewrite (bind_silent _ _ _ _ _ R), bind_get. cbv zeta.
  unfold set_protected at 1. rewrite bind_modify.
  match goal with |- context[mfor ?l _] => set (todo := l) end.
  assert (FT : Forall entry_fine todo).
  { rewrite Forall_forall in *. intros x Hx. apply filter_In in Hx. apply F, Hx. }
  destruct (mfor_set_fine todo FT (with_prot o1 false) eq_refl) as [p1 Q].
  rewrite (bind_silent _ _ _ _ _ Q). unfold set_protected. rewrite bind_modify.
  unfold when, emit. destruct (has_char _ _); eauto.
Qed.

Lemma apply_upgrade_ok E c v sv t id o ur sp ct vt cv : db_ok E -> db_tidy E -> dicts_ok o -> tidy o ->
  dget c (upgrades E) = Some ur -> dget id (u_specs ur) = Some sp -> split "_" t = [ct; vt] ->
  load_convention E ct vt = Ok cv -> (forall k, In k stated_keys -> In k (dkeys cv)) ->
  changes_tidy sp -> changes_possible sp (pub o) -> fine (apply_upgrade E c v sv t id VNo) o.
Proof.
  intros DB DT DO TO U1 U2 SP LO SK CT CP.
  unfold apply_upgrade, fine, dgetE at 1 2. rewrite U1, bind_lift, U2, bind_lift, SP, bind_lift. cbn [fst snd].
  rewrite LO, bind_lift, bind_modify.
  destruct (dget "GLOBAL_Version" cv) as [gv|] eqn:GV;
    [|exfalso; apply dget_None in GV; apply GV, SK; cbn; tauto].
  unfold dgetE at 1. rewrite GV, bind_lift.
  eapply bind_fine; [unfold emit; reflexivity|]. unfold fine, set_protected at 1. rewrite bind_modify.
  set (oa := with_prot (with_conv o cv) false).
  assert (FC := load_tidy E ct vt cv DT LO). rewrite Forall_forall in FC.
  destruct (stated_ok cv upgrade_keys oa eq_refl) as [ob [eb [[] HS]]].
  { intros k K. destruct (dget k cv) as [e|] eqn:G; [|exfalso; apply dget_None in G; apply G, SK; exact K].
    exists e. split; [reflexivity|]. apply FC. apply dget_In. exact G. }
  destruct stated_NoDup as [SN SPR].
  destruct (stated_Ok cv upgrade_keys oa ob eb tt eq_refl SN SPR HS) as [S1 [S2 [S3 [_ [_ S6]]]]].
  assert (DOb : dicts_ok ob).
  { assert (X := fun K => (K : always kdict (mfor upgrade_keys (fun k => do e <- lift (dgetE k cv); set_attr k (e_default e)))) oa).
    rewrite HS in X. apply X; [|exact DO]. alds. }
  assert (CPM : forall s m, In (s, m) (u_move sp) -> is_private (python_name s) = false /\ clean_key (python_name (mv_target m))
    /\ exists v, dget (python_name s) (pub ob) = Some v /\ plain_value v /\ movable (mv_axis m) v).
  { intros s m I. destruct (cp_move _ _ CP s m I) as [K1 [K2 [x [K3 K4]]]]. split; [exact K1|]. split; [exact K2|].
    exists x. split; [|exact K4]. rewrite S2; [exact K3|]. intro K. apply (proj1 (ct_stated _ CT _ K)).
    apply in_map_iff. exists (s, m). auto. }
  destruct (moves_ok (u_move sp) ob S3 (proj1 DOb) (ct_sources _ CT) (ct_cross _ CT) CPM) as [oc [ec [[] HM]]].
  destruct (moves_Ok (u_move sp) ob oc ec tt S3 (proj1 DOb)) as [M1 [M2 [M3 [M4 [M5 [M6 [M7 M8]]]]]]].
  { intros k x I G. apply in_map_iff in I. destruct I as [[s m] [<- I]]. cbn [fst] in *.
    destruct (CPM s m I) as [_ [_ [y [Y1 [Y2 _]]]]]. congruence. }
  { apply (ct_sources _ CT). }
  { apply (ct_targets _ CT). }
  { apply (ct_cross _ CT). }
  { apply (ct_protected _ CT). }
  { exact HM. }
  fold (sources sp) in M2, M3. fold (targets_of sp) in M2, M3.
  assert (DOc : dicts_ok oc).
  { assert (X := fun K => (K : always kdict (mfor (u_move sp) move_entry)) ob).
    rewrite HM in X. apply X; [|exact DOb]. apply always_mfor; [typeclasses eauto..|].
    intros [s m]. unfold move_entry. repeat (intros; cbv beta zeta; first [apply kdict_del_attr|ald]). }
  destruct (removes_ok (u_remove sp) oc M5 M4 (cp_once _ _ CP)) as [od [ed [[] HR]]].
  { intros k K. destruct (cp_remove _ _ CP k K) as [K1 [[x K2] K3]]. split; [exact K1|]. exists x.
    rewrite M2; [|exact K3|exact (ct_removed _ CT k K)]. rewrite S2; [exact K2|].
    intro KK. apply (proj2 (proj2 (ct_stated _ CT _ KK))). exact K. }
  destruct (removes_Ok (u_remove sp) oc od ed tt M5 M4 HR) as [R1 [R2 [R3 [R4 [R5 R6]]]]].
  fold (removals sp) in R1, R2.
  assert (DOd : dicts_ok od).
  { assert (X := fun K => (K : always kdict (mfor (u_remove sp) remove_entry)) oc).
    rewrite HR in X. apply X; [|exact DOc]. apply always_mfor; [typeclasses eauto..|].
    intros s. unfold remove_entry. repeat (intros; cbv beta zeta; first [apply kdict_del_attr|ald]). }
  destruct (load_own_file E ct vt cv DB LO) as [vt' [content [L1 [L2 [_ [_ [L4 L5]]]]]]].
  assert (NAME : forall key own, In key upgrade_keys -> states_own key own cv ->
    exists b, dget key (pub od) = Some (VStr b own)).
  { intros key own I [e [b [X1 [X2 [X3 X4]]]]]. destruct (S1 key I) as [e' [w [Y1 [Y2 Y3]]]].
    rewrite X1 in Y1. inversion Y1; subst e'. rewrite X4 in Y2. inversion Y2; subst w. exists b.
    destruct (ct_stated _ CT key I) as [N1 [N2 N3]]. rewrite R2, M2 by assumption. exact Y3. }
  destruct (NAME "GLOBAL_SOFAConventions" ct) as [b1 N1]; [left; reflexivity|exact L4|].
  destruct (NAME "GLOBAL_SOFAConventionsVersion" vt') as [b2 N2]; [right; left; reflexivity|exact L5|].
  destruct (proj2 (reset_iff E od DB DOd) b1 ct (VStr b2 vt') content N1 N2 L1) as [oe RS].
  assert (FCU : fewer_custom o od).
  { eapply fewer_trans; [|exact R6]. eapply fewer_trans; [|exact M8].
    unfold fewer_custom. rewrite S6. cbn [custom with_prot with_conv oa].
    destruct (custom o) as [cu|]; [|reflexivity]. exists cu. split; [reflexivity|apply incl_refl]. }
  assert (TD : tidy od).
  { intros cu ke C I. unfold fewer_custom in FCU. rewrite C in FCU. destruct FCU as [cu0 [C0 I0]].
    apply (TO cu0 ke C0). apply I0. exact I. }
  destruct (add_missing_fine E od oe true false DT TD RS) as [og [eg [[] HA]]].
  apply (bind_fine _ _ _ _ _ _ HS). apply (bind_fine _ _ _ _ _ _ HM).
  match goal with |- fine (bind ?m0 _) ?o0 => assert (X : exists e0, m0 o0 = (o0, e0, Ok tt)) by (unfold when, emit, ret; destruct (u_move sp); eexists; reflexivity); destruct X as [? X]; apply (bind_fine _ _ _ _ _ _ X); clear X end.
  apply (bind_fine _ _ _ _ _ _ HR).
  match goal with |- fine (bind ?m0 _) ?o0 => assert (X : exists e0, m0 o0 = (o0, e0, Ok tt)) by (unfold when, emit, ret; destruct (u_remove sp); eexists; reflexivity); destruct X as [? X]; apply (bind_fine _ _ _ _ _ _ X); clear X end.
  apply (bind_fine _ _ _ _ _ _ HA).
  unfold fine, set_protected. rewrite bind_modify.
  match goal with |- exists _ _ _, bind ?m0 _ ?o0 = _ => assert (X : exists e0, m0 o0 = (o0, e0, Ok tt)) by (unfold emit, ret; destruct (u_message sp); eexists; reflexivity); destruct X as [? X]; apply (bind_fine _ _ _ _ _ _ X); clear X end.
  unfold fine. rewrite bind_get, bind_ret. do 3 eexists. reflexivity.
Qed.

(** ** upgrade_convention *)
Lemma str_in_VStr v l : str_in v l = true ->
  exists b s, v = VStr b s /\ In s l.
Proof.
  intros H. destruct v as [b s| | |]; try discriminate. exists b, s. split; [reflexivity|]. apply smem_In. exact H.
Qed.

Lemma find_split {A} (f : A -> bool) l x : find f l = Some x ->
  exists pre post, l = pre ++ x :: post /\ f x = true /\ forall y, In y pre -> f y = false.
Proof.
  induction l as [|a l IH]; cbn; intro H; [discriminate|]. destruct (f a) eqn:F.
  - inversion H; subst. exists [], l. repeat split; [exact F|]. intros ? [].
  - destruct (IH H) as [pre [post [-> [H1 H2]]]]. exists (a :: pre), post. repeat split; [exact H1|].
    intros y [<-|I]; [exact F|exact (H2 y I)].
Qed.
Lemma split_find {A} (f : A -> bool) pre x post : f x = true -> (forall y, In y pre -> f y = false) ->
  find f (pre ++ x :: post) = Some x.
Proof.
  induction pre as [|a pre IH]; cbn; intros H1 H2; [rewrite H1; reflexivity|].
  rewrite (H2 a (or_introl eq_refl)). apply IH; [exact H1|]. intros y I. apply H2. right. exact I.
Qed.

(** the offers are the first matching rule *)
Lemma offers_find E o b c v u : dget "GLOBAL_SOFAConventions" (pub o) = Some (VStr b c) ->
  dget "GLOBAL_SOFAConventionsVersion" (pub o) = Some v -> dget c (upgrades E) = Some u ->
  forall targets id, offers E o targets id <->
    exists fr, find (fun ft : list string * list string * string => str_in v (fst (fst ft))) (u_from_to u) = Some (fr, targets, id).
Proof.
  intros G1 G2 G3 targets id. split.
  - intros [b0 [c0 [b' [v0 [u0 [pre [fr [post [H1 [H2 [H3 [H4 [H5 H6]]]]]]]]]]]]].
    rewrite G1 in H1. inversion H1; subst b0 c0. rewrite G2 in H2. inversion H2; subst v.
    rewrite G3 in H3. inversion H3; subst u0. rewrite H4. exists fr. apply split_find.
    + cbn. apply smem_In. exact H5.
    + intros y I. cbn. apply smem_false. apply H6. exact I.
  - intros [fr H]. apply find_split in H. destruct H as [pre [post [H1 [H2 H3]]]]. cbn [fst] in H2.
    destruct (str_in_VStr v fr H2) as [b' [s [-> I]]].
    exists b, c, b', s, u, pre, fr, post. split; [exact G1|]. split; [exact G2|]. split; [exact G3|].
    split; [exact H1|]. split; [exact I|]. intros x X. specialize (H3 x X). cbn in H3.
    apply smem_false in H3. exact H3.
Qed.

Lemma offers_deprecated E o b c v targets id : dget "GLOBAL_SOFAConventions" (pub o) = Some (VStr b c) ->
  dget "GLOBAL_SOFAConventionsVersion" (pub o) = Some v -> offers E o targets id ->
  exists u fr, dget c (upgrades E) = Some u /\ is_deprecated E c v = true
   /\ find (fun ft : list string * list string * string => str_in v (fst (fst ft))) (u_from_to u) = Some (fr, targets, id).
Proof.
  intros G1 G2 OF. assert (X : exists u, dget c (upgrades E) = Some u).
  { destruct OF as [b0 [c0 [b' [v0 [u0 [pre [fr [post [H1 [_ [H3 _]]]]]]]]]]]. rewrite G1 in H1. inversion H1; subst. eauto. }
  destruct X as [u G3]. destruct (proj1 (offers_find E o b c v u G1 G2 G3 targets id) OF) as [fr F].
  exists u, fr. split; [exact G3|]. split; [|exact F]. unfold is_deprecated. rewrite G3.
  apply find_some in F. destruct F as [F1 F2]. apply orb_true_iff. right. apply existsb_exists. eauto.
Qed.

Lemma split_join c s : join (str1 c) (split (str1 c) s) = s.
Proof.
  unfold split, str1. induction s as [|d s IH]; [reflexivity|]. cbn [split_aux].
  assert (P : String.prefix (String c "") (String d s) = Ascii.eqb c d).
  { cbn. destruct (ascii_dec c d) as [->|N]; [destruct s; rewrite Ascii.eqb_refl; reflexivity|].
    symmetry. apply Ascii.eqb_neq. exact N. }
  rewrite P. destruct (Ascii.eqb_spec c d) as [->|N].
  - change (String.length (String d "") - 1) with 0.
    destruct (split_aux (String d "") s 0) as [|h r] eqn:Q.
    + destruct s; cbn in Q; [discriminate|]. destruct (ascii_dec d a); [discriminate|].
      destruct (split_aux _ s 0); discriminate.
    + change (join (String d "") ("" :: h :: r)) with (String d (join (String d "") (h :: r))).
      rewrite IH. reflexivity.
  - destruct (split_aux (String c "") s 0) as [|h r] eqn:Q.
    + cbn in IH. rewrite <- IH. reflexivity.
    + destruct r as [|h' r]; cbn [join] in *; [rewrite IH; reflexivity|].
      change (String d h +++ ?x) with (String d (h +++ x)). rewrite IH. reflexivity.
Qed.
