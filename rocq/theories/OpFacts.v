(** One public operation: what it does to the data of an object. *)
From Verif Require Import Base PyStr PyNum NdArray Sofa Verify Upgrade SpecAttr BaseFacts AttrFacts.
From Coq Require Import RelationClasses.
Open Scope string_scope.
Open Scope list_scope.

(** convention possibly reloaded, then data only added *)
Definition settles (E : env) (o o' : sofa) : Prop :=
  grow o o' \/ exists o1, reset_convention E o = (o1, [], Ok tt) /\ grow o1 o'.

Lemma verify_settles E h m o : settles E o (m_obj (verify E h m o)).
Proof.
  unfold verify. destruct (verify_gen_obj (normative_keys E) E h m o) as [[H _]|[o1 [H1 [_ [_ H2]]]]].
  - left. rewrite H. reflexivity.
  - right. exists o1. split; assumption.
Qed.

Lemma settles_grow E o o1 o2 : settles E o o1 -> grow o1 o2 -> settles E o o2.
Proof.
  intros [H|[o' [H1 H2]]] G; [left; etransitivity; eassumption|].
  right. exists o'. split; [exact H1 | etransitivity; eassumption].
Qed.

Lemma settles_bind {A B} E (m : M A) (f : A -> M B) o :
  settles E o (m_obj (m o)) -> (forall a, always grow (f a)) ->
  settles E o (m_obj (bind m f o)).
Proof.
  intros H1 H2. rewrite m_obj_bind. destruct (m o) as [[o1 e1] [a|e]]; [|exact H1].
  eapply settles_grow; [exact H1 | apply H2].
Qed.

Lemma reset_settles_bind {B} E (f : unit -> M B) o :
  (forall o1, reset_convention E o = (o1, [], Ok tt) -> NoDup (dkeys (conv o1)) ->
              grow o1 (m_obj (f tt o1))) ->
  settles E o (m_obj (bind (reset_convention E) f o)).
Proof.
  intro H. rewrite m_obj_bind.
  destruct (reset_convention_cases E o) as [[e R]|[c [b [v [cv [_ [_ [_ [HL R]]]]]]]]].
  - rewrite R. left. reflexivity.
  - specialize (H _ R). rewrite R in *. right. eexists. split; [exact R|].
    apply H. eapply reset_ok_NoDup. exact R.
Qed.

Lemma grow_mfor_set l : forall o,
  NoDup (map fst l) -> (forall k, In k (map fst l) -> ~ In k (dkeys (pub o))) ->
  grow o (m_obj (mfor l (fun kv : string * entry => set_attr (fst kv) (e_default (snd kv))) o)).
Proof.
  induction l as [|[k e] l IH]; intros o ND HN; [reflexivity|].
  cbn [mfor fst snd]. inversion ND as [|? ? N1 N2]; subst.
  apply rel_bind; [typeclasses eauto | |].
  - apply grow_set_attr_new. apply HN. left; reflexivity.
  - intros [] o1 e1 H1. apply IH; [exact N2|].
    intros j Hj C. apply (HN j); [right; exact Hj|].
    assert (Hk := set_attr_keys k (e_default e) o j). rewrite H1 in Hk. cbn in Hk.
    destruct (Hk C) as [->|Hin]; [|exact Hin]. exfalso. apply N1. exact Hj.
Qed.

Ltac alws := repeat (intros; alw).

Lemma add_missing_settles E a b c o : settles E o (m_obj (add_missing E a b c o)).
Proof.
  unfold add_missing. apply reset_settles_bind. intros o1 R ND.
  apply rel_bind; [typeclasses eauto | reflexivity |].
  intros o2 o3 e3 H. inversion H; subst. clear H.
  apply rel_bind; [typeclasses eauto | apply same_grow; apply same_set_protected |].
  intros [] o4 e4 H. inversion H; subst. clear H.
  apply rel_bind; [typeclasses eauto | |].
  - apply grow_mfor_set.
    + apply (NoDup_filter_keys _ _ ND).
    + intros k Hk. rewrite in_map_iff in Hk. destruct Hk as [[j e] [<- Hin]].
      apply filter_In in Hin. destruct Hin as [_ Hin]. cbn in Hin.
      apply andb_true_iff in Hin. destruct Hin as [Hin _].
      apply negb_true_iff in Hin. apply smem_false in Hin. exact Hin.
  - intros _ o5 e5 _. clear. revert o5.
    match goal with |- forall o5, grow _ (m_obj (?m o5)) => change (always grow m) end.
    apply always_same_grow. alw; [alw|intros _].
    apply always_when; [typeclasses eauto|]. destruct (has_char _ _); alw.
Qed.

Lemma update_dimensions_grow_rest {A} E (f : unit -> M A) o :
  (forall a, always grow (f a)) ->
  settles E o (m_obj (bind (update_dimensions E) f o)).
Proof.
  intro H. apply settles_bind; [|exact H].
  unfold update_dimensions. apply settles_bind; [apply verify_settles|].
  intros i. apply always_same_grow. alw; [alw|intro o1].
  destruct i; [|alw]. destruct (_ || _ || _); alw.
Qed.

Lemma get_dimension_settles E d o : settles E o (m_obj (get_dimension E d o)).
Proof.
  unfold get_dimension. apply update_dimensions_grow_rest. intros _.
  apply always_same_grow. alw; [alw|intro o1].
  destruct (api o1) as [a|]; [|alw]. destruct (dget d a); alw.
Qed.

Lemma list_dimensions_settles E o : settles E o (m_obj (list_dimensions E o)).
Proof.
  unfold list_dimensions. apply update_dimensions_grow_rest. intros _.
  apply always_same_grow. alw; [alw|intro o1]. alw; [alw|intro dt].
  alw; [destruct dt; alw|intro s]. alw; [alw|intro r]. alw; [alw|intro e].
  alw; [match goal with |- always _ (match ?x with _ => _ end) => destruct x end; alw | intro n].
  destruct (api o1); alw.
Qed.

Lemma inspect_settles E h o : settles E o (m_obj (inspect E h o)).
Proof.
  unfold inspect. apply settles_bind; [apply verify_settles|].
  intros _. apply always_same_grow.
  alw; [alw|intro o1]. alw; [alw|intro hd]. alw; [alw|intro txt]. alw.
Qed.

Lemma info_settles E w o : settles E o (m_obj (info E w o)).
Proof.
  left. unfold info. revert o.
  match goal with |- forall o5, grow _ (m_obj (?m o5)) => change (always grow m) end.
  apply always_same_grow.
  alw; [alw|intros _]. alw; [alw|intro o1]. alw; [alw|intro hd].
  destruct (smem _ _); [alw; [alw|intro t]; alw|].
  destruct (smem _ _); [alw; [alw|intro t]; alw|alw].
Qed.

Lemma decide_none E c v id : decide E c v None <> DApply id.
Proof.
  unfold decide. destruct (is_deprecated E c v); [|discriminate].
  destruct (dget c (upgrades E)) as [u|]; [|discriminate].
  destruct (find _ _) as [[[? ?] ?]|]; discriminate.
Qed.

Lemma ask_upgrade_settles E vo o :
  settles E o (m_obj (upgrade_convention E None vo o)).
Proof.
  unfold upgrade_convention. apply reset_settles_bind. intros o1 R ND.
  apply rel_bind; [typeclasses eauto | reflexivity |].
  intros o2 o3 e3 H. clear H R ND o1. revert o3.
  match goal with |- forall o5, grow _ (m_obj (?m o5)) => change (always grow m) end.
  apply always_same_grow.
  alw; [alw|intro c]. alw; [alw|intro v]. alw; [alw|intros _]. cbv zeta.
  destruct (decide E (py_str E c) v None) as [| |t|id|]; alws.
Qed.

(** ** Adding and deleting *)

Lemma add_custom_obj key v d t o :
  let o1 := with_prot o false in
  let e := Entry None (option_map (smap custom_dim_char) d) t (VScal EObj) (Some "") in
  let cu := match custom o with Some c => c | None => [] end in
  let o2 := if dmem key (conv o) then o1
            else with_conv (with_custom o1 (Some (dset key e cu))) (dset key e (conv o)) in
  add_custom_api_entry key v d t o =
  match set_attr key v o2 with
  | (o3, _, Ok _) => (with_prot o3 true, [], Ok tt)
  | (o3, _, Err x) => (o3, [], Err x)
  end.
Proof.
  cbv zeta. unfold add_custom_api_entry, bind, set_protected, modify. cbn.
  destruct (set_attr_cases key v
     (if dmem key (conv o) then with_prot o false
      else with_conv (with_custom (with_prot o false)
            (Some (dset key (Entry None (option_map (smap custom_dim_char) d) t (VScal EObj) (Some ""))
              match custom o with Some c => c | None => [] end)))
            (dset key (Entry None (option_map (smap custom_dim_char) d) t (VScal EObj) (Some "")) (conv o))))
     as [[e H]|[[b [_ [_ H]]]|[w [_ [_ [H _]]]]]]; rewrite H; reflexivity.
Qed.

Lemma add_entry_cases name v t d o :
  (exists e, add_entry name v t d o = (o, [], Err e) /\ exn_kind e = EValueError)
  \/ (hasattr o name = false
      /\ exists ev o' r, add_custom_api_entry name v (option_map upper d) t o = (o', [], r)
         /\ add_entry name v t d o = (o', ev, r)).
Proof.
  unfold add_entry, get, bind at 1.
  destruct (hasattr o name) eqn:E1; [left; eexists; split; reflexivity|].
  destruct (negb (smem t _)) eqn:E2; [left; eexists; split; reflexivity|].
  destruct (has_char "_" name && negb _) eqn:E3; [left; eexists; split; reflexivity|].
  destruct (String.eqb t "attribute" && (_ || _)) eqn:E4; [left; eexists; split; reflexivity|].
  destruct (String.eqb t "attribute" && negb (startswith "GLOBAL_" name) && negb _) eqn:E5;
    [left; eexists; split; reflexivity|].
  destruct (match d with None => _ | Some _ => _ end) eqn:E6; [left; eexists; split; reflexivity|].
  right. split; [reflexivity|].
  assert (Hadd : exists o' r, add_custom_api_entry name v (option_map upper d) t o = (o', [], r)).
  { rewrite add_custom_obj. destruct (set_attr _ _ _) as [[o3 ?] [?|?]]; eauto. }
  destruct Hadd as [o' [r Hadd]].
  assert (Hem : exists ev, (match option_map upper d with
        | None => ret tt
        | Some d => mfor (filter (fun c => negb (has_char c "ERMNCIS")) (chars d))
              (fun _ => emit (EvWarn ("Added custom dimension " +++ d +++ " to SOFA object")))
        end) o = (o, ev, Ok tt)).
  { destruct (option_map upper d) as [dd|]; [|exists []; reflexivity].
    induction (filter _ (chars dd)) as [|x l IH]; [exists []; reflexivity|].
    destruct IH as [ev IH]. cbn [mfor]. unfold bind. cbn [emit].
    rewrite IH. eexists. reflexivity. }
  destruct Hem as [ev Hem].
  exists ev, o', r. split; [exact Hadd|].
  unfold bind; cbv beta. rewrite ?E1, ?E5. cbv beta. rewrite Hem, Hadd. cbn. rewrite app_nil_r. reflexivity.
Qed.

(** the object after adding, or failing to add, an entry *)
Lemma add_custom_pub name v d t o k :
  k <> name ->
  dget k (pub (m_obj (add_custom_api_entry name v d t o))) = dget k (pub o)
  /\ dget k (conv (m_obj (add_custom_api_entry name v d t o))) = dget k (conv o).
Proof.
  intro N. rewrite add_custom_obj. unfold m_obj.
  match goal with |- context [set_attr name v ?x] => set (o2 := x) end.
  assert (Hp : pub o2 = pub o) by (unfold o2; destruct (dmem name (conv o)); reflexivity).
  assert (Hc : dget k (conv o2) = dget k (conv o)).
  { unfold o2. destruct (dmem name (conv o)); [reflexivity|]. cbn.
    apply dget_dset_other. exact N. }
  destruct (set_attr_cases name v o2) as [[e H]|[[b [_ [_ H]]]|[w [_ [_ [H _]]]]]];
    rewrite H; cbn; rewrite ?Hp; split; auto.
  apply dget_dset_other. exact N.
Qed.

Lemma In_ddel {A} k (x : string * A) d : In x (ddel k d) -> In x d.
Proof.
  induction d as [|[j w] d IH]; cbn; [tauto|].
  destruct (String.eqb k j); cbn; tauto.
Qed.

Lemma In_dset {A} k v (x : string * A) d : In x (dset k v d) -> x = (k, v) \/ In x d.
Proof.
  induction d as [|[j w] d IH]; cbn; [intuition|].
  destruct (String.eqb k j); cbn; intuition.
Qed.

Lemma del_attr_cases name o :
  (exists e, del_attr name o = (o, [], Err e))
  \/ (dmem name (pub o) = true /\ is_private name = false
      /\ (prot o = true -> exists e, dget name (conv o) = Some e /\ is_mandatory (e_flags e) = false)
      /\ del_attr name o = (with_custom (with_pub o (ddel name (pub o)))
                              (option_map (ddel name) (custom o)), [], Ok tt)).
Proof.
  unfold del_attr.
  destruct (is_private name) eqn:E1; [left; eauto|].
  destruct (hasattr o name) eqn:E2; cbn [negb]; [|left; eauto].
  destruct (prot o) eqn:E3.
  - unfold dgetE. destruct (dget name (conv o)) as [e|] eqn:E4; cbn [rbind]; [|left; eauto].
    destruct (is_mandatory (e_flags e)) eqn:E5; cbn [negb]; [left; eauto|].
    destruct (dmem name (pub o)) eqn:E6; [|left; eauto].
    right. repeat split; auto. intros _. eauto.
  - destruct (dmem name (pub o)) eqn:E6; [|left; eauto].
    right. repeat split; auto. discriminate.
Qed.

(** ** Objects following a convention *)

(** read-only mandatory data keep their value, mandatory data remain *)
Record kept (cv : convention) (o o' : sofa) : Prop := {
  kp_ro : forall k e w, dget k cv = Some e -> is_mandatory (e_flags e) = true ->
     is_read_only (e_flags e) = true -> dget k (pub o) = Some w -> dget k (pub o') = Some w;
  kp_m : forall k e, dget k cv = Some e -> is_mandatory (e_flags e) = true ->
     In k (dkeys (pub o)) -> In k (dkeys (pub o')) }.

Lemma dget_dupdate_keep cv cu k :
  NoDup (dkeys cv) ->
  dget k (dupdate cv (keep_custom cv cu)) =
  match dget k cv with
  | Some e => Some e
  | None => dget k (dupdate [] (keep_custom cv cu))
  end.
Proof.
  intros _. unfold dupdate.
  assert (G : forall l d d', (forall x, In x l -> dget (fst x) cv = None) ->
     (dget k d = match dget k cv with Some e => Some e | None => dget k d' end) ->
     dget k (fold_left (fun acc kv => dset (fst kv) (snd kv) acc) l d) =
     match dget k cv with
     | Some e => Some e
     | None => dget k (fold_left (fun acc kv => dset (fst kv) (snd kv) acc) l d')
     end).
  { induction l as [|x l IH]; cbn; intros d d' Hl Hd; [exact Hd|].
    apply IH; [intros; apply Hl; right; assumption|].
    rewrite !dget_dset. destruct (String.eqb_spec k (fst x)) as [->|N]; [|exact Hd].
    rewrite (Hl x) by (left; reflexivity). reflexivity. }
  apply G.
  - intros x Hx. apply filter_In in Hx. destruct Hx as [_ Hx].
    apply negb_true_iff in Hx. apply dmem_false in Hx. apply dget_None. exact Hx.
  - destruct (dget k cv); reflexivity.
Qed.

Lemma fold_dset_In {A} k v (l d : dict A) :
  dget k (fold_left (fun acc kv => dset (fst kv) (snd kv) acc) l d) = Some v ->
  In (k, v) l \/ dget k d = Some v.
Proof.
  revert d. induction l as [|[j w] l IH]; cbn; intros d H; [tauto|].
  apply IH in H. destruct H as [H|H]; [tauto|].
  rewrite dget_dset in H. destruct (String.eqb_spec k j) as [->|N]; [|tauto].
  inversion H; subst. tauto.
Qed.

Lemma armed_reset E o o1 c v cv :
  armed_with E o c v cv -> reset_convention E o = (o1, [], Ok tt) ->
  armed_with E o1 c v cv /\ pub o1 = pub o.
Proof.
  intros A R.
  destruct (reset_convention_cases E o) as [[e H]|[c' [b [v' [cv' [H1 [H2 [H3 [HL H]]]]]]]]];
    rewrite H in R; inversion R; subst; clear R.
  destruct A as [[b1 A1] [b2 A2] A3 A4 A5 A6 A7 A8 A9].
  rewrite A1 in H1. inversion H1; subst. rewrite A2 in H2. inversion H2; subst. clear H1 H2.
  cbn [py_str] in *. rewrite A3 in HL. inversion HL; subst. clear HL.
  assert (ND := load_convention_NoDup _ _ _ _ A3).
  destruct (custom o) as [cu|] eqn:EC.
  - split; [|reflexivity]. constructor; cbn; auto; eauto.
    + intros k e Hk. rewrite dget_dupdate_keep by exact ND. rewrite Hk. reflexivity.
    + intros k e Hk HF. rewrite dget_dupdate_keep in Hk by exact ND.
      destruct (dget k cv'); [congruence|].
      apply fold_dset_In in Hk. destruct Hk as [Hk|Hk]; [|discriminate].
      apply filter_In in Hk. destruct Hk as [Hk _].
      exfalso. apply HF. eapply A9; [reflexivity|exact Hk].
    + intros cu' k e Hcu Hin. inversion Hcu; subst. apply filter_In in Hin.
      destruct Hin as [Hin _]. eapply A9; [reflexivity|exact Hin].
  - split; [|reflexivity]. constructor; cbn; auto; eauto.
    intros cu' k e Hcu. rewrite EC in Hcu. discriminate.
Qed.

Lemma armed_grow E o o1 c v cv :
  armed_with E o c v cv -> grow o o1 -> armed_with E o1 c v cv /\ kept cv o o1.
Proof.
  intros A [G1 G2 G3 G4].
  destruct A as [[b1 A1] [b2 A2] A3 A4 A5 A6 A7 A8 A9].
  split.
  - constructor; auto; try (rewrite ?G2, ?G3, ?G4; auto; fail); eauto.
  - constructor; [auto|]. intros k e _ _ Hin. apply dget_Some_In.
    apply dget_Some_In in Hin. destruct Hin as [w Hw]. eauto.
Qed.

Lemma armed_settles E o o1 c v cv :
  armed_with E o c v cv -> settles E o o1 -> armed_with E o1 c v cv /\ kept cv o o1.
Proof.
  intros A [G|[o2 [R G]]]; [eapply armed_grow; eassumption|].
  destruct (armed_reset _ _ _ _ _ _ A R) as [A2 P2].
  destruct (armed_grow _ _ _ _ _ _ A2 G) as [A3 [K1 K2]].
  split; [exact A3|]. constructor; intros k e; rewrite <- P2; eauto.
Qed.

Lemma ro_keys_distinct E o c v cv name :
  armed_with E o c v cv -> in_ro name (ro o) = false ->
  name <> "GLOBAL_SOFAConventions" /\ name <> "GLOBAL_SOFAConventionsVersion".
Proof.
  intros A H. destruct A as [_ _ _ _ _ A6 [e1 [B1 [_ B2]]] [e2 [C1 [_ C2]]] _].
  split; intros ->.
  - rewrite (A6 _ _ B1 B2) in H. discriminate.
  - rewrite (A6 _ _ C1 C2) in H. discriminate.
Qed.

Lemma armed_with_pub E o c v cv p :
  armed_with E o c v cv ->
  dget "GLOBAL_SOFAConventions" p = dget "GLOBAL_SOFAConventions" (pub o) ->
  dget "GLOBAL_SOFAConventionsVersion" p = dget "GLOBAL_SOFAConventionsVersion" (pub o) ->
  armed_with E (with_pub o p) c v cv.
Proof.
  intros A H1 H2. destruct A as [A1 A2 A3 A4 A5 A6 A7 A8 A9].
  constructor; cbn; auto; [rewrite H1; exact A1 | rewrite H2; exact A2].
Qed.

Lemma armed_add E o c v cv name val t d :
  armed_with E o c v cv ->
  armed_with E (m_obj (add_entry name val t d o)) c v cv
  /\ kept cv o (m_obj (add_entry name val t d o)).
Proof.
  intro A.
  destruct (add_entry_cases name val t d o) as [[e [H _]]|[H1 [ev [o' [r [H2 H]]]]]]; rewrite H;
    unfold m_obj; cbn [fst]; [split; [exact A | constructor; auto]|].
  clear H ev.
  assert (HN : ~ In name (dkeys (pub o))).
  { intro C. apply dmem_In in C. unfold hasattr in H1. rewrite C in H1. discriminate. }
  assert (F := fun k N => add_custom_pub name val (option_map upper d) t o k N).
  rewrite H2 in F. unfold m_obj in F. cbn [fst] in F.
  assert (NN : name <> "GLOBAL_SOFAConventions" /\ name <> "GLOBAL_SOFAConventionsVersion").
  { destruct A as [[b1 A1] [b2 A2] _ _ _ _ _ _ _].
    split; intros ->; apply HN; apply dget_Some_In; eauto. }
  assert (G : kept cv o o').
  { constructor.
    - intros k e w _ _ _ K4. destruct (F k) as [F1 _]; [|rewrite F1; exact K4].
      intros ->. apply HN. apply dget_Some_In. eauto.
    - intros k e _ _ K. apply dget_Some_In in K. destruct K as [w K].
      apply dget_Some_In. exists w. destruct (F k) as [F1 _]; [|rewrite F1; exact K].
      intros ->. apply HN. apply dget_Some_In. eauto. }
  split; [|exact G].
  (* the custom entry *)
  rewrite add_custom_obj in H2.
  match type of H2 with context [set_attr name val ?x] => set (o2 := x) in H2 end.
  assert (A2 : armed_with E o2 c v cv).
  { destruct A as [A1 A2 A3 A4 A5 A6 A7 A8 A9].
    unfold o2. destruct (dmem name (conv o)) eqn:DM; [constructor; auto|].
    constructor; cbn; auto.
    - intros k e Hk. rewrite dget_dset_other; [auto|].
      intros ->. apply A4 in Hk. apply dmem_false in DM. apply DM. apply dget_Some_In. eauto.
    - intros k e Hk HF. rewrite dget_dset in Hk.
      destruct (String.eqb_spec k name); [|auto].
      inversion Hk; subst. exfalso. apply HF. reflexivity.
    - intros cu k e Hcu Hin. inversion Hcu; subst. apply In_dset in Hin.
      destruct Hin as [Hin|Hin]; [inversion Hin; reflexivity|].
      destruct (custom o) as [cu|]; [|destruct Hin]. eapply A9; [reflexivity|exact Hin]. }
  destruct NN as [N1 N2].
  destruct (set_attr_cases name val o2) as [[e H]|[[b [_ [_ H]]]|[w [_ [_ [H HP]]]]]];
    rewrite H in H2; inversion H2; subst o' r; clear H2.
  - exact A2.
  - destruct A2. constructor; auto.
  - assert (A3 : armed_with E (with_pub o2 (dset name w (pub o2))) c v cv)
      by (apply armed_with_pub; [exact A2| |]; apply dget_dset_other; congruence).
    destruct A3. constructor; auto.
Qed.

Lemma armed_step E o p c v cv :
  armed_with E o c v cv -> prot o = true ->
  armed_with E (step E o p) c v cv /\ kept cv o (step E o p).
Proof.
  intros A P. unfold step.
  destruct p as [name val|name|name val t d|name val|a b q|h m|d|  |h|w|].
  - (* assignment *)
    cbn [run_op].
    destruct (set_attr_cases name val o) as [[e H]|[[b [_ [_ H]]]|[w [_ [_ [H HP]]]]]];
      rewrite H; unfold m_obj; cbn [fst].
    + split; [exact A | constructor; auto].
    + split; [|constructor; auto]. destruct A. constructor; auto.
    + destruct (HP P) as [_ HR].
      destruct (ro_keys_distinct _ _ _ _ _ _ A HR) as [N1 N2].
      split.
      * apply armed_with_pub; [exact A| |]; apply dget_dset_other; congruence.
      * constructor; cbn.
        -- intros k e u H1 _ H3 H4. rewrite dget_dset_other; [exact H4|].
           intros ->. rewrite (ar_ro _ _ _ _ _ A _ _ H1 H3) in HR. discriminate.
        -- intros k e _ _ Hin. apply In_dkeys_dset. right; exact Hin.
  - (* deletion *)
    cbn [run_op]. destruct (del_attr_cases name o) as [[e H]|[H1 [_ [H2 H]]]];
      rewrite H; unfold m_obj; cbn [fst].
    + split; [exact A | constructor; auto].
    + destruct (H2 P) as [e [He Hm]].
      assert (K : forall k e', dget k cv = Some e' -> is_mandatory (e_flags e') = true -> k <> name).
      { intros k e' Hk Hk2 ->. apply (ar_sub _ _ _ _ _ A) in Hk. congruence. }
      destruct (ar_name_ro _ _ _ _ _ A) as [e1 [B1 [B2 _]]].
      destruct (ar_version_ro _ _ _ _ _ A) as [e2 [C1 [C2 _]]].
      split.
      * assert (A' : armed_with E (with_pub o (ddel name (pub o))) c v cv).
        { apply armed_with_pub; [exact A| |]; apply dget_ddel_other; eauto. }
        destruct A' as [A1 A2 A3 A4 A5 A6 A7 A8 A9].
        constructor; auto. cbn in *. intros cu k x Hcu Hin.
        destruct (custom o) as [cu0|] eqn:EC; [|discriminate].
        cbn in Hcu. inversion Hcu; subst. apply In_ddel in Hin. eapply A9; [reflexivity|exact Hin].
      * constructor; cbn.
        -- intros k x u K1 K2 K3 K4. rewrite dget_ddel_other; [exact K4|eauto].
        -- intros k x K1 K2 K3. apply dget_Some_In. rewrite dget_ddel_other by eauto.
           apply dget_Some_In. exact K3.
  - cbn [run_op]. apply armed_add. exact A.
  - cbn [run_op]. apply armed_add. exact A.
  - apply armed_settles with (1 := A). apply add_missing_settles.
  - apply armed_settles with (1 := A). cbn [run_op]. apply settles_bind; [apply verify_settles|].
    intros _. apply always_same_grow; alw.
  - apply armed_settles with (1 := A). cbn [run_op]. apply settles_bind; [apply get_dimension_settles|].
    intros _. apply always_same_grow; alw.
  - apply armed_settles with (1 := A). apply list_dimensions_settles.
  - apply armed_settles with (1 := A). apply inspect_settles.
  - apply armed_settles with (1 := A). apply info_settles.
  - apply armed_settles with (1 := A). cbn [run_op]. apply settles_bind; [apply ask_upgrade_settles|].
    intros _. apply always_same_grow; alw.
Qed.
