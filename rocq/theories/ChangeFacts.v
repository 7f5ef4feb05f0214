(** Facts: every change of an entry looks at and touches this entry only. *)
From Verif Require Import Base PyStr PyNum NdArray Sofa Verify SpecAttr SpecVerify SpecChange
  BaseFacts StrFacts CoreFacts AddDelFacts DictFacts ValidFacts.
From Coq Require Import Permutation.
Open Scope string_scope.
Open Scope list_scope.
Open Scope nat_scope.

Inductive delta := DNone | DSet (w : value) | DDel | DAdd (w : value) (e : entry).

Definition apply (k : string) (d : delta) (o : sofa) : sofa :=
  match d with
  | DNone => o
  | DSet w => with_pub o (dset k w (pub o))
  | DDel => with_custom (with_pub o (ddel k (pub o)))
              (match custom o with Some c => Some (ddel k c) | None => None end)
  | DAdd w e =>
      let o1 := if dmem k (conv o) then o
                else with_conv (with_custom o (Some (dset k e (match custom o with Some c => c | None => [] end)))) (dset k e (conv o)) in
      with_prot (with_pub o1 (dset k w (pub o))) true
  end.

Definition dim_events (d : option string) : list event :=
  match d with
  | None => []
  | Some d => map (fun _ => EvWarn ("Added custom dimension " +++ d +++ " to SOFA object"))
                (filter (fun c => negb (has_char c "ERMNCIS")) (chars d))
  end.

(** the decision depends on the entry and the variable of the attribute *)
Definition view : Type := bool * bool * bool * bool * option entry * bool.
Definition look (k : string) (o : sofa) : view :=
  (dmem k (pub o), prot o, in_ro k (ro o), smem k class_attrs, dget k (conv o),
   match before_last "_" k with Some var => dmem var (conv o) | None => false end).

Definition decide_set (n : string) (v : value) (x : view) : delta * list event * res unit :=
  let '(here, pr, r, cl, _, _) := x in
  if is_private n || String.eqb n "list_dimensions" then (DNone, [], Err (Exn ENotModelled n))
  else if pr && negb (here || cl) then (DNone, [], Err (Exn ETypeError (n +++ " is an invalid attribute")))
  else if r && pr then (DNone, [], Err (Exn ETypeError (msg_read_only n)))
  else match normalize v with Ok w => (DSet w, [], Ok tt) | Err e => (DNone, [], Err e) end.

Definition decide_del (n : string) (x : view) : delta * list event * res unit :=
  let '(here, pr, _, cl, e, _) := x in
  if is_private n then (DNone, [], Err (Exn ENotModelled n))
  else if negb (here || cl) then (DNone, [], Err (Exn ETypeError (n +++ " is not an attribute")))
  else match (if pr then let? e := match e with Some e => Ok e | None => Err (Exn EKeyError n) end in Ok (negb (is_mandatory (e_flags e))) else Ok true) with
       | Err e => (DNone, [], Err e)
       | Ok false => (DNone, [], Err (Exn ETypeError (n +++ " is a mandatory attribute that can not be deleted")))
       | Ok true => if here then (DDel, [], Ok tt) else (DNone, [], Err (Exn EAttributeError n))
       end.

Definition decide_add (n : string) (v : value) (t : string) (d : option string) (x : view) : delta * list event * res unit :=
  let '(here, _, _, cl, _, var) := x in
  let bad m := (DNone, [], Err (Exn EValueError m)) in
  if here || cl then bad ("Entry " +++ n +++ " already exists")
  else if negb (smem t ["attribute"; "double"; "string"]) then bad ("dtype is " +++ t +++ " but must be attribute, double, or string")
  else if has_char "_" n && negb (String.eqb t "attribute") then bad "underscores '_' in the name are only allowed for attributes"
  else if String.eqb t "attribute" &&
          (negb (Nat.eqb (count_char "_" n) 1)
           || (startswith "Data_" n && (Nat.eqb (count_char "_" n) 0 || (2 <? count_char "_" n)%nat)))
  then bad ("The name of " +++ n +++ " must have the form VariableName_AttributeName")
  else if String.eqb t "attribute" && negb (startswith "GLOBAL_" n) && negb var
  then bad (msg_requires n)
  else if match d with None => negb (String.eqb t "attribute") | Some _ => false end
  then bad "dimensions must be provided for entries of dtype double and string"
  else match normalize v with
       | Ok w => (DAdd w (Entry None (option_map (smap custom_dim_char) (option_map upper d)) t (VScal EObj) (Some "")),
                  dim_events (option_map upper d), Ok tt)
       | Err e => bad ""
       end.

Definition decide (p : op) (x : view) : delta * list event * res unit :=
  match p with
  | OSet n v => decide_set n v x
  | ODel n => decide_del n x
  | OAddVar n v t d => decide_add n v t d x
  | OAddAttr n v => decide_add n v "attribute" None x
  | _ => (DNone, [], Ok tt)
  end.

Lemma mfor_emit {A} (l : list A) e o : mfor l (fun _ => emit e) o = (o, map (fun _ => e) l, Ok tt).
Proof. induction l as [|x l IH]; [reflexivity|]. cbn [mfor]. unfold bind, emit at 1. rewrite IH. reflexivity. Qed.

Lemma add_decided n v t d o : is_private n = false -> is_ok (normalize v) = true ->
  add_entry n v t d o = let '(x, ev, r) := decide_add n v t d (look n o) in (apply n x o, ev, r).
Proof.
  intros HP HN. unfold add_entry, decide_add, look. rewrite bind_get. cbv zeta. unfold hasattr.
  destruct (dmem n (pub o) || smem n class_attrs) eqn:HA; [reflexivity|].
  destruct (negb (smem t _)); [reflexivity|]. destruct (has_char "_" n && _); [reflexivity|].
  destruct (String.eqb t "attribute" && (_ || _)); [reflexivity|].
  destruct (String.eqb t "attribute" && negb (startswith "GLOBAL_" n) && _); [reflexivity|].
  destruct (match d with None => _ | Some _ => false end); [reflexivity|].
  destruct (normalize v) as [w|] eqn:NV; [|discriminate HN].
  assert (EV : (match option_map upper d with
        | None => ret tt
        | Some d => mfor (filter (fun c => negb (has_char c "ERMNCIS")) (chars d))
              (fun _ => emit (EvWarn ("Added custom dimension " +++ d +++ " to SOFA object")))
        end) o = (o, dim_events (option_map upper d), Ok tt)).
  { destruct d as [d|]; [|reflexivity]. cbn [option_map dim_events]. apply mfor_emit. }
  unfold bind. rewrite EV.
  apply orb_false_iff in HA. destruct HA as [HA HC].
  assert (NL : String.eqb n "list_dimensions" = false /\ String.eqb n "protected" = false).
  { apply smem_false in HC. split; apply eqb_neq_s; intros ->; apply HC; unfold class_attrs; cbn; tauto. }
  destruct NL as [N1 N2].
  assert (AC : add_custom_api_entry n v (option_map upper d) t o
    = (apply n (DAdd w (Entry None (option_map (smap custom_dim_char) (option_map upper d)) t (VScal EObj) (Some ""))) o, [], Ok tt)).
  { unfold add_custom_api_entry, bind, set_protected, modify, set_attr, apply. rewrite HP, N1. cbn [orb].
    destruct o as [pb cv cu r pr di ap]. cbn [with_prot conv].
    destruct (dmem n cv); cbn [prot andb]; rewrite andb_false_r, N2, NV; reflexivity. }
  rewrite AC, app_nil_r. reflexivity.
Qed.

Lemma decided E p o n : changes p = Some n -> safe_op p ->
  run_op E p o = let '(x, ev, r) := decide p (look n o) in (apply n x o, ev, r).
Proof.
  intros C S. destruct p as [k v|k|k v t d|k v|a b q|h m|d|  |h|w|]; cbn [changes] in C; try discriminate C.
  - destruct (String.eqb k "protected") eqn:NP; [discriminate C|]. injection C as <-. cbn [run_op decide].
    unfold set_attr, decide_set, look, hasattr. destruct (is_private k || _); [reflexivity|].
    destruct (prot o && negb _); [reflexivity|]. destruct (in_ro k (ro o) && prot o); [reflexivity|]. rewrite NP.
    destruct (normalize v); reflexivity.
  - injection C as <-. cbn [run_op decide]. unfold del_attr, decide_del, look, hasattr. destruct (is_private k); [reflexivity|].
    destruct (negb (dmem k (pub o) || _)); [reflexivity|].
    unfold dgetE. destruct (prot o).
    + destruct (dget k (conv o)) as [e|]; [|reflexivity]. cbn [rbind]. destruct (negb (is_mandatory (e_flags e))); [|reflexivity].
      destruct (dmem k (pub o)); reflexivity.
    + destruct (dmem k (pub o)); reflexivity.
  - injection C as <-. cbn [run_op decide]. destruct S as [S1 S2]. apply add_decided; assumption.
  - injection C as <-. cbn [run_op decide]. destruct S as [S1 S2]. apply add_decided; assumption.
Qed.

Lemma before_last_split c s a : before_last c s = Some a -> exists r, s = a +++ String c r.
Proof.
  revert a. induction s as [|d s IH]; intro a; [discriminate|]. cbn [before_last].
  destruct (before_last c s) as [x|].
  - intro H. injection H as <-. destruct (IH x eq_refl) as [r R]. exists r. rewrite R. reflexivity.
  - destruct (Ascii.eqb c d) eqn:D; [|discriminate]. intro H. injection H as <-.
    apply Ascii.eqb_eq in D. subst d. exists s. reflexivity.
Qed.

Lemma dmem_same {A} k (a b : dict A) : dget k a = dget k b -> dmem k a = dmem k b.
Proof. unfold dmem. intros ->. reflexivity. Qed.

Lemma dget_dset {A} k j (v : A) d : dget k (dset j v d) = if String.eqb k j then Some v else dget k d.
Proof.
  destruct (String.eqb_spec k j) as [->|N]; [apply dget_dset_same|apply dget_dset_other; exact N].
Qed.

Lemma apply_conv k x o j : dget j (conv (apply k x o)) =
  match x with
  | DAdd _ e => if dmem k (conv o) then dget j (conv o) else if String.eqb j k then Some e else dget j (conv o)
  | _ => dget j (conv o)
  end.
Proof.
  destruct x as [|w| |w e]; try reflexivity. cbn [apply]. destruct (dmem k (conv o)) eqn:D; [reflexivity|].
  cbn. apply dget_dset.
Qed.

Lemma apply_pub k x o j : NoDup (dkeys (pub o)) -> dget j (pub (apply k x o)) =
  match x with
  | DNone => dget j (pub o)
  | DSet w | DAdd w _ => if String.eqb j k then Some w else dget j (pub o)
  | DDel => if String.eqb j k then None else dget j (pub o)
  end.
Proof.
  intro N. destruct x as [|w| |w e]; cbn [apply].
  - reflexivity.
  - apply dget_dset.
  - cbn. destruct (String.eqb_spec j k) as [->|Q]; [apply dget_ddel_same; exact N|apply dget_ddel_other; exact Q].
  - cbn. destruct (dmem k (conv o)); cbn; apply dget_dset.
Qed.

(** the custom entries after a change; [None] is an object without custom entries *)
Definition cget (j : string) (o : sofa) : option entry :=
  match custom o with Some c => dget j c | None => None end.
Definition has_cu (o : sofa) : bool := match custom o with Some _ => true | None => false end.

Definition cu_nodup (o : sofa) : Prop := match custom o with Some cu => NoDup (dkeys cu) | None => True end.

Lemma apply_cget k x o j : cu_nodup o -> cget j (apply k x o) =
  match x with
  | DNone | DSet _ => cget j o
  | DAdd _ e => if dmem k (conv o) then cget j o else if String.eqb j k then Some e else cget j o
  | DDel => if String.eqb j k then None else cget j o
  end.
Proof.
  unfold cget, cu_nodup. intro N. destruct x as [|w| |w e]; cbn [apply]; try reflexivity.
  - cbn. destruct (custom o) as [c|]; [|destruct (String.eqb j k); reflexivity].
    destruct (String.eqb_spec j k) as [->|Q]; [apply dget_ddel_same; exact N|apply dget_ddel_other; exact Q].
  - destruct (dmem k (conv o)); [reflexivity|]. cbn. rewrite dget_dset. destruct (String.eqb j k); [reflexivity|].
    destruct (custom o); reflexivity.
Qed.

Lemma apply_has_cu k x o : has_cu (apply k x o) =
  match x with DAdd _ _ => if dmem k (conv o) then has_cu o else true | _ => has_cu o end.
Proof.
  unfold has_cu. destruct x as [|w| |w e]; cbn [apply]; try reflexivity.
  - cbn. destruct (custom o); reflexivity.
  - destruct (dmem k (conv o)); reflexivity.
Qed.

Lemma apply_rest k x o : prot o = true ->
  ro (apply k x o) = ro o /\ prot (apply k x o) = true /\ dims (apply k x o) = dims o /\ api (apply k x o) = api o.
Proof.
  intro P. destruct x as [|w| |w e]; cbn [apply]; cbn; try (repeat split; assumption || reflexivity).
  destruct (dmem k (conv o)); cbn; repeat split; reflexivity.
Qed.

Lemma same_iff a b : same_object a b <->
  (forall k, dget k (pub a) = dget k (pub b)) /\ (forall k, dget k (conv a) = dget k (conv b))
  /\ (forall k, cget k a = cget k b) /\ has_cu a = has_cu b
  /\ ro a = ro b /\ prot a = prot b /\ dims a = dims b /\ api a = api b.
Proof.
  unfold cget, has_cu. split.
  - intros [S1 S2 S3 S4 S5 S6 S7]. destruct (custom a), (custom b); try contradiction; auto 10.
  - intros [S1 [S2 [S3 [S4 [S5 [S6 [S7 S8]]]]]]]. constructor; auto.
    destruct (custom a), (custom b); try discriminate S4; auto.
Qed.

Lemma same_refl a : same_object a a.
Proof. apply same_iff. auto 10. Qed.
Lemma same_trans a b c : same_object a b -> same_object b c -> same_object a c.
Proof.
  rewrite !same_iff. intros [A1 [A2 [A3 [A4 [A5 [A6 [A7 A8]]]]]]] [B1 [B2 [B3 [B4 [B5 [B6 [B7 B8]]]]]]].
  split; [intro k; rewrite A1; apply B1|]. split; [intro k; rewrite A2; apply B2|]. split; [intro k; rewrite A3; apply B3|].
  repeat split; congruence.
Qed.

Lemma look_same n a b : same_object a b -> look n a = look n b.
Proof.
  intro S. destruct S as [S1 S2 S3 S4 S5 S6 S7]. unfold look. rewrite (dmem_same n _ _ (S1 n)), S2, S4, S5.
  destruct (before_last "_" n) as [v|]; [rewrite (dmem_same v _ _ (S2 v))|]; reflexivity.
Qed.

Lemma apply_same n x a b : dicts_ok a -> dicts_ok b -> prot a = true -> same_object a b ->
  same_object (apply n x a) (apply n x b).
Proof.
  intros [Da Ca] [Db Cb] P S. pose proof (so_conv _ _ S n) as V. apply dmem_same in V. assert (S0 := S). rewrite same_iff in S.
  destruct S as [A1 [A2 [A3 [A4 [A5 [A6 [A7 A8]]]]]]]. rewrite same_iff.
  assert (P' : prot b = true) by congruence.
  destruct (apply_rest n x a P) as [R1 [R2 [R3 R4]]]. destruct (apply_rest n x b P') as [Q1 [Q2 [Q3 Q4]]].
  split; [intro k; rewrite (apply_pub n x a k Da), (apply_pub n x b k Db), A1; reflexivity|].
  split; [intro k; rewrite !apply_conv, A2, V; reflexivity|].
  split; [intro k; rewrite (apply_cget n x a k Ca), (apply_cget n x b k Cb), A3, V; reflexivity|].
  split; [rewrite !apply_has_cu, A4, V; reflexivity|].
  repeat split; congruence.
Qed.

Lemma apply_dicts n x o : dicts_ok o -> dicts_ok (apply n x o).
Proof.
  intros [D C]. destruct x as [|w| |w e]; cbn [apply].
  - split; assumption.
  - split; [apply NoDup_dset; exact D|exact C].
  - split; [apply NoDup_ddel; exact D|]. cbn. destruct (custom o); [apply NoDup_ddel; exact C|exact I].
  - split.
    + cbn. destruct (dmem n (conv o)); cbn; apply NoDup_dset; exact D.
    + destruct (dmem n (conv o)); cbn; [exact C|]. apply NoDup_dset. destruct (custom o); [exact C|constructor].
Qed.

Lemma eqb_both j n m : n <> m -> String.eqb j n = true -> String.eqb j m = false.
Proof. intros N H. apply String.eqb_eq in H. subst j. apply eqb_neq_s. exact N. Qed.

Lemma apply_dmem n x m o : n <> m -> dmem m (conv (apply n x o)) = dmem m (conv o).
Proof.
  intro N. apply dmem_same. rewrite apply_conv. destruct x; try reflexivity.
  destruct (dmem n (conv o)); [reflexivity|]. rewrite (eqb_neq_s m n); [reflexivity|congruence].
Qed.

Lemma apply_swap n x m y o : n <> m -> dicts_ok o -> prot o = true ->
  same_object (apply n x (apply m y o)) (apply m y (apply n x o)).
Proof.
  intros N D P. assert (N' : m <> n) by congruence.
  pose proof (apply_dicts n x o D) as D1. pose proof (apply_dicts m y o D) as D2.
  destruct (apply_rest n x o P) as [R1 [R2 [R3 R4]]]. destruct (apply_rest m y o P) as [Q1 [Q2 [Q3 Q4]]].
  destruct (apply_rest n x (apply m y o) Q2) as [T1 [T2 [T3 T4]]].
  destruct (apply_rest m y (apply n x o) R2) as [U1 [U2 [U3 U4]]].
  pose proof (apply_dmem m y n o N') as V1. pose proof (apply_dmem n x m o N) as V2.
  destruct D as [Da Ca]. destruct D1 as [D1 C1]. destruct D2 as [D2 C2].
  rewrite same_iff.
  split. { intro k. rewrite (apply_pub n x _ k D2), (apply_pub m y _ k D1), (apply_pub m y o k Da), (apply_pub n x o k Da).
    pose proof (eqb_both k n m N) as B. destruct x, y; destruct (String.eqb k n), (String.eqb k m); try reflexivity; discriminate (B eq_refl). }
  split. { intro k. rewrite !apply_conv, V1, V2.
    pose proof (eqb_both k n m N) as B. destruct x, y; try reflexivity; destruct (dmem n (conv o)), (dmem m (conv o)); try reflexivity;
    destruct (String.eqb k n), (String.eqb k m); try reflexivity; discriminate (B eq_refl). }
  split. { intro k. rewrite (apply_cget n x _ k C2), (apply_cget m y _ k C1), (apply_cget m y o k Ca), (apply_cget n x o k Ca), V1, V2.
    pose proof (eqb_both k n m N) as B. destruct x, y; try reflexivity; destruct (dmem n (conv o)), (dmem m (conv o)); try reflexivity;
    destruct (String.eqb k n), (String.eqb k m); try reflexivity; discriminate (B eq_refl). }
  split. { rewrite !apply_has_cu, V1, V2. destruct x, y; try reflexivity; destruct (dmem n (conv o)), (dmem m (conv o)); reflexivity. }
  repeat split; congruence.
Qed.

(** only calls that add an entry change the expected entries *)
Lemma decide_adds q v : adds q = false -> match fst (fst (decide q v)) with DAdd _ _ => False | _ => True end.
Proof.
  destruct v as [[[[[h pr] r] cl] e] vr].
  destruct q as [k v|k|k v t d|k v|a b q|hh m|d|  |hh|w|]; cbn [adds]; try discriminate; intros _; try exact I; cbn [decide].
  - unfold decide_set. destruct (is_private k || _); [exact I|]. destruct (pr && _); [exact I|]. destruct (r && pr); [exact I|].
    destruct (normalize v); exact I.
  - unfold decide_del. destruct (is_private k); [exact I|]. destruct (negb _); [exact I|].
    destruct pr; [destruct e as [e|]; [cbn [rbind]; destruct (negb (is_mandatory (e_flags e)))|]|]; try exact I; destruct h; exact I.
Qed.

(** whether a variable exists is asked only for added attributes *)
Lemma decide_var p h pr r cl e v v' : adds p = false -> decide p (h, pr, r, cl, e, v) = decide p (h, pr, r, cl, e, v').
Proof. destruct p; cbn [adds]; try discriminate; reflexivity. Qed.

Lemma look_apart p q n m v o : changes p = Some n -> changes q = Some m -> apart p q -> prot o = true -> dicts_ok o ->
  decide p (look n (apply m (fst (fst (decide q v))) o)) = decide p (look n o).
Proof.
  intros CP CQ [n' [m' [A1 [A2 [A3 A4]]]]] P [Dp _]. rewrite CP in A1. rewrite CQ in A2. injection A1 as <-. injection A2 as <-.
  pose proof (decide_adds q v) as DA. set (x := fst (fst (decide q v))) in *.
  assert (H1 : dmem n (pub (apply m x o)) = dmem n (pub o)).
  { apply dmem_same. rewrite (apply_pub m x o n Dp), (eqb_neq_s n m A3). destruct x; reflexivity. }
  assert (H2 : dget n (conv (apply m x o)) = dget n (conv o)).
  { rewrite apply_conv, (eqb_neq_s n m A3). destruct x; try reflexivity. destruct (dmem m (conv o)); reflexivity. }
  destruct (apply_rest m x o P) as [R1 [R2 _]].
  unfold look. rewrite H1, H2, R1, R2, P. destruct (adds p) eqn:AP; [|apply (decide_var p); exact AP].
  assert (H3 : forall var, before_last "_" n = Some var -> dmem var (conv (apply m x o)) = dmem var (conv o)).
  { intros var B. apply dmem_same. rewrite apply_conv. destruct x; try reflexivity.
    destruct (adds q) eqn:AQ; [|contradiction (DA eq_refl)].
    destruct (dmem m (conv o)); [reflexivity|]. destruct (String.eqb_spec var m) as [->|NE]; [|reflexivity].
    destruct (before_last_split _ _ _ B) as [r R]. destruct (A4 eq_refl eq_refl) as [A5 _]. contradiction (A5 r R). }
  destruct (before_last "_" n) as [var|]; [rewrite (H3 var eq_refl)|]; reflexivity.
Qed.

Lemma apart_sym p q : apart p q -> apart q p.
Proof.
  intros [n [m [A [B [C D]]]]]. exists m, n. split; [exact B|]. split; [exact A|]. split; [congruence|].
  intros X Y. destruct (D Y X) as [D1 D2]. split; assumption.
Qed.

Lemma all_apart_perm l l' : Permutation l l' -> all_apart l -> all_apart l'.
Proof.
  induction 1 as [|p l l' PM IH|p q l|l l' l'' P1 IH1 P2 IH2].
  - auto.
  - intros [C [A B]]. split; [exact C|]. split; [|apply IH; exact B]. intros q I. apply A.
    apply (Permutation_in q (Permutation_sym PM)). exact I.
  - intros [C [A [C' [A' B]]]]. split; [exact C'|]. split.
    + intros r [<-|I]; [apply apart_sym; apply A; left; reflexivity|apply A'; exact I].
    + split; [exact C|]. split; [|exact B]. intros r I. apply A. right. exact I.
  - auto.
Qed.

Lemma step_apply E p o n : changes p = Some n -> safe_op p ->
  step E o p = apply n (fst (fst (decide p (look n o)))) o.
Proof.
  intros C S. unfold step. rewrite (decided E p o n C S). destruct (decide p (look n o)) as [[x ev] r]. reflexivity.
Qed.

Lemma step_prot E p o n : changes p = Some n -> safe_op p -> prot o = true -> prot (step E o p) = true.
Proof. intros C S P. rewrite (step_apply E p o n C S). apply apply_rest. exact P. Qed.

Lemma step_same E p a b n : changes p = Some n -> safe_op p -> dicts_ok a -> dicts_ok b -> prot a = true ->
  same_object a b -> same_object (step E a p) (step E b p).
Proof.
  intros C S Da Db P SO. rewrite !(step_apply E p _ n C S), (look_same n a b SO). apply apply_same; assumption.
Qed.

Lemma run_same E l : forall a b, all_apart l -> Forall safe_op l -> dicts_ok a -> dicts_ok b -> prot a = true ->
  same_object a b -> same_object (run E a l) (run E b l).
Proof.
  induction l as [|p l IH]; intros a b A S Da Db P SO; [exact SO|].
  destruct A as [[n C] [_ A]]. inversion_clear S as [|? ? S1 S2]. cbn.
  apply IH; try assumption.
  - apply step_dicts; exact Da.
  - apply step_dicts; exact Db.
  - apply (step_prot E p a n C S1 P).
  - apply (step_same E p a b n); assumption.
Qed.

Lemma step_swap E p q o : apart p q -> safe_op p -> safe_op q -> dicts_ok o -> prot o = true ->
  same_object (step E (step E o p) q) (step E (step E o q) p).
Proof.
  intros A SP SQ D P. assert (A' := A). destruct A' as [n [m [CP [CQ [N _]]]]].
  rewrite (step_apply E q (step E o p) m CQ SQ), (step_apply E p (step E o q) n CP SP).
  rewrite (step_apply E p o n CP SP), (step_apply E q o m CQ SQ).
  rewrite (look_apart p q n m (look m o) o CP CQ A P D).
  rewrite (look_apart q p m n (look n o) o CQ CP (apart_sym p q A) P D).
  apply apply_swap; [congruence|exact D|exact P].
Qed.

Lemma run_perm E l l' : Permutation l l' -> forall o, all_apart l -> Forall safe_op l -> dicts_ok o -> prot o = true ->
  same_object (run E o l) (run E o l').
Proof.
  induction 1 as [|p l l' PM IH|p q l|l l' l'' P1 IH1 P2 IH2]; intros o A S D P.
  - apply same_refl.
  - destruct A as [[n C] [_ A]]. inversion_clear S as [|? ? S1 S2]. cbn. apply IH; try assumption.
    + apply step_dicts; exact D.
    + apply (step_prot E p o n C S1 P).
  - destruct A as [[n C] [A1 [[m C'] [_ A]]]]. inversion_clear S as [|? ? S1 S2]. inversion_clear S2 as [|? ? S3 S4].
    cbn. apply run_same; try assumption.
    + apply step_dicts, step_dicts; exact D.
    + apply step_dicts, step_dicts; exact D.
    + apply (step_prot E p _ m C' S3). apply (step_prot E q o n C S1 P).
    + apply step_swap; try assumption. apply A1. left. reflexivity.
  - apply (same_trans _ (run E o l')); [apply IH1; assumption|].
    apply IH2; try assumption; [apply (all_apart_perm l); assumption|apply (Permutation_Forall P1); exact S].
Qed.

Lemma run_decide E p n l : changes p = Some n -> forall o, all_apart l -> (forall q, In q l -> apart p q) ->
  Forall safe_op l -> dicts_ok o -> prot o = true -> decide p (look n (run E o l)) = decide p (look n o).
Proof.
  intro C. induction l as [|q l IH]; intros o A AP S D P; [reflexivity|].
  destruct A as [[m CQ] [_ A]]. inversion_clear S as [|? ? S1 S2].
  change (run E o (q :: l)) with (run E (step E o q) l).
  rewrite (IH (step E o q) A (fun r I => AP r (or_intror I)) S2 (step_dicts E o q D) (step_prot E q o m CQ S1 P)).
  rewrite (step_apply E q o m CQ S1). apply (look_apart p q); try assumption. apply AP. left. reflexivity.
Qed.

Lemma all_apart_app l l' : all_apart (l ++ l') -> all_apart l /\ all_apart l' /\ forall p q, In p l -> In q l' -> apart p q.
Proof.
  induction l as [|r l IH]; cbn; [intro A; split; [exact I|]; split; [exact A|intros p q []]|].
  intros [C [A B]]. destruct (IH B) as [B1 [B2 B3]]. split.
  - split; [exact C|]. split; [|exact B1]. intros q Q. apply A. apply in_or_app. left. exact Q.
  - split; [exact B2|]. intros p q [<-|I1] I2; [apply A; apply in_or_app; right; exact I2|apply (B3 p q I1 I2)].
Qed.

Lemma run_alone E o pre p post : all_apart (pre ++ p :: post) -> Forall safe_op (pre ++ p :: post) -> dicts_ok o ->
  prot o = true ->
  m_out (run_op E p (run E o pre)) = m_out (run_op E p o) /\ m_res (run_op E p (run E o pre)) = m_res (run_op E p o).
Proof.
  intros A S D P. destruct (all_apart_app pre (p :: post) A) as [A1 [[[n C] _] A3]].
  apply Forall_app in S. destruct S as [S1 S2]. inversion_clear S2 as [|? ? S3 S4].
  rewrite !(decided E p _ n C S3).
  rewrite (run_decide E p n pre C o A1); try assumption.
  - destruct (decide p (look n o)) as [[x ev] r]. split; reflexivity.
  - intros q Q. apply apart_sym. apply (A3 q p Q). left. reflexivity.
Qed.

Lemma dget_same_perm {A} (a b : dict A) : NoDup (dkeys a) -> NoDup (dkeys b) -> (forall k, dget k a = dget k b) ->
  Permutation a b.
Proof.
  intros Na Nb S. apply NoDup_Permutation.
  - apply (NoDup_map_inv fst). exact Na.
  - apply (NoDup_map_inv fst). exact Nb.
  - intros [k v]. split; intro I.
    + apply dget_In. rewrite <- S. apply In_dget; assumption.
    + apply dget_In. rewrite S. apply In_dget; assumption.
Qed.
