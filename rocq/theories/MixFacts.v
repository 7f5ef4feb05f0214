(** Lists of different numbers. *)
From Verif Require Import Base PyStr PyNum NdArray Sofa SpecAttr SpecValue SpecMix AttrFacts OpFacts AddDelFacts.
From Coq Require Import ZArith Lia.
Open Scope list_scope.

Definition numbers (d : list elt) : Prop := forall e, In e d -> plain_number e.

Lemma existsb_app' {A} (f : A -> bool) l m : existsb f (l ++ m) = existsb f l || existsb f m.
Proof. apply existsb_app. Qed.

Definition join_kind (a b : dkind) : dkind :=
  match a, b with KF, _ => KF | _, KF => KF | KI, _ => KI | _, KI => KI | _, _ => KB end.

Lemma widest_app d e : widest (d ++ e) = join_kind (widest d) (widest e).
Proof.
  unfold widest. rewrite !existsb_app'.
  destruct (existsb is_float d), (existsb is_float e), (existsb is_int d), (existsb is_int e); reflexivity.
Qed.

Lemma widest_cases d : widest d = KF \/ widest d = KI \/ widest d = KB.
Proof. unfold widest. destruct (existsb is_float d), (existsb is_int d); tauto. Qed.

Lemma promote_widest d e : promote (widest d) (widest e) = Some (widest (d ++ e)).
Proof.
  rewrite widest_app.
  destruct (widest_cases d) as [->|[->| ->]]; destruct (widest_cases e) as [->|[->| ->]]; reflexivity.
Qed.

Lemma unified_convert d : unified d = map (convert (widest d)) d \/ ~ numbers d.
Proof.
  destruct (existsb (fun e => negb (is_bool e || is_int e || is_float e)) d) eqn:X.
  - right. intro N. apply existsb_exists in X. destruct X as [e [I X]]. rewrite (N e I) in X. discriminate.
  - left. unfold unified.
    assert (P : forall e, In e d -> plain_number e).
    { intros e I. unfold plain_number. destruct (is_bool e || is_int e || is_float e) eqn:Y; [reflexivity|].
      assert (Z : existsb (fun e => negb (is_bool e || is_int e || is_float e)) d = true)
        by (apply existsb_exists; exists e; rewrite Y; auto).
      rewrite X in Z. discriminate Z. }
    destruct (widest_cases d) as [W|[W|W]]; rewrite W.
    + apply map_ext_in. intros e I. specialize (P e I). destruct e as [| | |[|]| | |]; try discriminate P; reflexivity.
    + apply map_ext_in. intros e I. specialize (P e I). destruct e as [| | |[|]| | |]; try discriminate P; reflexivity.
    + rewrite <- (map_id d) at 1. apply map_ext_in. intros e I. destruct e; reflexivity.
Qed.

Lemma convert_twice d d' : numbers d -> widest d' = join_kind (widest d) (widest d') ->
  map (convert (widest d')) (map (convert (widest d)) d) = map (convert (widest d')) d.
Proof.
  intros N W. rewrite map_map. apply map_ext_in. intros e I. specialize (N e I). revert W.
  destruct (widest_cases d) as [->|[->| ->]]; destruct (widest_cases d') as [->|[->| ->]];
    intro W; try discriminate W; destruct e as [| | |[|]| | |]; try discriminate N; reflexivity.
Qed.

Lemma join_absorb a b : join_kind a (join_kind a b) = join_kind a b.
Proof. destruct a, b; reflexivity. Qed.
Lemma join_absorb_r a b : (a = KF \/ a = KI \/ a = KB) -> (b = KF \/ b = KI \/ b = KB) ->
  join_kind a b = join_kind b (join_kind a b).
Proof. intros [->|[->| ->]] [->|[->| ->]]; reflexivity. Qed.

Definition made (s : list nat) (a : arr) (d : list elt) : Prop :=
  a = Arr (widest d) s (map (convert (widest d)) d) false /\ numbers d.

Lemma promote_made s r : forall dss d, Forall2 (made s) r dss ->
  promote_all (widest d) r = Some (widest (d ++ List.concat dss)).
Proof.
  induction r as [|a r IH]; intros dss d F; inversion F as [|? e ? dss' [A _] F']; subst.
  - cbn. rewrite app_nil_r. reflexivity.
  - cbn [promote_all a_kind List.concat]. rewrite promote_widest, (IH dss' (d ++ e) F'), app_assoc. reflexivity.
Qed.

Lemma flat_made s r W : forall dss, Forall2 (made s) r dss ->
  (forall d, In d dss -> widest W = join_kind (widest d) (widest W)) ->
  flat_map (fun b => map (convert (widest W)) (a_data b)) r = map (convert (widest W)) (List.concat dss).
Proof.
  induction r as [|a r IH]; intros dss F H; inversion F as [|? e ? dss' [A N] F']; subst; [reflexivity|].
  cbn [flat_map a_data List.concat]. rewrite map_app, (IH dss' F') by (intros d I; apply H; right; exact I).
  rewrite convert_twice; [reflexivity|exact N|apply H; left; reflexivity].
Qed.

Lemma wide_in d dss : In d dss -> widest (List.concat dss) = join_kind (widest d) (widest (List.concat dss)).
Proof.
  induction dss as [|e dss IH]; intros I; [destruct I|]. cbn [List.concat]. rewrite widest_app. destruct I as [->|I].
  - symmetry. apply join_absorb.
  - rewrite (IH I) at 1 2. clear. generalize (widest (List.concat dss)). intro k.
    destruct (widest_cases d) as [->|[->| ->]]; destruct (widest_cases e) as [->|[->| ->]]; destruct k; reflexivity.
Qed.

Lemma np_array_mixed s v d :
  rect s v d -> numbers d -> solid s = true -> made s (Arr (widest d) s (map (convert (widest d)) d) false) d
    /\ np_array v = Ok (Arr (widest d) s (map (convert (widest d)) d) false).
Proof.
  intros R N Hs. split; [split; [reflexivity|exact N]|]. revert s v d R N Hs.
  apply (rect_mind
    (fun s v d => numbers d -> solid s = true -> np_array v = Ok (Arr (widest d) s (map (convert (widest d)) d) false))
    (fun s l d => numbers d -> solid s = true ->
       exists r dss, np_arrays l = Ok r /\ List.length r = List.length l
         /\ Forall2 (made s) r dss /\ List.concat dss = d)).
  - intros e N _. specialize (N e (or_introl eq_refl)). destruct e; try discriminate N; reflexivity.
  - intros b s N _. specialize (N _ (or_introl eq_refl)). discriminate N.
  - intros _ Hs. discriminate Hs.
  - intros s x l d ds _ IHx _ IHl N Hs.
    assert (N1 : numbers d) by (intros y Hy; apply N; apply in_or_app; left; exact Hy).
    assert (N2 : numbers ds) by (intros y Hy; apply N; apply in_or_app; right; exact Hy).
    cbn [solid] in Hs. apply andb_prop in Hs. destruct Hs as [_ Hs].
    rewrite np_array_list. cbn [np_arrays]. rewrite (IHx N1 Hs).
    destruct (IHl N2 Hs) as [r [dss [R1 [R2 [R3 R4]]]]]. rewrite R1. cbn [rbind].
    unfold stack. cbn [a_shape a_kind].
    assert (FB : forallb (fun b => shape_eqb s (a_shape b)) r = true).
    { clear -R3. induction R3 as [|a e r dss [A _] F IH]; [reflexivity|]. cbn [forallb]. rewrite IH, A.
      cbn [a_shape]. rewrite shape_eqb_refl. reflexivity. }
    rewrite FB, (promote_made s r dss d R3), R4. cbn [List.length]. rewrite R2.
    assert (F3 : Forall2 (made s) (Arr (widest d) s (map (convert (widest d)) d) false :: r) (d :: dss))
      by (constructor; [split; [reflexivity|exact N1]|exact R3]).
    rewrite (flat_made s _ (d ++ ds) _ F3); [cbn [List.concat]; rewrite R4; reflexivity|].
    intros e I. rewrite <- R4. apply (wide_in e (d :: dss) I).
  - intros s _ _. exists [], []. repeat split; constructor.
  - intros s x l d ds _ IHx _ IHl N Hs.
    assert (N1 : numbers d) by (intros y Hy; apply N; apply in_or_app; left; exact Hy).
    assert (N2 : numbers ds) by (intros y Hy; apply N; apply in_or_app; right; exact Hy).
    destruct (IHl N2 Hs) as [r [dss [R1 [R2 [R3 R4]]]]].
    exists (Arr (widest d) s (map (convert (widest d)) d) false :: r), (d :: dss).
    cbn [np_arrays]. rewrite (IHx N1 Hs), R1. cbn [rbind List.length List.concat].
    split; [reflexivity|]. split; [congruence|]. split; [|rewrite R4; reflexivity].
    constructor; [split; [reflexivity|exact N1]|exact R3].
Qed.

Lemma normalize_mixed s l d :
  rect s (VList l) d -> numbers d -> (1 < List.length d)%nat ->
  normalize (VList l) = Ok (VArr (Arr (widest d) (sh_atleast_2d s) (unified d) false)).
Proof.
  intros R N L1. unfold normalize.
  assert (L := prod_nonempty_data _ _ _ R).
  assert (So : solid s = true).
  { assert (P : prod s <> 0%nat) by lia.
    clear -P. induction s as [|n s IH]; [reflexivity|]. cbn in *. rewrite IH by (intro C; rewrite C in P; lia).
    destruct n; [cbn in P; lia|reflexivity]. }
  rewrite (proj2 (np_array_mixed _ _ _ R N So)).
  cbn [rbind]. unfold a_size. cbn [a_shape reshape a_data a_kind a_mask].
  rewrite prod_atleast_2d, <- L.
  destruct (Nat.eqb_spec (List.length d) 1) as [C|_]; [lia|].
  destruct (unified_convert d) as [->|C]; [reflexivity|destruct (C N)].
Qed.
