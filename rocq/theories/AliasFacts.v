(** Facts about sharing of data between objects and values. *)
From Coq Require Import Lia.
From Verif Require Import Base NdArray Copy SpecCopy CopyFacts Alias SpecAlias BaseFacts.
Open Scope list_scope.
Open Scope nat_scope.

(** ** Well-formed heaps *)
Lemma proper_ext h h' r : ext h h' -> proper h r -> proper h' r.
Proof.
  intros X P. destruct r as [e|l]; [exact I|]. destruct P as [c [G NB]]. exists c. split; [exact (ext_some _ _ _ _ X G)|].
  intros [es E]. apply NB. exists es. rewrite <- (ext_nth _ _ _ X (nth_some _ _ _ G)). exact E.
Qed.
Lemma buf_ext h h' l : ext h h' -> is_buf h l -> is_buf h' l.
Proof. intros X [es E]. exists es. exact (ext_some _ _ _ _ X E). Qed.

Lemma proper_cell_ext h h' c : ext h h' -> proper_cell h c -> proper_cell h' c.
Proof.
  intros X P. destruct c; cbn [proper_cell] in *; try (intros r I; apply (proper_ext h); [exact X|apply P, I]).
  exact (buf_ext _ _ _ X P).
Qed.

Lemma wf_ext h h' : wf_heap h -> ext h h' ->
  (forall l c, List.length h <= l -> nth_error h' l = Some c -> proper_cell h' c) -> wf_heap h'.
Proof.
  intros WF X N l c G. destruct (Nat.lt_ge_cases l (List.length h)) as [L|L]; [|exact (N l c L G)].
  rewrite (ext_nth _ _ _ X L) in G. exact (proper_cell_ext _ _ _ X (WF l c G)).
Qed.

Definition not_buf (c : cell) : Prop := match c with CBuf _ => False | _ => True end.

Lemma is_buf_set h l c0 c x : nth_error h l = Some c0 -> not_buf c0 -> not_buf c -> (is_buf (set_nth l c h) x <-> is_buf h x).
Proof.
  intros G N0 N. unfold is_buf. destruct (Nat.eq_dec x l) as [->|NE].
  - rewrite set_nth_same by exact (nth_some _ _ _ G). rewrite G. split; intros [es E]; injection E as ->; contradiction.
  - rewrite set_nth_other by exact NE. reflexivity.
Qed.

Lemma proper_set h l c0 c r : nth_error h l = Some c0 -> not_buf c0 -> not_buf c -> proper h r -> proper (set_nth l c h) r.
Proof.
  intros G N0 N P. destruct r as [e|x]; [exact I|]. destruct P as [cx [GX NB]].
  destruct (Nat.eq_dec x l) as [->|NE].
  - exists c. split; [apply set_nth_same; exact (nth_some _ _ _ G)|]. rewrite (is_buf_set _ _ _ _ _ G N0 N). exact NB.
  - exists cx. split; [rewrite set_nth_other by exact NE; exact GX|]. rewrite (is_buf_set _ _ _ _ _ G N0 N). exact NB.
Qed.

Lemma wf_set h l c0 c : wf_heap h -> nth_error h l = Some c0 -> not_buf c0 -> not_buf c -> proper_cell h c -> wf_heap (set_nth l c h).
Proof.
  intros WF G N0 N PC x y GY.
  assert (PCS : forall z, proper_cell h z -> proper_cell (set_nth l c h) z).
  { intros z PZ. destruct z; cbn [proper_cell] in *; try (intros r I; apply (proper_set h l c0); auto).
    apply (is_buf_set _ _ _ _ _ G N0 N). exact PZ. }
  destruct (Nat.eq_dec x l) as [->|NE].
  - rewrite set_nth_same in GY by exact (nth_some _ _ _ G). injection GY as <-. apply PCS, PC.
  - rewrite set_nth_other in GY by exact NE. apply PCS. exact (WF x y GY).
Qed.

(** writing into a buffer *)
Lemma buf_set_buf h l es es' x : nth_error h l = Some (CBuf es) -> (is_buf (set_nth l (CBuf es') h) x <-> is_buf h x).
Proof.
  intro G. unfold is_buf. destruct (Nat.eq_dec x l) as [->|NE].
  - rewrite set_nth_same by exact (nth_some _ _ _ G). rewrite G. split; intros _; eexists; reflexivity.
  - rewrite set_nth_other by exact NE. reflexivity.
Qed.
Lemma proper_set_buf h l es es' r : nth_error h l = Some (CBuf es) -> proper h r -> proper (set_nth l (CBuf es') h) r.
Proof.
  intros G P. destruct r as [e|x]; [exact I|]. destruct P as [cx [GX NB]].
  assert (NE : x <> l) by (intros ->; apply NB; exists es; exact G).
  exists cx. split; [rewrite set_nth_other by exact NE; exact GX|]. rewrite (buf_set_buf _ _ _ _ _ G). exact NB.
Qed.
Lemma wf_set_buf h l es es' : wf_heap h -> nth_error h l = Some (CBuf es) -> wf_heap (set_nth l (CBuf es') h).
Proof.
  intros WF G x y GY. destruct (Nat.eq_dec x l) as [->|NE].
  - rewrite set_nth_same in GY by exact (nth_some _ _ _ G). injection GY as <-. intros r [].
  - rewrite set_nth_other in GY by exact NE. assert (P := WF x y GY).
    destruct y; cbn [proper_cell] in *; try (intros r I; apply (proper_set_buf h l es); auto).
    apply (buf_set_buf _ _ _ _ _ G). exact P.
Qed.

(** ** Copies are well-formed *)
Section Base.
Variable h0 : heap.
Hypothesis WF0 : wf_heap h0.

Definition mok (st : heap * memo) : Prop := forall l l', mget l (snd st) = Some l' -> proper (fst st) (RLoc l').

Lemma copy_each_wf dc rs :
  (forall st r st' r', pre h0 st -> src h0 r -> dc st r = Some (st', r') -> post (List.length h0) st st' /\ mref (snd st') r r') ->
  (forall st r st' r', pre h0 st -> src h0 r -> wf_heap (fst st) -> mok st -> dc st r = Some (st', r') ->
     wf_heap (fst st') /\ mok st' /\ proper (fst st') r') ->
  (forall r, In r rs -> src h0 r) ->
  forall st st' rs', pre h0 st -> wf_heap (fst st) -> mok st -> copy_each dc st rs = Some (st', rs') ->
    ext (fst st) (fst st') /\ wf_heap (fst st') /\ mok st' /\ (forall r, In r rs' -> proper (fst st') r) /\ List.length rs' = List.length rs.
Proof.
  intros D W. induction rs as [|r rs IH]; intros SR st st' rs' P WF MO H; cbn [copy_each] in H.
  - injection H as <- <-. split; [apply ext_refl|]. split; [exact WF|]. split; [exact MO|]. split; [intros x []|reflexivity].
  - destruct (dc st r) as [[st1 r1]|] eqn:E; [|discriminate H].
    destruct (copy_each dc st1 rs) as [[st2 rs2]|] eqn:E2; [|discriminate H]. injection H as <- <-.
    destruct (D st r st1 r1 P (SR r (or_introl eq_refl)) E) as [P1 _].
    destruct (W st r st1 r1 P (SR r (or_introl eq_refl)) WF MO E) as [W1 [M1 PR]].
    destruct (IH (fun x I => SR x (or_intror I)) st1 st2 rs2 (post_pre h0 _ _ P P1) W1 M1 E2) as [X2 [W2 [M2 [PR2 LE]]]].
    split; [exact (ext_trans _ _ _ (po_ext _ _ _ P1) X2)|]. split; [exact W2|]. split; [exact M2|]. split.
    + intros x [<-|I]; [exact (proper_ext _ _ _ X2 PR)|exact (PR2 x I)].
    + cbn [List.length]. rewrite LE. reflexivity.
Qed.

Lemma node_wf h m l c0 : not_buf c0 -> refs_of c0 = [] -> (forall k s i w b, c0 <> CArr k s i w b) -> wf_heap h -> mok (h, m) ->
  wf_heap (h ++ [c0]) /\ mok (h ++ [c0], (l, List.length h) :: m).
Proof.
  intros N R NA WF MO. assert (X : ext h (h ++ [c0])) by (exists [c0]; reflexivity).
  assert (G : nth_error (h ++ [c0]) (List.length h) = Some c0) by (rewrite nth_error_app2, Nat.sub_diag by lia; reflexivity).
  split.
  - apply (wf_ext h); [exact WF|exact X|]. intros x c L GX.
    assert (x = List.length h) by (apply nth_some in GX; rewrite app_length in GX; cbn [List.length] in GX; lia). subst x.
    rewrite G in GX. injection GX as <-. destruct c0; cbn [proper_cell]; try (rewrite R; intros r []); destruct (NA _ _ _ _ _ eq_refl).
  - intros a b H. cbn [fst snd] in *. rewrite mget_cons in H. destruct (Nat.eqb_spec l a) as [_|_].
    + injection H as <-. exists c0. split; [exact G|]. intros [es E]. rewrite G in E. injection E as ->. exact N.
    + exact (proper_ext _ _ _ X (MO a b H)).
Qed.

Lemma deepcopy_wf fuel : forall st r st' r', pre h0 st -> src h0 r -> wf_heap (fst st) -> mok st ->
  deepcopy fuel st r = Some (st', r') -> wf_heap (fst st') /\ mok st' /\ proper (fst st') r'.
Proof.
  induction fuel as [|fuel IH]; intros [h m] r st' r' P S WF MO H; cbn [deepcopy] in H.
  - destruct r as [e|l]; [injection H as <- <-; split; [exact WF|split; [exact MO|exact I]]|].
    destruct (mget l m) as [l'|] eqn:E; [|discriminate H]. injection H as <- <-. split; [exact WF|]. split; [exact MO|exact (MO l l' E)].
  - destruct r as [e|l]; [injection H as <- <-; split; [exact WF|split; [exact MO|exact I]]|].
    destruct (mget l m) as [l'|] eqn:E; [injection H as <- <-; split; [exact WF|split; [exact MO|exact (MO l l' E)]]|].
    destruct S as [c [GC NB]]. assert (L := nth_some _ _ _ GC). assert (PX := proj1 P). cbn [fst] in PX.
    rewrite (ext_nth _ _ _ PX L), GC in H.
    assert (NODE : forall c0 c1 rs0 h2 m2 rs, not_buf c0 -> refs_of c0 = [] -> (forall k s i w b, c0 <> CArr k s i w b) ->
       (forall r, In r rs0 -> src h0 r) ->
       copy_each (deepcopy fuel) (h ++ [c0], (l, List.length h) :: m) rs0 = Some ((h2, m2), rs) ->
       not_buf c1 -> (forall k s i w b, c1 <> CArr k s i w b) -> (List.length rs = List.length rs0 -> forall r, In r (refs_of c1) -> In r rs) ->
       wf_heap (set_nth (List.length h) c1 h2) /\ mok (set_nth (List.length h) c1 h2, m2)
         /\ proper (set_nth (List.length h) c1 h2) (RLoc (List.length h))).
    { intros c0 c1 rs0 h2 m2 rs N0 R0 NA0 SR CE N1 NA1 R1.
      destruct (node_wf h m l c0 N0 R0 NA0 WF MO) as [W1 M1].
      destruct (copy_each_wf _ _ (deepcopy_post h0 WF0 fuel) IH SR _ _ _ (pre_node h0 h m l c0 P L) W1 M1 CE) as [X2 [W2 [M2 [PR LE]]]].
      cbn [fst] in X2, W2, PR.
      assert (G2 : nth_error h2 (List.length h) = Some c0)
        by (apply (ext_some _ _ _ _ X2); rewrite nth_error_app2, Nat.sub_diag by lia; reflexivity).
      split; [|split].
      - apply (wf_set h2 _ c0); try assumption. destruct c1; cbn [proper_cell]; try (intros y I; apply PR, (R1 LE), I).
        destruct (NA1 _ _ _ _ _ eq_refl).
      - intros a b G. cbn [fst snd] in *. apply (proper_set h2 _ c0); try assumption. exact (M2 a b G).
      - apply (proper_set h2 _ c0); try assumption. exists c0. split; [exact G2|]. intros [es EE]. rewrite G2 in EE. injection EE as ->. exact N0. }
    destruct c as [t d|xs|k s i w b|es].
    + destruct (copy_each (deepcopy fuel) _ _) as [[[h2 m2] rs]|] eqn:CE in H; [|discriminate H]. injection H as <- <-.
      assert (SR : forall r, In r (map snd d) -> src h0 r) by (apply (src_refs h0 WF0 l _ GC NB); intros; discriminate).
      apply (NODE (CMap t []) (CMap t (combine (map fst d) rs)) _ _ _ _ I eq_refl ltac:(intros; discriminate) SR CE I); [intros; discriminate|].
      intros LE r IR. cbn [refs_of] in IR. rewrite snd_combine in IR by (rewrite map_length in *; congruence). exact IR.
    + destruct (copy_each (deepcopy fuel) _ _) as [[[h2 m2] rs]|] eqn:CE in H; [|discriminate H]. injection H as <- <-.
      assert (SR : forall r, In r xs -> src h0 r) by (apply (src_refs h0 WF0 l _ GC NB); intros; discriminate).
      apply (NODE (CList []) (CList rs) _ _ _ _ I eq_refl ltac:(intros; discriminate) SR CE I); [intros; discriminate|].
      intros LE r IR. exact IR.
    + destruct (arr_buf h0 WF0 _ _ _ _ _ _ GC) as [es EB]. rewrite (ext_some _ _ _ _ PX EB) in H. injection H as <- <-. cbn [fst snd].
      set (ca := CArr k s (seq 0 (List.length i)) w (S (List.length h))). set (cb := CBuf (pick es i)).
      assert (X : ext h (h ++ [ca; cb])) by (exists [ca; cb]; reflexivity).
      assert (NA : nth_error (h ++ [ca; cb]) (List.length h) = Some ca) by (rewrite nth_error_app2, Nat.sub_diag by lia; reflexivity).
      assert (NBf : nth_error (h ++ [ca; cb]) (S (List.length h)) = Some cb)
        by (rewrite nth_error_app2 by lia; replace (S (List.length h) - List.length h) with 1 by lia; reflexivity).
      assert (PN : proper (h ++ [ca; cb]) (RLoc (List.length h))) by (exists ca; split; [exact NA|intros [es' EE]; rewrite NA in EE; discriminate EE]).
      split; [|split; [|exact PN]].
      * apply (wf_ext h); [exact WF|exact X|]. intros x c LX GX.
        assert (LT := nth_some _ _ _ GX). rewrite app_length in LT. cbn [List.length] in LT.
        destruct (Nat.eq_dec x (List.length h)) as [->|NE].
        -- rewrite NA in GX. injection GX as <-. exists (pick es i). exact NBf.
        -- assert (x = S (List.length h)) by lia. subst x. rewrite NBf in GX. injection GX as <-. intros y [].
      * intros a y G. cbn [snd fst] in *. rewrite mget_cons in G. destruct (Nat.eqb l a); [injection G as <-; exact PN|].
        exact (proper_ext _ _ _ X (MO a y G)).
    + destruct NB. exists es. exact GC.
Qed.

Lemma copy_wf self h l : proper h0 (RLoc self) -> copy h0 self = Some (h, l) -> wf_heap h.
Proof.
  intros PS C. unfold copy in C. destruct (deepcopy (S (List.length h0)) (h0, []) (RLoc self)) as [[[h' m] r]|] eqn:E; [|discriminate C].
  destruct r as [e|l']; [discriminate C|]. injection C as <- <-.
  destruct (deepcopy_wf _ _ _ _ _ (pre_start h0) PS WF0 (fun a b H => match H with eq_refl => I end) E) as [W _]. exact W.
Qed.
End Base.

(** ** New objects *)
Record grown (h h' : heap) : Prop := Grown {
  gr_ext : ext h h';
  gr_new : forall l c l', List.length h <= l -> nth_error h' l = Some c -> In (RLoc l') (refs_of c) -> List.length h <= l';
  gr_wf : wf_heap h -> wf_heap h' }.

Lemma grown_refl h : grown h h.
Proof. split; [apply ext_refl| |auto]. intros l c l' L G. apply nth_some in G. lia. Qed.
Lemma grown_trans a b c : grown a b -> grown b c -> grown a c.
Proof.
  intros [X1 N1 W1] [X2 N2 W2]. split; [exact (ext_trans _ _ _ X1 X2)| |auto].
  intros l y l' L G I. destruct (Nat.lt_ge_cases l (List.length b)) as [LB|LB].
  - rewrite (ext_nth _ _ _ X2 LB) in G. exact (N1 l y l' L G I).
  - assert (Y := N2 l y l' LB G I). assert (Z := ext_length _ _ X1). lia.
Qed.

(** a cell that refers to nothing but new objects *)
Lemma grown_cell h h1 c : grown h h1 -> (forall r, In r (refs_of c) -> proper h1 r) ->
  (forall l, In (RLoc l) (refs_of c) -> List.length h <= l) -> (forall k s i w b, c <> CArr k s i w b) -> grown h (h1 ++ [c]).
Proof.
  intros [X N W] P L NA. assert (X1 : ext h1 (h1 ++ [c])) by (exists [c]; reflexivity). split; [exact (ext_trans _ _ _ X X1)| |].
  - intros l y l' LL G I. destruct (Nat.lt_ge_cases l (List.length h1)) as [LB|LB].
    + rewrite (ext_nth _ _ _ X1 LB) in G. exact (N l y l' LL G I).
    + assert (l = List.length h1) by (apply nth_some in G; rewrite app_length in G; cbn [List.length] in G; lia). subst l.
      rewrite nth_error_app2, Nat.sub_diag in G by lia. injection G as <-. apply L, I.
  - intro WF. apply (wf_ext h1); [auto|exact X1|]. intros l y LL G.
    assert (l = List.length h1) by (apply nth_some in G; rewrite app_length in G; cbn [List.length] in G; lia). subst l.
    rewrite nth_error_app2, Nat.sub_diag in G by lia. injection G as <-.
    destruct c; cbn [proper_cell refs_of] in *; try (intros r I; apply (proper_ext h1); [exact X1|apply P, I]).
    destruct (NA _ _ _ _ _ eq_refl).
Qed.

Lemma grown_array h a :
  grown h (h ++ [CArr (a_kind a) (a_shape a) (seq 0 (List.length (a_data a))) (a_mask a) (S (List.length h)); CBuf (a_data a)]).
Proof.
  set (ca := CArr _ _ _ _ _). set (cb := CBuf _). assert (X : ext h (h ++ [ca; cb])) by (exists [ca; cb]; reflexivity).
  assert (NA : nth_error (h ++ [ca; cb]) (List.length h) = Some ca) by (rewrite nth_error_app2, Nat.sub_diag by lia; reflexivity).
  assert (NBf : nth_error (h ++ [ca; cb]) (S (List.length h)) = Some cb)
    by (rewrite nth_error_app2 by lia; replace (S (List.length h) - List.length h) with 1 by lia; reflexivity).
  assert (C : forall x c, List.length h <= x -> nth_error (h ++ [ca; cb]) x = Some c -> c = ca \/ c = cb).
  { intros x c L G. assert (LT := nth_some _ _ _ G). rewrite app_length in LT. cbn [List.length] in LT.
    destruct (Nat.eq_dec x (List.length h)) as [->|NE]; [rewrite NA in G; injection G as <-; auto|].
    assert (x = S (List.length h)) by lia. subst x. rewrite NBf in G. injection G as <-. auto. }
  split; [exact X| |].
  - intros l c l' L G I. destruct (C l c L G) as [-> | ->]; [|destruct I]. destruct I as [I|[]]. injection I as <-. lia.
  - intro WF. apply (wf_ext h); [exact WF|exact X|]. intros l c L G.
    destruct (C l c L G) as [-> | ->]; [exists (a_data a); exact NBf|intros r []].
Qed.

(** lists of values *)
Fixpoint alloc_list (h : heap) (l : list value) : heap * list ref :=
  match l with
  | [] => (h, [])
  | v :: t => let (h1, r) := alloc h v in let (h2, rs) := alloc_list h1 t in (h2, r :: rs)
  end.
Lemma alloc_VList h l : alloc h (VList l) = let (h', rs) := alloc_list h l in (h' ++ [CList rs], RLoc (List.length h')).
Proof. reflexivity. Qed.

Lemma value_induct (P : value -> Prop) :
  (forall b s, P (VStr b s)) -> (forall e, P (VScal e)) -> (forall a, P (VArr a)) ->
  (forall l, (forall v, In v l -> P v) -> P (VList l)) -> forall v, P v.
Proof.
  intros H1 H2 H3 H4. fix IH 1. intros [b s|e|a|l]; [apply H1|apply H2|apply H3|]. apply H4.
  induction l as [|x l IHl]; intros v I; [destruct I|]. destruct I as [<-|I]; [apply IH|exact (IHl v I)].
Qed.

Definition fresh (h h' : heap) (r : ref) : Prop :=
  (wf_heap h -> proper h' r) /\ forall l, r = RLoc l -> List.length h <= l.

Lemma alloc_grown v : forall h h' r, alloc h v = (h', r) -> grown h h' /\ fresh h h' r.
Proof.
  induction v as [b s|e|a|l IH] using value_induct; intros h h' r H.
  - injection H as <- <-. split; [apply grown_refl|]. split; [intros _; exact I|intros l E; discriminate E].
  - injection H as <- <-. split; [apply grown_refl|]. split; [intros _; exact I|intros l E; discriminate E].
  - injection H as <- <-. split; [apply grown_array|]. split; [|intros l E; injection E as <-; lia].
    intros _. eexists. split; [rewrite nth_error_app2, Nat.sub_diag by lia; reflexivity|].
    intros [es E]. rewrite nth_error_app2, Nat.sub_diag in E by lia. discriminate E.
  - rewrite alloc_VList in H.
    assert (K : forall h h' rs, alloc_list h l = (h', rs) -> grown h h' /\ forall r, In r rs -> fresh h h' r).
    { clear h h' r H. induction l as [|v l IHl]; intros h h' rs H; cbn [alloc_list] in H.
      - injection H as <- <-. split; [apply grown_refl|intros r []].
      - destruct (alloc h v) as [h1 r1] eqn:E1. destruct (alloc_list h1 l) as [h2 rs2] eqn:E2. injection H as <- <-.
        destruct (IH v (or_introl eq_refl) h h1 r1 E1) as [G1 F1].
        destruct (IHl (fun x I => IH x (or_intror I)) h1 h2 rs2 E2) as [G2 F2].
        split; [exact (grown_trans _ _ _ G1 G2)|]. intros r [<-|I].
        + split; [intro WF; exact (proper_ext _ _ _ (gr_ext _ _ G2) (proj1 F1 WF))|exact (proj2 F1)].
        + destruct (F2 r I) as [A B]. split; [intro WF; apply A, (gr_wf _ _ G1), WF|].
          intros x E. assert (Y := B x E). assert (Z := ext_length _ _ (gr_ext _ _ G1)). lia. }
    destruct (alloc_list h l) as [h1 rs] eqn:E. injection H as <- <-. destruct (K h h1 rs E) as [G F].
    assert (X1 : ext h1 (h1 ++ [CList rs])) by (exists [CList rs]; reflexivity).
    assert (GN : nth_error (h1 ++ [CList rs]) (List.length h1) = Some (CList rs)) by (rewrite nth_error_app2, Nat.sub_diag by lia; reflexivity).
    split; [|split].
    + destruct G as [X N W]. split; [exact (ext_trans _ _ _ X X1)| |].
      * intros x y l' LL GG I. destruct (Nat.lt_ge_cases x (List.length h1)) as [LB|LB].
        -- rewrite (ext_nth _ _ _ X1 LB) in GG. exact (N x y l' LL GG I).
        -- assert (x = List.length h1) by (apply nth_some in GG; rewrite app_length in GG; cbn [List.length] in GG; lia). subst x.
           rewrite GN in GG. injection GG as <-. exact (proj2 (F _ I) l' eq_refl).
      * intro WF. apply (wf_ext h1); [auto|exact X1|]. intros x y LL GG.
        assert (x = List.length h1) by (apply nth_some in GG; rewrite app_length in GG; cbn [List.length] in GG; lia). subst x.
        rewrite GN in GG. injection GG as <-. intros r I. apply (proper_ext h1); [exact X1|exact (proj1 (F r I) WF)].
    + intros _. exists (CList rs). split; [exact GN|]. intros [es EE]. rewrite GN in EE. discriminate EE.
    + intros x EE. injection EE as <-. exact (ext_length _ _ (gr_ext _ _ G)).
Qed.

(** no instance is created *)
Lemma alloc_kinds v : forall h h' r, alloc h v = (h', r) -> forall l t d, List.length h <= l -> nth_error h' l <> Some (CMap t d).
Proof.
  induction v as [b s|e|a|l IH] using value_induct; intros h h' r H x t d L G.
  - injection H as <- <-. apply nth_some in G. lia.
  - injection H as <- <-. apply nth_some in G. lia.
  - injection H as <- <-. rewrite nth_error_app2 in G by lia.
    destruct (x - List.length h) as [|[|[|n]]]; cbn in G; discriminate G.
  - rewrite alloc_VList in H. destruct (alloc_list h l) as [h1 rs] eqn:E. injection H as <- <-.
    assert (K : List.length h <= List.length h1 /\ forall x, List.length h <= x -> nth_error h1 x <> Some (CMap t d)).
    { clear x L G. revert h h1 rs E. induction l as [|v l IHl]; intros h h1 rs E; cbn [alloc_list] in E.
      - injection E as <- <-. split; [lia|]. intros x L G. apply nth_some in G. lia.
      - destruct (alloc h v) as [h2 r2] eqn:E1. destruct (alloc_list h2 l) as [h3 rs3] eqn:E2. injection E as <- <-.
        assert (G1 := proj1 (alloc_grown v _ _ _ E1)). assert (LE := ext_length _ _ (gr_ext _ _ G1)).
        destruct (IHl (fun v I => IH v (or_intror I)) h2 h3 rs3 E2) as [K1 K2]. split; [lia|].
        assert (XX : ext h2 h3).
        { clear -E2. revert h2 h3 rs3 E2. induction l as [|w l IHl]; intros h2 h3 rs3 E2; cbn [alloc_list] in E2; [injection E2 as <- <-; apply ext_refl|].
          destruct (alloc h2 w) as [h4 r4] eqn:E4. destruct (alloc_list h4 l) as [h5 rs5] eqn:E5. injection E2 as <- <-.
          exact (ext_trans _ _ _ (gr_ext _ _ (proj1 (alloc_grown w _ _ _ E4))) (IHl _ _ _ E5)). }
        intros x L G. destruct (Nat.lt_ge_cases x (List.length h2)) as [LB|LB].
        + rewrite (ext_nth _ _ _ XX LB) in G. exact (IH v (or_introl eq_refl) _ _ _ E1 x t d L G).
        + exact (K2 x LB G). }
    destruct (Nat.lt_ge_cases x (List.length h1)) as [LB|LB].
    + rewrite nth_error_app1 in G by exact LB. exact (proj2 K x L G).
    + assert (x = List.length h1) by (apply nth_some in G; rewrite app_length in G; cbn [List.length] in G; lia). subst x.
      rewrite nth_error_app2, Nat.sub_diag in G by lia. discriminate G.
Qed.

(** ** Reachable locations *)
Lemma reach_closed h roots (P : nat -> Prop) : (forall l, In (RLoc l) roots -> P l) ->
  (forall l c l', P l -> nth_error h l = Some c -> In (RLoc l') (refs_of c) -> P l') -> forall x, reach h roots x -> P x.
Proof. intros R C x RE. induction RE as [l I|l c l' RE IH G I]; [exact (R l I)|exact (C l c l' IH G I)]. Qed.

Lemma reach_same h h' roots : (forall x, reach h roots x -> nth_error h' x = nth_error h x) ->
  forall x, reach h' roots x <-> reach h roots x.
Proof.
  intros S x. split; intro RE.
  - induction RE as [l I|l c l' RE IH G I]; [apply reach_root, I|]. rewrite (S l IH) in G. exact (reach_next _ _ _ _ _ IH G I).
  - induction RE as [l I|l c l' RE IH G I]; [apply reach_root, I|]. rewrite <- (S l RE) in G. exact (reach_next _ _ _ _ _ IH G I).
Qed.

Lemma reach_one h r x : reach h [r] x -> exists l, r = RLoc l.
Proof. intro R. induction R as [l [I|[]]|l c l' R IH G I]; [eauto|exact IH]. Qed.

Lemma reach_old h r x : wf_heap h -> proper h r -> reach h [r] x -> x < List.length h.
Proof. intros WF P. apply (reach_lt h [r] WF). intros y [<-|[]]. exact P. Qed.

Lemma reach_ext h h' r : wf_heap h -> proper h r -> ext h h' -> forall x, reach h' [r] x <-> reach h [r] x.
Proof. intros WF P X. apply reach_same. intros x R. apply ext_nth; [exact X|exact (reach_old _ _ _ WF P R)]. Qed.

Lemma reach_new h h' r x : grown h h' -> (forall l, r = RLoc l -> List.length h <= l) -> reach h' [r] x -> List.length h <= x.
Proof.
  intros G F. apply (reach_closed h' [r] (fun x => List.length h <= x)).
  - intros l [I|[]]. exact (F l I).
  - intros l c l' L GG I. exact (gr_new _ _ G l c l' L GG I).
Qed.

Lemma reach_via h r l x : reach h [r] l -> reach h [RLoc l] x -> reach h [r] x.
Proof. intros R S. induction S as [y [I|[]]|y c z S IH G I]; [injection I as <-; exact R|exact (reach_next _ _ _ _ _ IH G I)]. Qed.

Lemma observe_kept h h' r n : (forall x, reach h [r] x -> nth_error h' x = nth_error h x) -> observe n h' r = observe n h r.
Proof. intro S. apply (observe_same n h h' [r] S). destruct r as [e|l]; [exact I|apply reach_root; left; reflexivity]. Qed.

(** parts of an array *)
Lemma reach_array h l k s i w b x : nth_error h l = Some (CArr k s i w b) -> is_buf h b -> reach h [RLoc l] x -> x = l \/ x = b.
Proof.
  intros G [es B]. apply (reach_closed h [RLoc l] (fun x => x = l \/ x = b)).
  - intros y [I|[]]. injection I as <-. auto.
  - intros y c z [-> | ->] GY I.
    + rewrite G in GY. injection GY as <-. destruct I as [I|[]]. injection I as <-. auto.
    + rewrite B in GY. injection GY as <-. destruct I.
Qed.

Definition flat (h : heap) (r : ref) : Prop := (exists e, r = RAtom e) \/ is_array h r.

(** parts of an object *)
Lemma reach_object h l d x : wf_heap h -> nth_error h l = Some (CMap TInstance d) -> (forall r, In r (map snd d) -> flat h r) ->
  reach h [RLoc l] x -> x = l \/ exists r, In r (map snd d) /\ reach h [r] x.
Proof.
  intros WF G F. apply (reach_closed h [RLoc l] (fun x => x = l \/ exists r, In r (map snd d) /\ reach h [r] x)).
  - intros y [I|[]]. injection I as <-. auto.
  - intros y c z [-> |[r [IR R]]] GY I.
    + rewrite G in GY. injection GY as <-. right. exists (RLoc z). split; [exact I|apply reach_root; left; reflexivity].
    + right. exists r. split; [exact IR|]. exact (reach_next _ _ _ _ _ R GY I).
Qed.

Lemma reach_object_kind h l d x : wf_heap h -> nth_error h l = Some (CMap TInstance d) -> (forall r, In r (map snd d) -> flat h r) ->
  reach h [RLoc l] x -> forall rs, nth_error h x <> Some (CList rs).
Proof.
  intros WF G F R rs GX. destruct (reach_object h l d x WF G F R) as [->|[r [IR RR]]]; [rewrite G in GX; discriminate GX|].
  destruct (F r IR) as [[e ->]|[y [k [s [i [w [b [-> GY]]]]]]]]; [destruct (reach_one _ _ _ RR) as [z E]; discriminate E|].
  assert (B := WF y _ GY). destruct (reach_array h y k s i w b x GY B RR) as [-> | ->].
  - rewrite GY in GX. discriminate GX.
  - destruct B as [es B]. rewrite B in GX. discriminate GX.
Qed.

Lemma reach_object_dec h l d x : wf_heap h -> nth_error h l = Some (CMap TInstance d) -> (forall r, In r (map snd d) -> flat h r) ->
  reach h [RLoc l] x \/ ~ reach h [RLoc l] x.
Proof.
  intros WF G F.
  assert (D : forall rs, (forall r, In r rs -> flat h r) -> (exists r, In r rs /\ reach h [r] x) \/ ~ exists r, In r rs /\ reach h [r] x).
  { induction rs as [|r rs IH]; intro FL; [right; intros [r [[] _]]|].
    destruct (IH (fun y I => FL y (or_intror I))) as [[y [I R]]|N]; [left; exists y; split; [right; exact I|exact R]|].
    assert (DR : reach h [r] x \/ ~ reach h [r] x).
    { destruct (FL r (or_introl eq_refl)) as [[e ->]|[y [k [s [i [w [b [-> GY]]]]]]]].
      - right. intro R. destruct (reach_one _ _ _ R) as [z E]. discriminate E.
      - assert (RY : reach h [RLoc y] y) by (apply reach_root; left; reflexivity).
        destruct (Nat.eq_dec x y) as [->|N1]; [left; exact RY|]. destruct (Nat.eq_dec x b) as [->|N2].
        + left. eapply reach_next; [exact RY|exact GY|left; reflexivity].
        + right. intro R. destruct (reach_array h y k s i w b x GY (WF y _ GY) R); contradiction. }
    destruct DR as [R|NR]; [left; exists r; split; [left; reflexivity|exact R]|].
    right. intros [y [[<-|I] R]]; [exact (NR R)|apply N; exists y; auto]. }
  destruct (Nat.eq_dec x l) as [->|N]; [left; apply reach_root; left; reflexivity|].
  destruct (D (map snd d) F) as [[r [I R]]|NR].
  - left. destruct (reach_one _ _ _ R) as [y ->]. apply (reach_via h (RLoc l) y); [|exact R].
    eapply reach_next; [apply reach_root; left; reflexivity|exact G|exact I].
  - right. intro R. destruct (reach_object h l d x WF G F R) as [E|E]; [exact (N E)|exact (NR E)].
Qed.
