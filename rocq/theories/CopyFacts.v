(** Facts about the copies of objects in a heap. *)
From Coq Require Import Lia.
From Verif Require Import Base NdArray Copy SpecCopy.
Open Scope list_scope.
Open Scope nat_scope.

(** ** Heaps *)
Lemma set_nth_length l c h : List.length (set_nth l c h) = List.length h.
Proof. revert l. induction h as [|x h IH]; intros [|l]; cbn [set_nth List.length]; try reflexivity. f_equal. apply IH. Qed.

Lemma set_nth_same l c h : l < List.length h -> nth_error (set_nth l c h) l = Some c.
Proof. revert l. induction h as [|x h IH]; intros [|l] L; cbn [set_nth List.length nth_error] in *; [lia|lia|reflexivity|]. apply IH. lia. Qed.

Lemma set_nth_other l c h i : i <> l -> nth_error (set_nth l c h) i = nth_error h i.
Proof. revert l i. induction h as [|x h IH]; intros [|l] [|i] N; cbn [set_nth nth_error]; try reflexivity; [destruct (N eq_refl)|]. apply IH. lia. Qed.

Lemma set_nth_app h c c0 x : set_nth (List.length h) c (h ++ c0 :: x) = h ++ c :: x.
Proof. induction h as [|y h IH]; cbn [List.length set_nth app]; [reflexivity|]. f_equal. exact IH. Qed.

Lemma nth_some {A} (h : list A) l c : nth_error h l = Some c -> l < List.length h.
Proof. intro H. apply nth_error_Some. rewrite H. discriminate. Qed.

Definition ext (h h' : heap) : Prop := exists x, h' = h ++ x.
Lemma ext_refl h : ext h h. Proof. exists []. rewrite app_nil_r. reflexivity. Qed.
Lemma ext_trans a b c : ext a b -> ext b c -> ext a c.
Proof. intros [x ->] [y ->]. exists (x ++ y). symmetry. apply app_assoc. Qed.
Lemma ext_nth h h' l : ext h h' -> l < List.length h -> nth_error h' l = nth_error h l.
Proof. intros [x ->] L. apply nth_error_app1, L. Qed.
Lemma ext_some h h' l c : ext h h' -> nth_error h l = Some c -> nth_error h' l = Some c.
Proof. intros X G. rewrite (ext_nth h h' l X); [exact G|]. exact (nth_some _ _ _ G). Qed.
Lemma ext_length h h' : ext h h' -> List.length h <= List.length h'.
Proof. intros [x ->]. rewrite app_length. lia. Qed.

(** ** Relation between objects and their copies *)
Definition mref (m : memo) (r r' : ref) : Prop :=
  match r, r' with
  | RAtom e, RAtom e' => e = e'
  | RLoc l, RLoc l' => mget l m = Some l'
  | _, _ => False
  end.
Definition mcell (h : heap) (m : memo) (lo : nat) (c c' : cell) : Prop :=
  match c, c' with
  | CMap t d, CMap t' d' => t = t' /\ map fst d = map fst d' /\ Forall2 (mref m) (map snd d) (map snd d')
  | CList rs, CList rs' => Forall2 (mref m) rs rs'
  | CArr k s i w b, CArr k' s' i' w' b' => k = k' /\ s = s' /\ w = w' /\ lo < b' /\
      exists es es', nth_error h b = Some (CBuf es) /\ nth_error h b' = Some (CBuf es') /\ pick es i = pick es' i'
  | _, _ => False
  end.
Definition done (h : heap) (m : memo) (l l' : nat) : Prop :=
  exists c c', nth_error h l = Some c /\ nth_error h l' = Some c' /\ mcell h m l' c c'.

Definition grows (m m' : memo) : Prop := forall l l', mget l m = Some l' -> mget l m' = Some l'.

Lemma mref_grows m m' r r' : grows m m' -> mref m r r' -> mref m' r r'.
Proof. intro G. destruct r, r'; cbn [mref]; auto. Qed.
Lemma mrefs_grows m m' rs rs' : grows m m' -> Forall2 (mref m) rs rs' -> Forall2 (mref m') rs rs'.
Proof. intros G F. induction F; constructor; [apply (mref_grows m), H; assumption|assumption]. Qed.

(** agreement of heaps on the cells that matter *)
Lemma done_change n0 h h' m m' l l' p : done h m l l' -> grows m m' -> p <= l' ->
  (forall i, i < n0 -> nth_error h' i = nth_error h i) ->
  (forall i c, p <= i -> nth_error h i = Some c -> nth_error h' i = Some c) ->
  l < n0 -> (forall k s i w b, nth_error h l = Some (CArr k s i w b) -> b < n0) -> done h' m' l l'.
Proof.
  intros [c [c' [G [G' M]]]] GR P H1 H2 L B. exists c, c'. rewrite H1 by exact L. split; [exact G|]. split; [apply H2; assumption|].
  destruct c, c'; cbn [mcell] in M |- *; try exact M.
  - destruct M as [M1 [M2 M3]]. split; [exact M1|]. split; [exact M2|]. exact (mrefs_grows _ _ _ _ GR M3).
  - exact (mrefs_grows _ _ _ _ GR M).
  - destruct M as [M1 [M2 [M3 [M4 [es [es' [E1 [E2 E3]]]]]]]]. do 4 (split; [assumption|]).
    exists es, es'. split; [rewrite H1; [exact E1|exact (B _ _ _ _ _ G)]|]. split; [apply H2; [lia|exact E2]|exact E3].
Qed.

(** ** The invariant of the recursion. [n0]: size of the heap at the start *)
Definition copies_of (n0 n : nat) (m : memo) : Prop := forall l l', mget l m = Some l' -> l < n0 /\ n0 <= l' /\ l' < n.
Definition new_refs (n0 n : nat) (c : cell) : Prop := forall l, In (RLoc l) (refs_of c) -> n0 <= l /\ l < n.

Definition inj (m : memo) : Prop := forall a b x, mget a m = Some x -> mget b m = Some x -> a = b.

Record post (n0 : nat) (st st' : heap * memo) : Prop := Post {
  po_ext : ext (fst st) (fst st');
  po_grows : grows (snd st) (snd st');
  po_memo : copies_of n0 (List.length (fst st')) (snd st') /\ inj (snd st');
  po_new : forall l l', mget l (snd st') = Some l' -> mget l (snd st) = None -> List.length (fst st) <= l' /\ done (fst st') (snd st') l l';
  po_refs : forall i c, List.length (fst st) <= i -> nth_error (fst st') i = Some c -> new_refs n0 (List.length (fst st')) c }.

Section Base.
Variable h0 : heap.
Hypothesis WF : wf_heap h0.
Notation n0 := (List.length h0).

Definition pre (st : heap * memo) : Prop := ext h0 (fst st) /\ copies_of n0 (List.length (fst st)) (snd st) /\ inj (snd st).
Definition src (r : ref) : Prop := proper h0 r.

Lemma src_refs l c : nth_error h0 l = Some c -> ~ is_buf h0 l -> (forall k s i w b, c <> CArr k s i w b) -> forall r, In r (refs_of c) -> src r.
Proof. intros G NB NA r I. assert (P := WF l c G). destruct c; cbn [proper_cell] in P; try (apply P, I). destruct (NA _ _ _ _ _ eq_refl). Qed.

Lemma arr_buf l k s i w b : nth_error h0 l = Some (CArr k s i w b) -> is_buf h0 b.
Proof. intro G. exact (WF l _ G). Qed.

Lemma post_refl st : pre st -> post n0 st st.
Proof.
  intros [X C]. split; [apply ext_refl|intros l l' G; exact G|exact C| |].
  - intros l l' G N. rewrite G in N. discriminate N.
  - intros i c L G. assert (L' := nth_some _ _ _ G). lia.
Qed.

Lemma done_later n h h' m m' l l' : ext h0 h -> ext h h' -> grows m m' -> n <= l' -> l < n0 -> done h m l l' -> done h' m' l l'.
Proof.
  intros X0 X G P L D. apply (done_change n0 h h' m m' l l' n); try assumption.
  - intros i I. apply ext_nth; [exact X|]. assert (Y := ext_length _ _ X0). lia.
  - intros i c _ E. exact (ext_some _ _ _ _ X E).
  - intros k s i w b E. rewrite (ext_nth h0 h l X0 L) in E. destruct (arr_buf _ _ _ _ _ _ E) as [es EB]. exact (nth_some _ _ _ EB).
Qed.

Lemma post_trans a b c : pre a -> post n0 a b -> post n0 b c -> post n0 a c.
Proof.
  intros [PX PC] [X1 G1 M1 N1 R1] [X2 G2 M2 N2 R2]. split.
  - exact (ext_trans _ _ _ X1 X2).
  - intros l l' H. apply G2, G1, H.
  - exact M2.
  - intros l l' H N. destruct (mget l (snd b)) as [y|] eqn:E.
    + assert (Y := G2 l y E). rewrite H in Y. injection Y as <-. destruct (N1 l l' E N) as [L D]. split; [exact L|].
      eapply done_later; [exact (ext_trans _ _ _ PX X1)|exact X2|exact G2|exact L|exact (proj1 (proj1 M1 l l' E))|exact D].
    + destruct (N2 l l' H E) as [L D]. split; [|exact D]. assert (Y := ext_length _ _ X1). lia.
  - intros i x L H. destruct (Nat.lt_ge_cases i (List.length (fst b))) as [LB|GE].
    + rewrite (ext_nth _ _ _ X2 LB) in H. intros l I. destruct (R1 i x L H l I) as [A B]. split; [exact A|]. assert (Y := ext_length _ _ X2). lia.
    + exact (R2 i x GE H).
Qed.

Lemma post_pre st st' : pre st -> post n0 st st' -> pre st'.
Proof. intros [X C] [X1 G1 M1 N1 R1]. split; [exact (ext_trans _ _ _ X X1)|exact M1]. Qed.

(** the copied reference belongs to the reference *)
Lemma copy_each_post dc rs :
  (forall st r st' r', pre st -> src r -> dc st r = Some (st', r') -> post n0 st st' /\ mref (snd st') r r') ->
  (forall r, In r rs -> src r) -> forall st st' rs', pre st -> copy_each dc st rs = Some (st', rs') ->
  post n0 st st' /\ Forall2 (mref (snd st')) rs rs'.
Proof.
  intro D. induction rs as [|r rs IH]; intros S st st' rs' P H; cbn [copy_each] in H.
  - injection H as <- <-. split; [apply post_refl, P|constructor].
  - destruct (dc st r) as [[st1 r1]|] eqn:E; [|discriminate H].
    destruct (copy_each dc st1 rs) as [[st2 rs2]|] eqn:E2; [|discriminate H]. injection H as <- <-.
    destruct (D st r st1 r1 P (S r (or_introl eq_refl)) E) as [P1 M1].
    destruct (IH (fun x I => S x (or_intror I)) st1 st2 rs2 (post_pre _ _ P P1) E2) as [P2 M2].
    split; [exact (post_trans _ _ _ P P1 P2)|]. constructor; [|exact M2]. exact (mref_grows _ _ _ _ (po_grows _ _ _ P2) M1).
Qed.

Lemma mget_cons l l' m x : mget x ((l, l') :: m) = if Nat.eqb l x then Some l' else mget x m.
Proof. reflexivity. Qed.

(** a mapping or list: location, memo, content, final write *)
Lemma node_post h m l c0 c h2 m2 l' : l' = List.length h ->
  pre (h, m) -> mget l m = None -> l < n0 -> refs_of c0 = [] -> ~ is_buf h0 l ->
  post n0 (h ++ [c0], (l, l') :: m) (h2, m2) ->
  (forall r, In r (refs_of c) -> match r with RAtom _ => True | RLoc x => n0 <= x /\ x < List.length h2 end) ->
  (exists src, nth_error h0 l = Some src /\ (forall h3, mcell h3 m2 l' src c)) ->
  post n0 (h, m) (set_nth l' c h2, m2) /\ mget l m2 = Some l'.
Proof.
  intros -> [PX [PC PI]] NM L RC NB [X G M N R] HC [sc [GS MC]]. cbn [fst snd] in *.
  assert (LL := ext_length _ _ PX). cbn [fst] in LL, PX.
  assert (ML : mget l m2 = Some (List.length h)) by (apply G; rewrite mget_cons, Nat.eqb_refl; reflexivity).
  destruct X as [x X]. rewrite <- app_assoc in X. cbn [app] in X.
  assert (E : set_nth (List.length h) c h2 = h ++ c :: x) by (rewrite X; apply set_nth_app).
  assert (LEN : List.length (h ++ c :: x) = List.length h2) by (rewrite X, !app_length; reflexivity).
  split; [|exact ML]. rewrite E.
  assert (NC : nth_error (h ++ c :: x) (List.length h) = Some c) by (rewrite nth_error_app2, Nat.sub_diag by lia; reflexivity).
  assert (OTHER : forall i, i <> List.length h -> nth_error (h ++ c :: x) i = nth_error h2 i)
    by (intros i NI; rewrite <- E; apply set_nth_other, NI).
  split; cbn [fst snd].
  - exists (c :: x). reflexivity.
  - intros a b H. apply G. rewrite mget_cons. destruct (Nat.eqb_spec l a) as [<-|_]; [rewrite NM in H; discriminate H|exact H].
  - rewrite LEN. exact M.
  - intros a b H1 H2. destruct (Nat.eqb_spec l a) as [<-|NE].
    + rewrite ML in H1. injection H1 as <-. split; [lia|]. exists sc, c. split; [|split; [exact NC|apply MC]].
      rewrite OTHER by lia. rewrite X, nth_error_app1 by lia. rewrite (ext_nth _ _ _ PX L). exact GS.
    + assert (H3 : mget a ((l, List.length h) :: m) = None).
      { rewrite mget_cons. destruct (Nat.eqb_spec l a) as [Y|_]; [destruct (NE Y)|exact H2]. }
      destruct (N a b H1 H3) as [LB D]. rewrite app_length in LB. cbn [List.length] in LB. split; [lia|].
      apply (done_change n0 h2 _ m2 m2 a b (S (List.length h))); [exact D|intros ? ? Y; exact Y|lia| | |exact (proj1 (proj1 M a b H1))|].
      * intros i I. apply OTHER. lia.
      * intros i ci I Y. rewrite OTHER; [exact Y|lia].
      * intros k s i w bf Y. assert (AL := proj1 (proj1 M a b H1)). rewrite X, nth_error_app1 in Y by lia. rewrite (ext_nth _ _ _ PX AL) in Y.
        destruct (arr_buf _ _ _ _ _ _ Y) as [es EB]. exact (nth_some _ _ _ EB).
  - intros i ci LI GI. rewrite LEN. destruct (Nat.eq_dec i (List.length h)) as [->|NI].
    + rewrite NC in GI. injection GI as <-. intros y I. exact (HC _ I).
    + rewrite OTHER in GI by exact NI. apply (R i ci); [rewrite app_length; cbn [List.length]; lia|exact GI].
Qed.

Lemma mrefs_in n0' n m rs rs' : copies_of n0' n m -> Forall2 (mref m) rs rs' -> forall r, In r rs' ->
  match r with RAtom _ => True | RLoc x => n0' <= x /\ x < n end.
Proof.
  intros C F. induction F as [|a b rs rs' AB F IH]; intros r I; [destruct I|]. destruct I as [<-|I]; [|exact (IH r I)].
  destruct a, b; cbn [mref] in AB; [exact Logic.I|destruct AB|exact Logic.I|]. destruct (C _ _ AB) as [_ Y]. exact Y.
Qed.

Lemma forall2_length {A B} (R : A -> B -> Prop) x y : Forall2 R x y -> List.length x = List.length y.
Proof. induction 1; cbn [List.length]; congruence. Qed.
Lemma fst_combine {A B} (x : list A) (y : list B) : List.length x = List.length y -> map fst (combine x y) = x.
Proof. revert y. induction x as [|a x IH]; intros [|b y] L; cbn in *; try reflexivity; try discriminate L. f_equal. apply IH. lia. Qed.
Lemma snd_combine {A B} (x : list A) (y : list B) : List.length x = List.length y -> map snd (combine x y) = y.
Proof. revert y. induction x as [|a x IH]; intros [|b y] L; cbn in *; try reflexivity; try discriminate L. f_equal. apply IH. lia. Qed.

Lemma pre_memo (h : heap) m l n : copies_of n0 (List.length h) m -> l < n0 -> n0 <= List.length h -> List.length h < n ->
  copies_of n0 n ((l, List.length h) :: m).
Proof.
  intros PC L LL K a b H. rewrite mget_cons in H. destruct (Nat.eqb_spec l a) as [<-|_].
  - injection H as <-. lia.
  - destruct (PC a b H) as [A [B D]]. lia.
Qed.
Lemma pre_inj n m l : copies_of n0 n m -> inj m -> inj ((l, n) :: m).
Proof.
  intros PC PI a b x H1 H2. rewrite mget_cons in H1, H2.
  destruct (Nat.eqb_spec l a) as [<-|_], (Nat.eqb_spec l b) as [<-|_]; [reflexivity| | |exact (PI a b x H1 H2)].
  - injection H1 as <-. destruct (PC b n H2). lia.
  - injection H2 as <-. destruct (PC a n H1). lia.
Qed.

Lemma pre_node h m l c0 : pre (h, m) -> l < n0 -> pre (h ++ [c0], (l, List.length h) :: m).
Proof.
  intros [PX [PC PI]] L. cbn [fst snd] in *. assert (LL := ext_length _ _ PX). split; [|split]; cbn [fst snd];
    [|apply (pre_memo h m l); [exact PC|exact L|exact LL|rewrite app_length; cbn [List.length]; lia]|apply (pre_inj (List.length h) m l); assumption].
  - eapply ext_trans; [exact PX|]. eexists. reflexivity.
Qed.

Lemma pick_all es : forall pre0, pick (pre0 ++ es) (seq (List.length pre0) (List.length es)) = es.
Proof.
  induction es as [|e es IH]; intro p; cbn [List.length seq pick map]; [reflexivity|]. f_equal.
  - rewrite app_nth2, Nat.sub_diag by lia. reflexivity.
  - specialize (IH (p ++ [e])). rewrite app_length in IH. cbn [List.length] in IH. rewrite <- app_assoc, Nat.add_1_r in IH. exact IH.
Qed.

Lemma deepcopy_post fuel : forall st r st' r', pre st -> src r -> deepcopy fuel st r = Some (st', r') ->
  post n0 st st' /\ mref (snd st') r r'.
Proof.
  induction fuel as [|fuel IH]; intros [h m] r st' r' P S H; cbn [deepcopy] in H.
  - destruct r as [e|l]; [injection H as <- <-; split; [apply post_refl, P|reflexivity]|].
    destruct (mget l m) as [l'|] eqn:E; [|discriminate H]. injection H as <- <-. split; [apply post_refl, P|exact E].
  - destruct r as [e|l]; [injection H as <- <-; split; [apply post_refl, P|reflexivity]|].
    destruct (mget l m) as [l'|] eqn:E; [injection H as <- <-; split; [apply post_refl, P|exact E]|].
    destruct S as [c [GC NB]]. assert (L := nth_some _ _ _ GC). assert (PX := proj1 P). cbn [fst] in PX.
    rewrite (ext_nth _ _ _ PX L), GC in H.
    destruct c as [t d|xs|k s i w b|es].
    + destruct (copy_each (deepcopy fuel) _ _) as [[[h2 m2] rs]|] eqn:CE in H; [|discriminate H]. injection H as <- <-.
      assert (SR : forall r, In r (map snd d) -> src r) by (apply (src_refs l _ GC NB); intros; discriminate).
      destruct (copy_each_post _ _ IH SR _ _ _ (pre_node h m l _ P L) CE) as [P2 F]. cbn [snd] in F |- *.
      assert (LE := forall2_length _ _ _ F). rewrite map_length in LE.
      eapply (node_post h m l (CMap t []) (CMap t (combine (map fst d) rs)) h2 m2); try eassumption; try reflexivity.
      * cbn [refs_of]. rewrite snd_combine by (rewrite map_length; exact LE). exact (mrefs_in _ _ _ _ _ (proj1 (po_memo _ _ _ P2)) F).
      * exists (CMap t d). split; [exact GC|]. intro h3. cbn [mcell]. rewrite fst_combine, snd_combine by (rewrite map_length; exact LE). auto.
    + destruct (copy_each (deepcopy fuel) _ _) as [[[h2 m2] rs]|] eqn:CE in H; [|discriminate H]. injection H as <- <-.
      assert (SR : forall r, In r xs -> src r) by (apply (src_refs l _ GC NB); intros; discriminate).
      destruct (copy_each_post _ _ IH SR _ _ _ (pre_node h m l _ P L) CE) as [P2 F]. cbn [snd] in F |- *.
      eapply (node_post h m l (CList []) (CList rs) h2 m2); try eassumption; try reflexivity.
      * cbn [refs_of]. exact (mrefs_in _ _ _ _ _ (proj1 (po_memo _ _ _ P2)) F).
      * exists (CList xs). split; [exact GC|]. intro h3. exact F.
    + destruct (arr_buf _ _ _ _ _ _ GC) as [es EB]. rewrite (ext_some _ _ _ _ PX EB) in H. injection H as <- <-. cbn [snd].
      split; [|cbn [mref]; rewrite mget_cons, Nat.eqb_refl; reflexivity].
      assert (LL := ext_length _ _ PX). assert (LB := nth_some _ _ _ EB).
      set (ca := CArr k s (seq 0 (List.length i)) w (S (List.length h))). set (cb := CBuf (pick es i)).
      assert (NA : nth_error (h ++ [ca; cb]) (List.length h) = Some ca) by (rewrite nth_error_app2, Nat.sub_diag by lia; reflexivity).
      assert (NBf : nth_error (h ++ [ca; cb]) (S (List.length h)) = Some cb)
        by (rewrite nth_error_app2 by lia; replace (S (List.length h) - List.length h) with 1 by lia; reflexivity).
      split; cbn [fst snd].
      * exists [ca; cb]. reflexivity.
      * intros a x Y. rewrite mget_cons. destruct (Nat.eqb_spec l a) as [<-|_]; [rewrite E in Y; discriminate Y|exact Y].
      * split; [apply (pre_memo h m l); [exact (proj1 (proj2 P))|exact L|exact LL|rewrite app_length; cbn [List.length]; lia]|].
        apply (pre_inj (List.length h) m l); [exact (proj1 (proj2 P))|exact (proj2 (proj2 P))].
      * intros a x Y NY. rewrite mget_cons in Y. destruct (Nat.eqb_spec l a) as [<-|_]; [|rewrite Y in NY; discriminate NY].
        injection Y as <-. split; [lia|]. exists (CArr k s i w b), ca. split; [|split; [exact NA|]].
        -- rewrite nth_error_app1 by lia. rewrite (ext_nth _ _ _ PX L). exact GC.
        -- cbn [mcell ca]. do 3 (split; [reflexivity|]). split; [lia|]. exists es, (pick es i). split; [|split; [exact NBf|]].
           ++ rewrite nth_error_app1 by lia. exact (ext_some _ _ _ _ PX EB).
           ++ symmetry. assert (Y := pick_all (pick es i) []). cbn [app List.length] in Y. unfold pick at 3 in Y. rewrite map_length in Y. exact Y.
      * intros j c LJ GJ. destruct (Nat.eq_dec j (List.length h)) as [->|NJ].
        -- rewrite NA in GJ. injection GJ as <-. intros y [Y|[]]. injection Y as <-. rewrite app_length. cbn [List.length]. lia.
        -- destruct (Nat.eq_dec j (S (List.length h))) as [->|NJ2].
           ++ rewrite NBf in GJ. injection GJ as <-. intros y [].
           ++ apply nth_some in GJ. rewrite app_length in GJ. cbn [List.length] in GJ. lia.
    + destruct NB. exists es. exact GC.
Qed.

(** ** Termination *)
Definition todo (m : memo) : nat := List.length (filter (fun l => match mget l m with None => true | Some _ => false end) (seq 0 n0)).

Lemma filter_le {A} (f g : A -> bool) l : (forall x, g x = true -> f x = true) -> List.length (filter g l) <= List.length (filter f l).
Proof.
  intro H. induction l as [|x l IH]; cbn [filter]; [lia|]. destruct (g x) eqn:G; [rewrite (H x G); cbn [List.length]; lia|].
  destruct (f x); cbn [List.length]; lia.
Qed.
Lemma filter_lt {A} (f g : A -> bool) l x : (forall x, g x = true -> f x = true) -> In x l -> f x = true -> g x = false ->
  List.length (filter g l) < List.length (filter f l).
Proof.
  intros H. induction l as [|y l IH]; intros I F G; [destruct I|]. cbn [filter].
  assert (LE := filter_le f g l H). destruct I as [->|I].
  - rewrite F, G. cbn [List.length]. lia.
  - specialize (IH I F G). destruct (g y) eqn:GY; [rewrite (H y GY); cbn [List.length]; lia|]. destruct (f y); cbn [List.length]; lia.
Qed.

Lemma todo_grows m m' : grows m m' -> todo m' <= todo m.
Proof.
  intro G. apply filter_le. intro x. destruct (mget x m') eqn:E; [discriminate|]. destruct (mget x m) eqn:F; [|reflexivity].
  rewrite (G _ _ F) in E. discriminate E.
Qed.
Lemma todo_cons m l l' : l < n0 -> mget l m = None -> todo ((l, l') :: m) < todo m.
Proof.
  intros L N. apply (filter_lt _ _ _ l).
  - intro x. rewrite mget_cons. destruct (Nat.eqb l x); [discriminate|]. auto.
  - apply in_seq. lia.
  - rewrite N. reflexivity.
  - rewrite mget_cons, Nat.eqb_refl. reflexivity.
Qed.

Lemma copy_each_total dc rs n :
  (forall st r st' r', pre st -> src r -> dc st r = Some (st', r') -> post n0 st st' /\ mref (snd st') r r') ->
  (forall st r, pre st -> src r -> todo (snd st) <= n -> exists x, dc st r = Some x) ->
  (forall r, In r rs -> src r) -> forall st, pre st -> todo (snd st) <= n -> exists x, copy_each dc st rs = Some x.
Proof.
  intros D T. induction rs as [|r rs IH]; intros S st P L; cbn [copy_each]; [eexists; reflexivity|].
  destruct (T st r P (S r (or_introl eq_refl)) L) as [[st1 r1] E]. rewrite E.
  destruct (D st r st1 r1 P (S r (or_introl eq_refl)) E) as [P1 M1].
  destruct (IH (fun x I => S x (or_intror I)) st1 (post_pre _ _ P P1)) as [[st2 rs2] E2];
    [assert (Y := todo_grows _ _ (po_grows _ _ _ P1)); lia|]. rewrite E2. eexists. reflexivity.
Qed.

Lemma deepcopy_terminates fuel : forall st r, pre st -> src r -> todo (snd st) <= fuel -> exists x, deepcopy fuel st r = Some x.
Proof.
  induction fuel as [|fuel IH]; intros [h m] r P S T; cbn [deepcopy]; cbn [snd] in T.
  - destruct r as [e|l]; [eexists; reflexivity|]. destruct (mget l m) as [l'|] eqn:E; [eexists; reflexivity|].
    destruct S as [c [GC NB]]. assert (Y := todo_cons m l 0 (nth_some _ _ _ GC) E). lia.
  - destruct r as [e|l]; [eexists; reflexivity|]. destruct (mget l m) as [l'|] eqn:E; [eexists; reflexivity|].
    destruct S as [c [GC NB]]. assert (L := nth_some _ _ _ GC). assert (PX := proj1 P). cbn [fst] in PX.
    rewrite (ext_nth _ _ _ PX L), GC.
    assert (TC := todo_cons m l (List.length h) L E).
    destruct c as [t d|xs|k s i w b|es].
    + assert (SR : forall r, In r (map snd d) -> src r) by (apply (src_refs l _ GC NB); intros; discriminate).
      destruct (copy_each_total _ _ fuel (deepcopy_post fuel) IH SR _ (pre_node h m l (CMap t []) P L)) as [[[h2 m2] rs] X]; [cbn [snd]; lia|].
      rewrite X. eexists. reflexivity.
    + assert (SR : forall r, In r xs -> src r) by (apply (src_refs l _ GC NB); intros; discriminate).
      destruct (copy_each_total _ _ fuel (deepcopy_post fuel) IH SR _ (pre_node h m l (CList []) P L)) as [[[h2 m2] rs] X]; [cbn [snd]; lia|].
      rewrite X. eexists. reflexivity.
    + destruct (arr_buf _ _ _ _ _ _ GC) as [es EB]. rewrite (ext_some _ _ _ _ PX EB). eexists. reflexivity.
    + destruct NB. exists es. exact GC.
Qed.

(** ** The copy of one object *)
Lemma pre_start : pre (h0, []).
Proof. split; [apply ext_refl|]. split; [intros l l' H; discriminate H|intros a b x H; discriminate H]. Qed.

Lemma copy_ok self : proper h0 (RLoc self) -> exists h l m, copy h0 self = Some (h, l) /\ post n0 (h0, []) (h, m) /\ mget self m = Some l.
Proof.
  intro PS. destruct (deepcopy_terminates (S n0) (h0, []) (RLoc self) pre_start PS) as [[[h m] r] E].
  { cbn [snd]. unfold todo. assert (Y := filter_le (fun _ => true) (fun l => match mget l [] with Some _ => false | None => true end) (seq 0 n0) (fun _ _ => eq_refl)).
    assert (Z : List.length (filter (fun _ : nat => true) (seq 0 n0)) = n0).
    { rewrite <- (seq_length n0 0) at 2. f_equal. generalize (seq 0 n0). intro q. induction q as [|y q IHq]; cbn [filter]; congruence. }
    lia. }
  destruct (deepcopy_post _ _ _ _ _ pre_start PS E) as [P M]. cbn [snd mref] in M. destruct r as [e|l]; [destruct M|].
  exists h, l, m. split; [unfold copy; rewrite E; reflexivity|]. split; [exact P|exact M].
Qed.

(** same content *)
Lemma observe_copy h m n : post n0 (h0, []) (h, m) -> forall r r', mref m r r' -> observe n h r' = observe n h0 r.
Proof.
  intros [X G M N R]. cbn [fst snd] in *. induction n as [|n IH]; intros r r' MR; destruct r as [e|l], r' as [e'|l']; cbn [mref] in MR; try contradiction MR; try reflexivity; try (subst e'; reflexivity).
  cbn [observe]. destruct (proj1 M l l' MR) as [L _]. destruct (N l l' MR eq_refl) as [_ [c [c' [GC [GC' MC]]]]].
  rewrite (ext_nth _ _ _ X L) in GC. rewrite GC, GC'.
  assert (OL : forall rs rs', Forall2 (mref m) rs rs' -> map (observe n h) rs' = map (observe n h0) rs)
    by (intros rs rs' F; induction F; cbn [map]; [reflexivity|]; f_equal; [apply IH; assumption|assumption]).
  destruct c as [t d|xs|k s i w b|es], c' as [t' d'|xs'|k' s' i' w' b'|es']; cbn [mcell] in MC; try destruct MC.
  - destruct H0 as [H0 F]. subst t'. f_equal. clear GC GC'. revert d' H0 F. induction d as [|[a b] d IHd]; intros [|[a' b'] d'] K F; cbn [map fst snd] in *; try discriminate K; try reflexivity.
    injection K as -> K. inversion F; subst. f_equal; [f_equal; apply IH; assumption|apply IHd; assumption].
  - reflexivity.
  - f_equal. apply OL. constructor; assumption.
  - destruct H0 as [<- [<- [_ [es [es' [E1 [E2 E3]]]]]]]. subst k'. rewrite E2.
    destruct (arr_buf _ _ _ _ _ _ GC) as [es0 EB]. rewrite EB. rewrite (ext_some _ _ _ _ X EB) in E1. injection E1 as ->. rewrite E3. reflexivity.
Qed.
End Base.

(** ** Programs *)
Lemma reach_lt h roots : wf_heap h -> (forall r, In r roots -> proper h r) -> forall l, reach h roots l -> l < List.length h.
Proof.
  intros WF P l RE. induction RE as [l I|l c l' RE IH G I].
  - destruct (P _ I) as [c [G _]]. exact (nth_some _ _ _ G).
  - assert (PC := WF l c G). destruct c; cbn [proper_cell refs_of] in PC, I.
    + destruct (PC _ I) as [c' [G' _]]. exact (nth_some _ _ _ G').
    + destruct (PC _ I) as [c' [G' _]]. exact (nth_some _ _ _ G').
    + destruct I as [I|[]]. injection I as ->. destruct PC as [es E]. exact (nth_some _ _ _ E).
    + destruct I.
Qed.

(** sets of locations of the two programs *)
Record apart (h : heap) (a b : list ref) (A B : nat -> Prop) : Prop := Apart {
  ap_a : forall l, In (RLoc l) a -> A l;
  ap_b : forall l, In (RLoc l) b -> B l;
  ap_disj : forall l, A l -> B l -> False;
  ap_lt : forall l, A l \/ B l -> l < List.length h;
  ap_ca : forall l c l', A l -> nth_error h l = Some c -> In (RLoc l') (refs_of c) -> A l';
  ap_cb : forall l c l', B l -> nth_error h l = Some c -> In (RLoc l') (refs_of c) -> B l' }.

Lemma apart_sym h a b A B : apart h a b A B -> apart h b a B A.
Proof. intros [H1 H2 H3 H4 H5 H6]. split; auto. - intros l X Y. exact (H3 l Y X). - intros l [X|X]; apply H4; auto. Qed.

Lemma apart_reach h a b A B l : apart h a b A B -> reach h a l -> A l.
Proof. intros P R. induction R as [l I|l c l' R IH G I]; [exact (ap_a _ _ _ _ _ P l I)|exact (ap_ca _ _ _ _ _ P l c l' IH G I)]. Qed.

Lemma apart_known h a b A B c l : apart h a b A B -> (forall r, In r (refs_of c) -> known h a r) -> In (RLoc l) (refs_of c) -> A l.
Proof. intros P K I. exact (apart_reach _ _ _ _ _ _ P (K _ I)). Qed.

(** a step of the first program keeps the programs apart and changes no cell
    of the second *)
Lemma apart_step h a b A B h' a' : apart h a b A B -> step h a h' a' ->
  (exists A', apart h' a' b A' B) /\ forall l, B l -> nth_error h' l = nth_error h l.
Proof.
  intros P S. destruct S as [r K|c K|l c RE K].
  - split; [|reflexivity]. exists A. destruct P as [H1 H2 H3 H4 H5 H6]. split; try assumption.
    intros l [->|I]; [|apply H1, I]. apply (apart_reach h a b A B); [split; assumption|exact K].
  - split.
    + exists (fun l => A l \/ l = List.length h). assert (KA := fun l => apart_known _ _ _ _ _ c l P K). destruct P as [H1 H2 H3 H4 H5 H6]. split.
      * intros l [I|I]; [injection I as <-; right; reflexivity|left; apply H1, I].
      * exact H2.
      * intros l [X| ->] Y; [exact (H3 l X Y)|]. assert (Z := H4 _ (or_intror Y)). lia.
      * intros l X. rewrite app_length. cbn [List.length]. destruct X as [[X| ->]|X]; [|lia|]; assert (Z := H4 l ltac:(auto)); lia.
      * intros l x l' [X| ->] G I.
        -- left. rewrite nth_error_app1 in G by (apply H4; auto). exact (H5 l x l' X G I).
        -- rewrite nth_error_app2, Nat.sub_diag in G by lia. injection G as <-. left. exact (KA l' I).
      * intros l x l' X G I. rewrite nth_error_app1 in G by (apply H4; auto). exact (H6 l x l' X G I).
    + intros l X. apply nth_error_app1. apply (ap_lt _ _ _ _ _ P). right. exact X.
  - assert (AL := apart_reach _ _ _ _ _ _ P RE).
    assert (KA := fun l => apart_known _ _ _ _ _ c l P K).
    assert (OB : forall x, B x -> nth_error (set_nth l c h) x = nth_error h x).
    { intros x X. apply set_nth_other. intros ->. exact (ap_disj _ _ _ _ _ P l AL X). }
    split; [|exact OB]. exists A. destruct P as [H1 H2 H3 H4 H5 H6]. split; try assumption.
    + intros x X. rewrite set_nth_length. apply H4, X.
    + intros x y l' X G I. destruct (Nat.eq_dec x l) as [->|N].
      * rewrite set_nth_same in G by (apply H4; auto). injection G as <-. exact (KA l' I).
      * rewrite set_nth_other in G by exact N. exact (H5 x y l' X G I).
    + intros x y l' X G I. rewrite OB in G by exact X. exact (H6 x y l' X G I).
Qed.

Lemma apart_run h a b h' a' b' : (exists A B, apart h a b A B) -> run h a b h' a' b' -> exists A B, apart h' a' b' A B.
Proof.
  intros X R. induction R as [|h1 a1 b1 h2 a2 R IH S|h1 a1 b1 h2 b2 R IH S]; [exact X| |].
  - destruct IH as [A [B P]]. destruct (apart_step _ _ _ _ _ _ _ P S) as [[A' P'] _]. eauto.
  - destruct IH as [A [B P]]. destruct (apart_step _ _ _ _ _ _ _ (apart_sym _ _ _ _ _ P) S) as [[A' P'] _].
    exists A, A'. apply apart_sym. exact P'.
Qed.

(** what is observed of objects whose cells did not change *)
Lemma observe_same n h h' b : (forall l, reach h b l -> nth_error h' l = nth_error h l) ->
  forall r, known h b r -> observe n h' r = observe n h r.
Proof.
  intro S. induction n as [|n IH]; intros [e|l] K; cbn [observe]; try reflexivity. cbn [known] in K. rewrite (S l K).
  destruct (nth_error h l) as [[t d|xs|k s i w bf|es]|] eqn:G; try reflexivity.
  - f_equal. apply map_ext_in. intros [x r] I. cbn [fst snd]. f_equal. apply IH. destruct r as [e|l']; [exact Logic.I|].
    eapply reach_next; [exact K|exact G|]. apply (in_map snd) in I. exact I.
  - f_equal. apply map_ext_in. intros r I. apply IH. destruct r as [e|l']; [exact Logic.I|]. eapply reach_next; [exact K|exact G|exact I].
  - rewrite (S bf); [reflexivity|]. eapply reach_next; [exact K|exact G|left; reflexivity].
Qed.

(** objects that existed before the copy on one side, the copy on the other *)
Lemma apart_copy h0 roots self h l : wf_heap h0 -> (forall r, In r roots -> proper h0 r) -> proper h0 (RLoc self) ->
  copy h0 self = Some (h, l) ->
  apart h roots [RLoc l] (fun x => x < List.length h0) (fun x => List.length h0 <= x /\ x < List.length h).
Proof.
  intros WF PR PS C. destruct (copy_ok h0 WF self PS) as [h1 [l1 [m [C1 [PO MG]]]]]. rewrite C in C1. injection C1 as <- <-.
  assert (LL := ext_length _ _ (po_ext _ _ _ PO)). cbn [fst] in LL. split.
  - intros x I. destruct (PR _ I) as [c [G _]]. exact (nth_some _ _ _ G).
  - intros x [I|[]]. injection I as <-. destruct (proj1 (po_memo _ _ _ PO) _ _ MG) as [_ Y]. exact Y.
  - intros x X Y. lia.
  - intros x X. lia.
  - intros x c l' X G I. assert (XT := po_ext _ _ _ PO). cbn [fst] in XT. rewrite (ext_nth _ _ _ XT X) in G.
    apply (reach_lt h0 [RLoc x] WF); [intros r [<-|[]]; exists c; split; [exact G|]|].
    + intros [es E]. rewrite G in E. injection E as ->. destruct I.
    + eapply reach_next; [apply reach_root; left; reflexivity|exact G|exact I].
  - intros x c l' [X1 X2] G I. exact (po_refs _ _ _ PO x c X1 G l' I).
Qed.
