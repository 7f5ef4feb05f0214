(** Facts about programs that work with several objects. *)
From Coq Require Import Lia.
From Verif Require Import Base NdArray Copy SpecCopy CopyFacts Alias SpecAlias BaseFacts AttrFacts OpFacts AddDelFacts AliasFacts.
Open Scope list_scope.
Open Scope nat_scope.

(** ** Well-formed memories *)
Record good (m : mem) : Prop := Good {
  g_wf : wf_heap (m_heap m);
  g_objs : forall i l, object m i l -> exists d, nth_error (m_heap m) l = Some (CMap TInstance d) /\ forall r, In r (map snd d) -> flat (m_heap m) r;
  g_held : forall j r, holds m j r -> proper (m_heap m) r /\ forall x t d, reach (m_heap m) [r] x -> nth_error (m_heap m) x <> Some (CMap t d) }.

Lemma is_array_ext h h' r : ext h h' -> is_array h r -> is_array h' r.
Proof. intros X [l [k [s [i [w [b [-> G]]]]]]]. exists l, k, s, i, w, b. split; [reflexivity|exact (ext_some _ _ _ _ X G)]. Qed.
Lemma flat_ext h h' r : ext h h' -> flat h r -> flat h' r.
Proof. intros X [F|F]; [left; exact F|right; exact (is_array_ext _ _ _ X F)]. Qed.
Lemma flat_proper h r : flat h r -> proper h r.
Proof.
  intros [[e ->]|[l [k [s [i [w [b [-> G]]]]]]]]; [exact I|]. eexists. split; [exact G|]. intros [es E]. rewrite G in E. discriminate E.
Qed.

Lemma object_proper m i l : good m -> object m i l -> proper (m_heap m) (RLoc l).
Proof. intros G O. destruct (g_objs m G i l O) as [d [GD _]]. eexists. split; [exact GD|]. intros [es E]. rewrite GD in E. discriminate E. Qed.

Lemma nth_app_cases {A} (l : list A) a i x : nth_error (l ++ [a]) i = Some x -> nth_error l i = Some x \/ i = List.length l /\ x = a.
Proof.
  intro H. destruct (Nat.lt_ge_cases i (List.length l)) as [L|L].
  - rewrite nth_error_app1 in H by exact L. auto.
  - rewrite nth_error_app2 in H by exact L. destruct (i - List.length l) as [|n] eqn:E; cbn in H.
    + injection H as <-. right. split; [lia|reflexivity].
    + destruct n; discriminate H.
Qed.

Lemma good_ext m h' : good m -> ext (m_heap m) h' -> wf_heap h' -> good (Mem h' (m_objs m) (m_held m)).
Proof.
  intros G X W. split; cbn [m_heap]; [exact W| |].
  - intros i l O. destruct (g_objs m G i l O) as [d [GD F]]. exists d. split; [exact (ext_some _ _ _ _ X GD)|].
    intros r I. exact (flat_ext _ _ _ X (F r I)).
  - intros j r H. destruct (g_held m G j r H) as [P K]. split; [exact (proper_ext _ _ _ X P)|].
    intros x t d R. rewrite (reach_ext _ _ _ (g_wf m G) P X) in R.
    rewrite (ext_nth _ _ _ X (reach_old _ _ _ (g_wf m G) P R)). exact (K x t d R).
Qed.

Lemma good_hold m r : good m -> proper (m_heap m) r -> (forall x t d, reach (m_heap m) [r] x -> nth_error (m_heap m) x <> Some (CMap t d)) ->
  good (Mem (m_heap m) (m_objs m) (m_held m ++ [r])).
Proof.
  intros G P K. split; cbn [m_heap]; [exact (g_wf m G)|exact (g_objs m G)|].
  intros j s H. apply nth_app_cases in H. destruct H as [H|[_ ->]]; [exact (g_held m G j s H)|auto].
Qed.
Lemma good_object m l d : good m -> nth_error (m_heap m) l = Some (CMap TInstance d) -> (forall r, In r (map snd d) -> flat (m_heap m) r) ->
  good (Mem (m_heap m) (m_objs m ++ [l]) (m_held m)).
Proof.
  intros G GD F. split; cbn [m_heap]; [exact (g_wf m G)| |exact (g_held m G)].
  intros j s H. apply nth_app_cases in H. destruct H as [H|[_ ->]]; [exact (g_objs m G j s H)|eauto].
Qed.

(** ** The operations *)
Lemma alloc_flat h v h' r : (forall l, v <> VList l) -> alloc h v = (h', r) -> flat h' r.
Proof.
  intros N H. destruct v as [b s|e|a|l]; [| | |destruct (N l eq_refl)]; injection H as <- <-.
  - left. eexists. reflexivity.
  - left. eexists. reflexivity.
  - right. eexists _, _, _, _, _, _. split; [reflexivity|]. rewrite nth_error_app2, Nat.sub_diag by lia. reflexivity.
Qed.

Lemma normalize_no_list v w : normalize v = Ok w -> forall l, w <> VList l.
Proof. intros H l ->. apply normalize_form in H. discriminate. Qed.

Lemma stored_cases h r h1 r1 : (forall l t d, r = RLoc l -> nth_error h l <> Some (CMap t d)) -> stored h r = Some (h1, r1) ->
  flat h1 r1 /\ grown h h1 /\ ((h1 = h /\ r1 = r) \/ (fresh h h1 r1 /\ ~ is_array h r)).
Proof.
  intros N H. destruct r as [e|l]; cbn [stored] in H.
  - injection H as <- <-. split; [left; eexists; reflexivity|]. split; [apply grown_refl|auto].
  - destruct (nth_error h l) as [[[|] d|rs|k s i w b|es]|] eqn:G; try discriminate H.
    + destruct (N l _ _ eq_refl G).
    + destruct (value_of _ h (RLoc l)) as [v|]; [|discriminate H]. destruct (normalize v) as [w|e] eqn:NV; [|discriminate H].
      injection H as H. destruct (alloc_grown w h h1 r1 H) as [GR F].
      split; [exact (alloc_flat _ _ _ _ (normalize_no_list v w NV) H)|]. split; [exact GR|]. right. split; [exact F|].
      intros [l' [k [s [i [m [b [E G']]]]]]]. injection E as <-. rewrite G in G'. discriminate G'.
    + injection H as <- <-. split; [right; exists l, k, s, i, w, b; auto|]. split; [apply grown_refl|auto].
Qed.

Lemma refs_dset name (r : ref) d x : In x (map snd (dset name r d)) -> x = r \/ In x (map snd d).
Proof.
  intro I. apply in_map_iff in I. destruct I as [[k y] [<- I]]. cbn [snd]. apply In_dset in I.
  destruct I as [E|I]; [injection E as <- <-; auto|]. right. apply in_map_iff. exists (k, y). auto.
Qed.
Lemma refs_ddel name (d : list (string * ref)) x : In x (map snd (ddel name d)) -> In x (map snd d).
Proof.
  intro I. apply in_map_iff in I. destruct I as [[k y] [<- I]]. cbn [snd]. apply In_ddel in I.
  apply in_map_iff. exists (k, y). split; [reflexivity|]. tauto.
Qed.

Lemma flat_set h l d c r : nth_error h l = Some (CMap TInstance d) -> flat h r -> flat (set_nth l c h) r.
Proof.
  intros G [F|[y [k [s [i [w [b [-> GY]]]]]]]]; [left; exact F|right]. exists y, k, s, i, w, b. split; [reflexivity|].
  rewrite set_nth_other; [exact GY|]. intros ->. rewrite G in GY. discriminate GY.
Qed.

(** the cell of an object is replaced *)
Lemma good_set m h1 l d d' : good m -> grown (m_heap m) h1 -> nth_error (m_heap m) l = Some (CMap TInstance d) ->
  (forall r, In r (map snd d') -> flat h1 r) -> good (Mem (set_nth l (CMap TInstance d') h1) (m_objs m) (m_held m)).
Proof.
  intros G GR GD F. assert (X := gr_ext _ _ GR). assert (G1 := ext_some _ _ _ _ X GD). assert (GE := good_ext m h1 G X (gr_wf _ _ GR (g_wf m G))).
  split; cbn [m_heap].
  - apply (wf_set h1 l (CMap TInstance d)); [exact (g_wf _ GE)|exact G1|exact I|exact I|]. intros r I. apply flat_proper, F, I.
  - intros i a O. destruct (Nat.eq_dec a l) as [->|N].
    + exists d'. split; [apply set_nth_same; exact (nth_some _ _ _ G1)|]. intros r I. exact (flat_set h1 l d _ r G1 (F r I)).
    + destruct (g_objs _ GE i a O) as [da [GA FA]]. cbn [m_heap] in GA, FA. exists da. split; [rewrite set_nth_other by exact N; exact GA|].
      intros r I. exact (flat_set h1 l d _ r G1 (FA r I)).
  - intros j r H. destruct (g_held _ GE j r H) as [P K]. cbn [m_heap] in P, K. split.
    + apply (proper_set h1 l (CMap TInstance d)); auto; exact I.
    + assert (S : forall x, reach h1 [r] x -> nth_error (set_nth l (CMap TInstance d') h1) x = nth_error h1 x).
      { intros x R. apply set_nth_other. intros ->. exact (K l _ _ R G1). }
      intros x t e R. rewrite (reach_same _ _ _ S) in R. rewrite (S x R). exact (K x t e R).
Qed.

Lemma reach_refs h h' roots : (forall x, option_map refs_of (nth_error h' x) = option_map refs_of (nth_error h x)) ->
  forall x, reach h' roots x <-> reach h roots x.
Proof.
  intro S. assert (D : forall h h' : heap, (forall x, option_map refs_of (nth_error h' x) = option_map refs_of (nth_error h x)) ->
    forall x, reach h' roots x -> reach h roots x).
  { clear. intros h h' S x R. induction R as [l I|l c l' R IH G I]; [apply reach_root, I|].
    assert (E := S l). rewrite G in E. cbn [option_map] in E. destruct (nth_error h l) as [c'|] eqn:G'; [|discriminate E].
    cbn [option_map] in E. injection E as E. rewrite E in I. exact (reach_next _ _ _ _ _ IH G' I). }
  intro x. split; [apply D, S|]. apply D. intro y. symmetry. apply S.
Qed.

Lemma refs_set_buf h l es es' : nth_error h l = Some (CBuf es) ->
  forall x, option_map refs_of (nth_error (set_nth l (CBuf es') h) x) = option_map refs_of (nth_error h x).
Proof.
  intros G x. destruct (Nat.eq_dec x l) as [->|N]; [|rewrite set_nth_other by exact N; reflexivity].
  rewrite set_nth_same by exact (nth_some _ _ _ G). rewrite G. reflexivity.
Qed.

Lemma good_write m l es es' : good m -> nth_error (m_heap m) l = Some (CBuf es) ->
  good (Mem (set_nth l (CBuf es') (m_heap m)) (m_objs m) (m_held m)).
Proof.
  intros G GL. assert (O : forall x c, nth_error (m_heap m) x = Some c -> not_buf c -> nth_error (set_nth l (CBuf es') (m_heap m)) x = Some c).
  { intros x c GX N. rewrite set_nth_other; [exact GX|]. intros ->. rewrite GL in GX. injection GX as <-. exact N. }
  split; cbn [m_heap].
  - exact (wf_set_buf _ _ _ _ (g_wf m G) GL).
  - intros i a OB. destruct (g_objs m G i a OB) as [d [GD F]]. exists d. split; [apply O; [exact GD|exact I]|].
    intros r IR. destruct (F r IR) as [[e ->]|[y [k [s [j [w [b [-> GY]]]]]]]]; [left; eexists; reflexivity|right].
    exists y, k, s, j, w, b. split; [reflexivity|]. apply O; [exact GY|exact I].
  - intros j r H. destruct (g_held m G j r H) as [P K]. split; [exact (proper_set_buf _ _ _ _ _ GL P)|].
    intros x t d R. rewrite (reach_refs _ _ _ (refs_set_buf _ _ _ es' GL)) in R. intro E.
    destruct (Nat.eq_dec x l) as [->|N]; [rewrite set_nth_same in E by exact (nth_some _ _ _ GL); discriminate E|].
    rewrite set_nth_other in E by exact N. exact (K x t d R E).
Qed.

Lemma In_replace_nth {A} n (a : A) l x : In x (replace_nth n a l) -> x = a \/ In x l.
Proof. revert n. induction l as [|y l IH]; intros [|n] I; cbn [replace_nth] in I; [auto|auto| |]; destruct I as [I|I]; cbn; try tauto; [left; auto|]. destruct (IH n I); tauto. Qed.

(** everything that can be reached from the held values *)
Definition held_part (m : mem) (x : nat) : Prop := exists j r, holds m j r /\ reach (m_heap m) [r] x.

Lemma put_part m l rs r : good m -> held_part m l -> nth_error (m_heap m) l = Some (CList rs) -> (exists k, holds m k r) ->
  forall pos j s x, holds m j s -> reach (set_nth l (CList (replace_nth pos r rs)) (m_heap m)) [s] x -> held_part m x.
Proof.
  intros G HL GL [k HK] pos j s x HS. apply (reach_closed _ _ (held_part m)).
  - intros y [I|[]]. exists j, s. split; [exact HS|]. apply reach_root. left. exact I.
  - intros y c z [j1 [s1 [H1 R1]]] GY I. destruct (Nat.eq_dec y l) as [->|N].
    + rewrite set_nth_same in GY by exact (nth_some _ _ _ GL). injection GY as <-. cbn [refs_of] in I. apply In_replace_nth in I. destruct I as [I|I].
      * exists k, r. split; [exact HK|]. rewrite <- I. apply reach_root. left. reflexivity.
      * exists j1, s1. split; [exact H1|]. exact (reach_next _ _ _ _ _ R1 GL I).
    + rewrite set_nth_other in GY by exact N. exists j1, s1. split; [exact H1|]. exact (reach_next _ _ _ _ _ R1 GY I).
Qed.

Lemma good_put m l rs r j pos : good m -> holds m j (RLoc l) -> nth_error (m_heap m) l = Some (CList rs) -> (exists k, holds m k r) ->
  good (Mem (set_nth l (CList (replace_nth pos r rs)) (m_heap m)) (m_objs m) (m_held m)).
Proof.
  intros G HL GL HR. set (c := CList (replace_nth pos r rs)).
  assert (HP : held_part m l) by (exists j, (RLoc l); split; [exact HL|apply reach_root; left; reflexivity]).
  assert (PT := put_part m l rs r G HP GL HR pos).
  split; cbn [m_heap].
  - apply (wf_set _ l (CList rs)); [exact (g_wf m G)|exact GL|exact I|exact I|]. intros x IX. cbn [c refs_of] in IX. apply In_replace_nth in IX.
    destruct IX as [->|IX]; [destruct HR as [k HK]; exact (proj1 (g_held m G k r HK))|exact (g_wf m G l _ GL x IX)].
  - intros i a O. destruct (g_objs m G i a O) as [d [GD F]]. exists d. split.
    + rewrite set_nth_other; [exact GD|]. intros ->. rewrite GL in GD. discriminate GD.
    + intros s IS. destruct (F s IS) as [[e ->]|[y [k [sh [ix [w [b [-> GY]]]]]]]]; [left; eexists; reflexivity|right].
      exists y, k, sh, ix, w, b. split; [reflexivity|]. rewrite set_nth_other; [exact GY|]. intros ->. rewrite GL in GY. discriminate GY.
  - intros i s H. destruct (g_held m G i s H) as [P K]. split; [apply (proper_set _ l (CList rs)); auto; exact I|].
    intros x t d R E. destruct (PT i s x H R) as [j1 [s1 [H1 R1]]].
    destruct (Nat.eq_dec x l) as [->|N]; [rewrite set_nth_same in E by exact (nth_some _ _ _ GL); discriminate E|].
    rewrite set_nth_other in E by exact N. exact (proj2 (g_held m G j1 s1 H1) x t d R1 E).
Qed.

(** the created object *)
Lemma alloc_each_grown d : forall h h' rs, alloc_each h d = Some (h', rs) -> grown h h' /\ forall r, In r (map snd rs) -> flat h' r /\ fresh h h' r.
Proof.
  induction d as [|[k v] d IH]; intros h h' rs H; cbn [alloc_each] in H; [injection H as <- <-; split; [apply grown_refl|intros r []]|].
  destruct (normalize v) as [w|e] eqn:NV; [|discriminate H]. destruct (alloc h w) as [h1 r1] eqn:E1.
  destruct (alloc_each h1 d) as [[h2 rs2]|] eqn:E2; [|discriminate H]. injection H as <- <-.
  destruct (alloc_grown w h h1 r1 E1) as [G1 F1]. destruct (IH h1 h2 rs2 E2) as [G2 F2]. split; [exact (grown_trans _ _ _ G1 G2)|].
  intros r [<-|I].
  - cbn [snd]. split; [exact (flat_ext _ _ _ (gr_ext _ _ G2) (alloc_flat _ _ _ _ (normalize_no_list v w NV) E1))|].
    split; [intro WF; exact (proper_ext _ _ _ (gr_ext _ _ G2) (proj1 F1 WF))|exact (proj2 F1)].
  - destruct (F2 r I) as [A [B C]]. split; [exact A|]. split; [intro WF; apply B, (gr_wf _ _ G1), WF|].
    intros x E. assert (Y := C x E). assert (Z := ext_length _ _ (gr_ext _ _ G1)). lia.
Qed.

Lemma create_ok h d h' l : create h d = Some (h', l) ->
  grown h h' /\ List.length h <= l /\ exists rs, nth_error h' l = Some (CMap TInstance rs) /\ forall r, In r (map snd rs) -> flat h' r.
Proof.
  unfold create. intro H. destruct (alloc_each h d) as [[h1 rs]|] eqn:E; [|discriminate H]. injection H as <- <-.
  destruct (alloc_each_grown d h h1 rs E) as [G F]. assert (X : ext h1 (h1 ++ [CMap TInstance rs])) by (exists [CMap TInstance rs]; reflexivity).
  split; [|split; [exact (ext_length _ _ (gr_ext _ _ G))|]].
  - apply grown_cell; [exact G| | |intros; discriminate].
    + intros r I. apply flat_proper. exact (proj1 (F r I)).
    + intros l I. exact (proj2 (proj2 (F _ I)) l eq_refl).
  - exists rs. split; [rewrite nth_error_app2, Nat.sub_diag by lia; reflexivity|]. intros r I. exact (flat_ext _ _ _ X (proj1 (F r I))).
Qed.

(** the copied object *)
Lemma copy_object h self d h' l : wf_heap h -> nth_error h self = Some (CMap TInstance d) -> (forall r, In r (map snd d) -> flat h r) ->
  copy h self = Some (h', l) ->
  grown h h' /\ List.length h <= l /\ exists rs, nth_error h' l = Some (CMap TInstance rs) /\ forall r, In r (map snd rs) -> flat h' r.
Proof.
  intros WF GD F C.
  assert (PS : proper h (RLoc self)) by (eexists; split; [exact GD|intros [es E]; rewrite GD in E; discriminate E]).
  destruct (copy_ok h WF self PS) as [h1 [l1 [m [C1 [PO MG]]]]]. rewrite C in C1. injection C1 as <- <-.
  assert (XT := po_ext _ _ _ PO). cbn [fst] in XT.
  split; [|split; [exact (proj1 (proj2 (proj1 (po_memo _ _ _ PO) _ _ MG)))|]].
  - split; [exact XT| |intros _; exact (copy_wf h WF self h' l PS C)].
    intros x c y L G I. exact (proj1 (po_refs _ _ _ PO x c L G y I)).
  - destruct (po_new _ _ _ PO self l MG eq_refl) as [_ [c [c' [G1 [G2 M]]]]]. cbn [fst snd] in *.
    rewrite (ext_some _ _ _ _ XT GD) in G1. injection G1 as <-.
    destruct c' as [t' d'|rs|k s i w b|es]; try destruct M as []. subst t'.
    exists d'. split; [exact G2|]. destruct H0 as [_ F2]. intros r' I.
    assert (K : exists r, In r (map snd d) /\ mref m r r').
    { clear -F2 I. induction F2 as [|a b p q AB F2 IH]; [destruct I|]. destruct I as [<-|I]; [exists a; split; [left; reflexivity|exact AB]|].
      destruct (IH I) as [r [I1 I2]]. exists r. split; [right; exact I1|exact I2]. }
    destruct K as [r [IR MR]]. destruct (F r IR) as [[e ->]|[y [k [s [i [w [b [-> GY]]]]]]]]; cbn [mref] in MR; destruct r' as [e'|y']; try contradiction; [left; eexists; reflexivity|].
    destruct (po_new _ _ _ PO y y' MR eq_refl) as [_ [c [c' [G3 [G4 M4]]]]]. cbn [fst snd] in *.
    rewrite (ext_some _ _ _ _ XT GY) in G3. injection G3 as <-. destruct c' as [|rs|k' s' i' w' b'|es]; try destruct M4 as [].
    right. exists y', k', s', i', w', b'. auto.
Qed.

(** ** Effects of the operations *)
Inductive effect (m : mem) : mop -> mem -> Prop :=
| ef_none op : effect m op m
| ef_new op h' l rs : (match op with ONew _ | OCopy _ => True | _ => False end) -> grown (m_heap m) h' -> List.length (m_heap m) <= l ->
    nth_error h' l = Some (CMap TInstance rs) -> (forall r, In r (map snd rs) -> flat h' r) ->
    effect m op (Mem h' (m_objs m ++ [l]) (m_held m))
| ef_value v h' r : grown (m_heap m) h' -> fresh (m_heap m) h' r ->
    (forall x t d, List.length (m_heap m) <= x -> nth_error h' x <> Some (CMap t d)) ->
    effect m (OValue v) (Mem h' (m_objs m) (m_held m ++ [r]))
| ef_view j shape sel l k s i w b idx : holds m j (RLoc l) -> nth_error (m_heap m) l = Some (CArr k s i w b) ->
    effect m (OView j shape sel) (Mem (m_heap m ++ [CArr k shape idx w b]) (m_objs m) (m_held m ++ [RLoc (List.length (m_heap m))]))
| ef_get i name l d r : object m i l -> nth_error (m_heap m) l = Some (CMap TInstance d) -> In r (map snd d) -> flat (m_heap m) r ->
    effect m (OGet i name) (Mem (m_heap m) (m_objs m) (m_held m ++ [r]))
| ef_assign i name j l r d h1 r1 : object m i l -> holds m j r -> nth_error (m_heap m) l = Some (CMap TInstance d) ->
    (forall s, In s (map snd d) -> flat (m_heap m) s) ->
    flat h1 r1 -> grown (m_heap m) h1 -> ((h1 = m_heap m /\ r1 = r) \/ (fresh (m_heap m) h1 r1 /\ ~ is_array (m_heap m) r)) ->
    effect m (OAssign i name j) (Mem (set_nth l (CMap TInstance (dset name r1 d)) h1) (m_objs m) (m_held m))
| ef_delete i name l d : object m i l -> nth_error (m_heap m) l = Some (CMap TInstance d) -> (forall s, In s (map snd d) -> flat (m_heap m) s) ->
    effect m (ODelete i name) (Mem (set_nth l (CMap TInstance (ddel name d)) (m_heap m)) (m_objs m) (m_held m))
| ef_write j pos e l k s i w b es es' : holds m j (RLoc l) -> nth_error (m_heap m) l = Some (CArr k s i w b) ->
    nth_error (m_heap m) b = Some (CBuf es) ->
    effect m (OWrite j pos e) (Mem (set_nth b (CBuf es') (m_heap m)) (m_objs m) (m_held m))
| ef_put j pos k l rs r : holds m j (RLoc l) -> holds m k r -> nth_error (m_heap m) l = Some (CList rs) ->
    effect m (OPut j pos k) (Mem (set_nth l (CList (replace_nth pos r rs)) (m_heap m)) (m_objs m) (m_held m)).

Lemma perform_effect m op : good m -> effect m op (perform m op).
Proof.
  intro G. destruct op as [d|v|j shape sel|i name|i name j|i name|i|j pos e|j pos k]; cbn [perform].
  - destruct (create (m_heap m) d) as [[h' l]|] eqn:C; [|apply ef_none].
    destruct (create_ok _ _ _ _ C) as [GR [L [rs [GD F]]]]. exact (ef_new m (ONew d) h' l rs I GR L GD F).
  - destruct (alloc (m_heap m) v) as [h' r] eqn:A. destruct (alloc_grown v _ _ _ A) as [GR F].
    apply ef_value; [exact GR|exact F|]. exact (alloc_kinds v _ _ _ A).
  - destruct (nth_error (m_held m) j) as [[e|l]|] eqn:H; try apply ef_none.
    destruct (nth_error (m_heap m) l) as [[]|] eqn:GL; try apply ef_none. exact (ef_view m j shape sel l _ _ _ _ _ _ H GL).
  - destruct (nth_error (m_objs m) i) as [l|] eqn:O; [|apply ef_none].
    destruct (g_objs m G i l O) as [d [GD F]]. rewrite GD. destruct (dget name d) as [r|] eqn:DG; [|apply ef_none].
    assert (IR : In r (map snd d)) by (apply dget_In in DG; apply (in_map snd) in DG; exact DG).
    exact (ef_get m i name l d r O GD IR (F r IR)).
  - destruct (nth_error (m_objs m) i) as [l|] eqn:O; [|apply ef_none].
    destruct (nth_error (m_held m) j) as [r|] eqn:H; [|apply ef_none].
    destruct (g_objs m G i l O) as [d [GD F]]. unfold assign. rewrite GD.
    destruct (stored (m_heap m) r) as [[h1 r1]|] eqn:ST; [|apply ef_none].
    destruct (stored_cases (m_heap m) r h1 r1) as [FL [GR CS]]; [|exact ST|].
    { intros y t e -> . destruct (g_held m G j _ H) as [_ K]. apply K. apply reach_root. left. reflexivity. }
    exact (ef_assign m i name j l r d h1 r1 O H GD F FL GR CS).
  - destruct (nth_error (m_objs m) i) as [l|] eqn:O; [|apply ef_none].
    destruct (g_objs m G i l O) as [d [GD F]]. unfold remove. rewrite GD. exact (ef_delete m i name l d O GD F).
  - destruct (nth_error (m_objs m) i) as [l|] eqn:O; [|apply ef_none].
    destruct (copy (m_heap m) l) as [[h' l']|] eqn:C; [|apply ef_none].
    destruct (g_objs m G i l O) as [d [GD F]]. destruct (copy_object _ _ _ _ _ (g_wf m G) GD F C) as [GR [L [rs [GD' F']]]].
    exact (ef_new m (OCopy i) h' l' rs I GR L GD' F').
  - destruct (nth_error (m_held m) j) as [[e0|l]|] eqn:H; try apply ef_none.
    destruct (nth_error (m_heap m) l) as [[| |k s i w b|]|] eqn:GL; try apply ef_none.
    destruct (nth_error (m_heap m) b) as [[| | |es]|] eqn:GB; try apply ef_none.
    destruct (nth_error i pos) as [p|]; [|apply ef_none]. exact (ef_write m j pos e l k s i w b es _ H GL GB).
  - destruct (nth_error (m_held m) j) as [[e0|l]|] eqn:H; try apply ef_none.
    destruct (nth_error (m_held m) k) as [r|] eqn:HK; [|apply ef_none].
    destruct (nth_error (m_heap m) l) as [[|rs| |]|] eqn:GL; try apply ef_none. exact (ef_put m j pos k l rs r H HK GL).
Qed.

Lemma set_flat d name r1 h h1 : (forall s, In s (map snd d) -> flat h s) -> ext h h1 -> flat h1 r1 ->
  forall s, In s (map snd (dset name r1 d)) -> flat h1 s.
Proof. intros F X FL s I. apply refs_dset in I. destruct I as [->|I]; [exact FL|exact (flat_ext _ _ _ X (F s I))]. Qed.

Lemma view_reach m l k s i w b idx shape : good m -> nth_error (m_heap m) l = Some (CArr k s i w b) ->
  let h' := m_heap m ++ [CArr k shape idx w b] in
  wf_heap h' /\ ext (m_heap m) h' /\ proper h' (RLoc (List.length (m_heap m))) /\
  forall x, reach h' [RLoc (List.length (m_heap m))] x -> x = List.length (m_heap m) \/ x = b.
Proof.
  intros G GL h'. assert (B := g_wf m G l _ GL). cbn [proper_cell] in B.
  assert (X : ext (m_heap m) h') by (eexists; reflexivity).
  assert (GN : nth_error h' (List.length (m_heap m)) = Some (CArr k shape idx w b)) by (unfold h'; rewrite nth_error_app2, Nat.sub_diag by lia; reflexivity).
  split; [|split; [exact X|split]].
  - apply (wf_ext (m_heap m)); [exact (g_wf m G)|exact X|]. intros x c L GX.
    assert (x = List.length (m_heap m)) by (apply nth_some in GX; unfold h' in GX; rewrite app_length in GX; cbn [List.length] in GX; lia). subst x.
    rewrite GN in GX. injection GX as <-. exact (buf_ext _ _ _ X B).
  - eexists. split; [exact GN|]. intros [es E]. rewrite GN in E. discriminate E.
  - intros x R. exact (reach_array h' _ _ _ _ _ _ x GN (buf_ext _ _ _ X B) R).
Qed.

Lemma perform_good m op : good m -> good (perform m op).
Proof.
  intro G. destruct (perform_effect m op G) as [op|op h' l rs OP GR L GD F|v h' r GR FR NK|j shape sel l k s i w b idx H GL|i name l d r O GD IR FL
    |i name j l r d h1 r1 O H GD F FL GR CS|i name l d O GD F|j pos e l k s i w b es es' H GL GB|j pos k l rs r H HK GL].
  - exact G.
  - exact (good_object (Mem h' (m_objs m) (m_held m)) l rs (good_ext m h' G (gr_ext _ _ GR) (gr_wf _ _ GR (g_wf m G))) GD F).
  - apply (good_hold (Mem h' (m_objs m) (m_held m)) r (good_ext m h' G (gr_ext _ _ GR) (gr_wf _ _ GR (g_wf m G)))).
    + exact (proj1 FR (g_wf m G)).
    + intros x t d R. exact (NK x t d (reach_new _ _ _ x GR (proj2 FR) R)).
  - destruct (view_reach m l k s i w b idx shape G GL) as [W [X [P RR]]].
    apply (good_hold (Mem _ (m_objs m) (m_held m)) (RLoc (List.length (m_heap m))) (good_ext m _ G X W)); [exact P|].
    cbn [m_heap]. intros x t d R E. destruct (RR x R) as [-> | ->].
    + rewrite nth_error_app2, Nat.sub_diag in E by lia. discriminate E.
    + assert (B := g_wf m G l _ GL). destruct B as [es B]. rewrite (ext_some _ _ _ _ X B) in E. discriminate E.
  - apply (good_hold m r G); [exact (flat_proper _ _ FL)|]. intros x t d' R E.
    destruct FL as [[e ->]|[y [k [s [ix [w [b [-> GY]]]]]]]]; [destruct (reach_one _ _ _ R) as [z EE]; discriminate EE|].
    assert (B := g_wf m G y _ GY). destruct (reach_array _ _ _ _ _ _ _ x GY B R) as [-> | ->].
    + rewrite GY in E. discriminate E.
    + destruct B as [es B]. rewrite B in E. discriminate E.
  - apply (good_set m h1 l d); try assumption. exact (set_flat d name r1 _ h1 F (gr_ext _ _ GR) FL).
  - apply (good_set m (m_heap m) l d); try assumption; [apply grown_refl|]. intros s I. apply F. exact (refs_ddel _ _ _ I).
  - exact (good_write m b es es' G GB).
  - exact (good_put m l rs r j pos G H GL (ex_intro _ k HK)).
Qed.

Lemma start_good : good start.
Proof.
  split; cbn [start m_heap].
  - intros l c G. destruct l; discriminate G.
  - intros i l O. destruct i; discriminate O.
  - intros i l O. destruct i; discriminate O.
Qed.

Lemma run_good m ops : good m -> good (perform_all m ops).
Proof. revert m. induction ops as [|op ops IH]; intros m G; [exact G|]. cbn. apply IH, perform_good, G. Qed.

(** ** Separation *)

(** a location that belongs to an object before the operation *)
Definition owns (m : mem) (k x : nat) : Prop := exists l, object m k l /\ reach (m_heap m) [RLoc l] x.

Lemma separate_owns m : separate m <-> forall i j x, owns m i x -> owns m j x -> i = j.
Proof.
  split.
  - intros S i j x [a [A RA]] [b [B RB]]. destruct (Nat.eq_dec i j) as [E|N]; [exact E|]. destruct (S i j a b N A B). exists x. auto.
  - intros U i j a b N A B [x [RA RB]]. apply N. apply (U i j x); [exists a|exists b]; auto.
Qed.

(** what an operation does to the parts of the objects: the parts of object [k]
    are old parts of [k], new locations, or parts of an assigned array *)
Lemma object_parts m op k : good m -> separate m ->
  forall x, owns (perform m op) k x -> x < List.length (m_heap m) ->
  owns m k x \/ exists name j r, op = OAssign k name j /\ holds m j r /\ is_array (m_heap m) r /\ reach (m_heap m) [r] x.
Proof.
  intros G SEP x. destruct (perform_effect m op G) as [op|op h' l rs OP GR L GD F|v h' r GR FR NK|j shape sel l kk s i w b idx H GL|i name l d r O GD IR FL
    |i name j l r d h1 r1 O H GD F FL GR CS|i name l d O GD F|j pos e l kk s i w b es es' H GL GB|j pos kk l rs r H HK GL]; intros [a [A R]] LX; cbn [m_heap] in R.
  - left. exists a. auto.
  - unfold object in A. cbn [m_objs] in A. apply nth_app_cases in A. destruct A as [A|[-> ->]].
    + left. exists a. split; [exact A|]. apply (reach_ext _ _ _ (g_wf m G) (object_proper m k a G A) (gr_ext _ _ GR)). exact R.
    + assert (Y : List.length (m_heap m) <= x) by (apply (reach_new _ _ (RLoc l) x GR); [intros y E; injection E as <-; exact L|exact R]). lia.
  - left. exists a. split; [exact A|]. apply (reach_ext _ _ _ (g_wf m G) (object_proper m k a G A) (gr_ext _ _ GR)). exact R.
  - left. exists a. split; [exact A|]. apply (reach_ext (m_heap m) (m_heap m ++ [CArr kk shape idx w b]) _ (g_wf m G) (object_proper m k a G A)); [eexists; reflexivity|exact R].
  - left. exists a. split; [exact A|exact R].
  - change (object m k a) in A. assert (X := gr_ext _ _ GR). assert (G1 := ext_some _ _ _ _ X GD).
    destruct (Nat.eq_dec k i) as [->|N].
    + unfold object in A, O. rewrite O in A. injection A as <-.
      assert (GS := good_set m h1 l d (dset name r1 d) G GR GD (set_flat d name r1 _ h1 F X FL)).
      destruct (g_objs _ GS i l O) as [d' [GD' F']]. cbn [m_heap] in GD', F'.
      assert (ED : d' = dset name r1 d) by (rewrite set_nth_same in GD' by exact (nth_some _ _ _ G1); injection GD' as <-; reflexivity). subst d'.
      destruct (reach_object _ _ _ x (g_wf _ GS) GD' F' R) as [->|[y [IY RY]]]; [left; exists l; split; [exact O|apply reach_root; left; reflexivity]|].
      assert (NI : forall z, reach h1 [y] z -> nth_error (set_nth l (CMap TInstance (dset name r1 d)) h1) z = nth_error h1 z).
      { intros z RZ. apply set_nth_other. intros ->. assert (FY := set_flat d name r1 _ h1 F X FL y IY).
        destruct FY as [[e ->]|[q [kq [sq [iq [wq [bq [-> GQ]]]]]]]]; [destruct (reach_one _ _ _ RZ) as [zz E]; discriminate E|].
        assert (B := gr_wf _ _ GR (g_wf m G) q _ GQ). destruct (reach_array _ _ _ _ _ _ _ l GQ B RZ) as [-> | ->].
        - rewrite G1 in GQ. discriminate GQ.
        - destruct B as [es B]. rewrite G1 in B. discriminate B. }
      rewrite (reach_same _ _ _ NI) in RY.
      apply refs_dset in IY. destruct IY as [->|IY].
      * destruct CS as [[-> ->]|[FRS _]].
        -- right. exists name, j, r. split; [reflexivity|]. split; [exact H|]. split; [|exact RY].
           destruct FL as [[e ->]|FA]; [destruct (reach_one _ _ _ RY) as [zz E]; discriminate E|exact FA].
        -- assert (Y := reach_new _ _ _ x GR (proj2 FRS) RY). lia.
      * left. exists l. split; [exact O|]. rewrite (reach_ext _ _ _ (g_wf m G) (flat_proper _ _ (F y IY)) X) in RY.
        destruct (reach_one _ _ _ RY) as [z ->]. apply (reach_via _ _ z); [|exact RY].
        eapply reach_next; [apply reach_root; left; reflexivity|exact GD|exact IY].
    + left. exists a. split; [exact A|].
      assert (NI : forall z, reach (m_heap m) [RLoc a] z -> nth_error (set_nth l (CMap TInstance (dset name r1 d)) h1) z = nth_error (m_heap m) z).
      { intros z RZ. rewrite set_nth_other; [exact (ext_nth _ _ _ X (reach_old _ _ _ (g_wf m G) (object_proper m k a G A) RZ))|].
        intros ->. apply (SEP k i a l N A O). exists l. split; [exact RZ|apply reach_root; left; reflexivity]. }
      rewrite (reach_same _ _ _ NI) in R. exact R.
  - change (object m k a) in A. left. exists a. split; [exact A|].
    destruct (Nat.eq_dec k i) as [->|N].
    + unfold object in A, O. rewrite O in A. injection A as <-.
      assert (GS := good_set m (m_heap m) l d (ddel name d) G (grown_refl _) GD (fun s I => F s (refs_ddel _ _ _ I))).
      destruct (g_objs _ GS i l O) as [d' [GD' F']]. cbn [m_heap] in GD', F'.
      assert (ED : d' = ddel name d) by (rewrite set_nth_same in GD' by exact (nth_some _ _ _ GD); injection GD' as <-; reflexivity). subst d'.
      destruct (reach_object _ _ _ x (g_wf _ GS) GD' F' R) as [->|[y [IY RY]]]; [apply reach_root; left; reflexivity|].
      apply refs_ddel in IY. assert (NI : forall z, reach (m_heap m) [y] z -> nth_error (set_nth l (CMap TInstance (ddel name d)) (m_heap m)) z = nth_error (m_heap m) z).
      { intros z RZ. apply set_nth_other. intros ->. 
        destruct (F y IY) as [[e ->]|[q [kq [sq [iq [wq [bq [-> GQ]]]]]]]]; [destruct (reach_one _ _ _ RZ) as [zz E]; discriminate E|].
        assert (B := g_wf m G q _ GQ). destruct (reach_array _ _ _ _ _ _ _ l GQ B RZ) as [-> | ->].
        - rewrite GD in GQ. discriminate GQ.
        - destruct B as [es B]. rewrite GD in B. discriminate B. }
      rewrite (reach_same _ _ _ NI) in RY. destruct (reach_one _ _ _ RY) as [z ->]. apply (reach_via _ _ z); [|exact RY].
      eapply reach_next; [apply reach_root; left; reflexivity|exact GD|exact IY].
    + assert (NI : forall z, reach (m_heap m) [RLoc a] z -> nth_error (set_nth l (CMap TInstance (ddel name d)) (m_heap m)) z = nth_error (m_heap m) z).
      { intros z RZ. apply set_nth_other. intros ->. apply (SEP k i a l N A O). exists l. split; [exact RZ|apply reach_root; left; reflexivity]. }
      rewrite (reach_same _ _ _ NI) in R. exact R.
  - change (object m k a) in A. left. exists a. split; [exact A|]. rewrite (reach_refs _ _ _ (refs_set_buf _ _ _ es' GB)) in R. exact R.
  - change (object m k a) in A. left. exists a. split; [exact A|]. destruct (g_objs m G k a A) as [d [GD F]].
    assert (NI : forall z, reach (m_heap m) [RLoc a] z -> nth_error (set_nth l (CList (replace_nth pos r rs)) (m_heap m)) z = nth_error (m_heap m) z).
    { intros z RZ. apply set_nth_other. intros ->. exact (reach_object_kind _ _ _ l (g_wf m G) GD F RZ rs GL). }
    rewrite (reach_same _ _ _ NI) in R. exact R.
Qed.

(** objects that the operation does not name keep their parts, and these parts keep
    their content unless the operation writes into an array *)
Lemma others_same m op k a : good m -> separate m -> object m k a -> ~ names op k ->
  (forall j pos e, op <> OWrite j pos e) ->
  object (perform m op) k a /\ forall x, reach (m_heap m) [RLoc a] x -> nth_error (m_heap (perform m op)) x = nth_error (m_heap m) x.
Proof.
  intros G SEP A NM NW.
  assert (EX : forall h', ext (m_heap m) h' -> forall x, reach (m_heap m) [RLoc a] x -> nth_error h' x = nth_error (m_heap m) x).
  { intros h' X x R. exact (ext_nth _ _ _ X (reach_old _ _ _ (g_wf m G) (object_proper m k a G A) R)). }
  assert (OTH : forall h1 l c i, ext (m_heap m) h1 -> object m i l -> k <> i -> forall x, reach (m_heap m) [RLoc a] x -> nth_error (set_nth l c h1) x = nth_error (m_heap m) x).
  { intros h1 l c i X O N x R. rewrite set_nth_other; [exact (EX h1 X x R)|]. intros ->. apply (SEP k i a l N A O).
    exists l. split; [exact R|apply reach_root; left; reflexivity]. }
  destruct (perform_effect m op G) as [op|op h' l rs OP GR L GD F|v h' r GR FR NK|j shape sel l kk s i w b idx H GL|i name l d r O GD IR FL
    |i name j l r d h1 r1 O H GD F FL GR CS|i name l d O GD F|j pos e l kk s i w b es es' H GL GB|j pos kk l rs r H HK GL]; cbn [m_heap].
  - split; [exact A|reflexivity].
  - split; [|exact (EX h' (gr_ext _ _ GR))]. unfold object. cbn [m_objs]. rewrite nth_error_app1 by exact (nth_some _ _ _ A). exact A.
  - split; [exact A|exact (EX h' (gr_ext _ _ GR))].
  - split; [exact A|]. apply EX. eexists. reflexivity.
  - split; [exact A|reflexivity].
  - split; [exact A|]. apply (OTH h1 l _ i (gr_ext _ _ GR) O). intros ->. apply NM. reflexivity.
  - split; [exact A|]. apply (OTH (m_heap m) l _ i (ext_refl _) O). intros ->. apply NM. reflexivity.
  - destruct (NW j pos e eq_refl).
  - split; [exact A|]. intros x R. apply set_nth_other. intros ->. destruct (g_objs m G k a A) as [d [GD F]].
    exact (reach_object_kind _ _ _ l (g_wf m G) GD F R rs GL).
Qed.

Lemma write_cases m j pos e : perform m (OWrite j pos e) = m \/
  exists l k s i w b es es', holds m j (RLoc l) /\ nth_error (m_heap m) l = Some (CArr k s i w b) /\ nth_error (m_heap m) b = Some (CBuf es) /\
    perform m (OWrite j pos e) = Mem (set_nth b (CBuf es') (m_heap m)) (m_objs m) (m_held m).
Proof.
  cbn [perform]. destruct (nth_error (m_held m) j) as [[e0|l]|] eqn:H; try (left; reflexivity).
  destruct (nth_error (m_heap m) l) as [[| |k s i w b|]|] eqn:GL; try (left; reflexivity).
  destruct (nth_error (m_heap m) b) as [[| | |es]|] eqn:GB; try (left; reflexivity).
  destruct (nth_error i pos) as [p|]; [|left; reflexivity]. right. exists l, k, s, i, w, b, es. eexists. auto.
Qed.

Lemma new_owner m op k x : good m -> separate m -> owns (perform m op) k x -> List.length (m_heap m) <= x ->
  names op k \/ ((match op with ONew _ | OCopy _ => True | _ => False end) /\ k = List.length (m_objs m)).
Proof.
  intros G SEP OW LX. 
  assert (WR : (exists j pos e, op = OWrite j pos e) \/ forall j pos e, op <> OWrite j pos e).
  { destruct op; try (right; intros ? ? ? E; discriminate E). left. eauto. }
  destruct WR as [[j [pos [e ->]]]|NW].
  - exfalso. destruct OW as [a [A R]]. destruct (write_cases m j pos e) as [E|[l [kk [s [i [w [b [es [es' [H [GL [GB E]]]]]]]]]]]]; rewrite E in A, R.
    + assert (Y := reach_old _ _ _ (g_wf m G) (object_proper m k a G A) R). lia.
    + cbn [m_heap] in R. rewrite (reach_refs _ _ _ (refs_set_buf _ _ _ es' GB)) in R.
      assert (Y := reach_old _ _ _ (g_wf m G) (object_proper m k a G A) R). lia.
  - destruct OW as [a [A R]].
    assert (NMD : names op k \/ ~ names op k).
    { destruct op; cbn [names]; try tauto; match goal with |- ?i = k \/ _ => destruct (Nat.eq_dec i k); tauto end. }
    destruct NMD as [NM|NM]; [left; exact NM|]. right.
    destruct (nth_error (m_objs m) k) as [b|] eqn:OK.
    + exfalso. destruct (others_same m op k b G SEP OK NM NW) as [OB SAME]. unfold object in A, OB. rewrite OB in A. injection A as <-.
      rewrite (reach_same _ _ _ SAME) in R. assert (Y := reach_old _ _ _ (g_wf m G) (object_proper m k b G OK) R). lia.
    + destruct (perform_effect m op G); unfold object in A; cbn [m_objs] in A; try (rewrite OK in A; discriminate A).
      split; [assumption|]. apply nth_app_cases in A. destruct A as [A|[-> _]]; [rewrite OK in A; discriminate A|reflexivity].
Qed.

(** careful operations keep the objects apart *)
Lemma separate_step m op : good m -> separate m -> careful m op -> separate (perform m op).
Proof.
  intros G SEP CA. apply separate_owns. intros i j x OI OJ. 
  destruct (Nat.lt_ge_cases x (List.length (m_heap m))) as [L|L].
  - assert (PI := object_parts m op i G SEP x OI L). assert (PJ := object_parts m op j G SEP x OJ L).
    assert (U := proj1 (separate_owns m) SEP).
    destruct PI as [PI|[name [h [r [-> [H [AR R]]]]]]], PJ as [PJ|[name' [h' [r' [E [H' [AR' R']]]]]]].
    + exact (U i j x PI PJ).
    + subst op. cbn [careful] in CA. destruct PI as [a [A RA]]. destruct (Nat.eq_dec i j) as [EE|N]; [exact EE|].
      destruct (CA i a r' N A H' AR'). exists x. auto.
    + cbn [careful] in CA. destruct PJ as [a [A RA]]. destruct (Nat.eq_dec i j) as [EE|N]; [exact EE|].
      destruct (CA j a r (not_eq_sym N) A H AR). exists x. auto.
    + injection E as <- _ _. reflexivity.
  - destruct (new_owner m op i x G SEP OI L) as [NI|[OI' ->]], (new_owner m op j x G SEP OJ L) as [NJ|[OJ' ->]]; [|destruct op; contradiction|destruct op; contradiction|reflexivity].
    destruct op; cbn [names] in NI, NJ; try contradiction; congruence.
Qed.

Lemma separate_start : separate start.
Proof. intros i j a b _ A. destruct i; discriminate A. Qed.

Lemma careful_good m ops m' : careful_run m ops m' -> good m -> separate m -> good m' /\ separate m' /\ m' = perform_all m ops.
Proof.
  intro R. induction R as [m|m op ops m' CA R IH]; intros G SEP; [split; [exact G|split; [exact SEP|reflexivity]]|].
  destruct (IH (perform_good m op G) (separate_step m op G SEP CA)) as [G' [S' E]]. split; [exact G'|split; [exact S'|exact E]].
Qed.

Lemma kept_of_same m m' k : (forall a, object m k a -> object m' k a /\ forall x, reach (m_heap m) [RLoc a] x -> nth_error (m_heap m') x = nth_error (m_heap m) x) ->
  content_kept m m' k.
Proof.
  intros H a A. destruct (H a A) as [A' SAME]. split; [exact A'|]. intro n. exact (observe_kept _ _ _ n SAME).
Qed.

(** an operation changes the content of one object at most *)
Lemma one_object m op : good m -> separate m ->
  (forall k, ~ names op k -> (forall j pos e, op <> OWrite j pos e) -> content_kept m (perform m op) k) /\
  forall j pos e, op = OWrite j pos e -> forall k r, holds m j r ->
    (forall a, object m k a -> ~ shares (m_heap m) (RLoc a) r) -> content_kept m (perform m op) k.
Proof.
  intros G SEP. split.
  - intros k NM NW. apply kept_of_same. intros a A. exact (others_same m op k a G SEP A NM NW).
  - intros j pos e -> k r HR NS. apply kept_of_same. intros a A. specialize (NS a A).
    destruct (write_cases m j pos e) as [E|[l [kk [s [i [w [b [es [es' [H [GL [GB E]]]]]]]]]]]]; rewrite E; [split; [exact A|reflexivity]|].
    split; [exact A|]. cbn [m_heap]. intros x R. apply set_nth_other. intros ->. apply NS. unfold holds in HR, H. rewrite HR in H. injection H as ->.
    exists b. split; [exact R|]. eapply reach_next; [apply reach_root; left; reflexivity|exact GL|left; reflexivity].
Qed.

Lemma find_owner m b : good m -> (exists i, owns m i b) \/ forall i, ~ owns m i b.
Proof.
  intro G. assert (D : forall os, (forall l, In l os -> In l (m_objs m)) -> (exists l, In l os /\ reach (m_heap m) [RLoc l] b) \/ forall l, In l os -> ~ reach (m_heap m) [RLoc l] b).
  { induction os as [|l os IH]; intro SUB; [right; intros l []|].
    assert (IL := SUB l (or_introl eq_refl)). apply In_nth_error in IL. destruct IL as [i O]. destruct (g_objs m G i l O) as [d [GD F]].
    destruct (reach_object_dec _ _ _ b (g_wf m G) GD F) as [R|NR]; [left; exists l; split; [left; reflexivity|exact R]|].
    destruct (IH (fun x I => SUB x (or_intror I))) as [[y [IY RY]]|NY]; [left; exists y; split; [right; exact IY|exact RY]|].
    right. intros y [<-|IY]; [exact NR|exact (NY y IY)]. }
  destruct (D (m_objs m) (fun l I => I)) as [[l [IL R]]|N].
  - left. apply In_nth_error in IL. destruct IL as [i O]. exists i, l. auto.
  - right. intros i [l [O R]]. exact (N l (nth_error_In _ _ O) R).
Qed.

Lemma one_write m j pos e : good m -> separate m -> exists i, forall k, k <> i -> content_kept m (perform m (OWrite j pos e)) k.
Proof.
  intros G SEP. destruct (write_cases m j pos e) as [E|[l [kk [s [i [w [b [es [es' [H [GL [GB E]]]]]]]]]]]]; rewrite E.
  - exists 0. intros k _. apply kept_of_same. intros a A. split; [exact A|reflexivity].
  - assert (K : forall k, ~ owns m k b -> content_kept m (Mem (set_nth b (CBuf es') (m_heap m)) (m_objs m) (m_held m)) k).
    { intros k NO. apply kept_of_same. intros a A. split; [exact A|]. cbn [m_heap]. intros x R. apply set_nth_other. intros ->. apply NO. exists a. auto. }
    destruct (find_owner m b G) as [[o OW]|NO].
    + exists o. intros k N. apply K. intro OK. apply N. exact (proj1 (separate_owns m) SEP k o b OK OW).
    + exists 0. intros k _. apply K, NO.
Qed.

(** ** Objects whose data are not held *)

Lemma hidden_owns m i : hidden m i <-> forall x, owns m i x -> ~ held_part m x.
Proof.
  split.
  - intros HI x [a [A R]] [j [r [HR RR]]]. apply (HI a j r A HR). exists x. auto.
  - intros N a j r A HR [x [R RR]]. apply (N x); [exists a; auto|exists j, r; auto].
Qed.

(** what the program holds after an operation was held before, is new, or
    is part of an object from which it is taken *)
Lemma held_parts m op x : good m -> separate m -> held_part (perform m op) x -> x < List.length (m_heap m) ->
  held_part m x \/ exists k name, op = OGet k name /\ owns m k x.
Proof.
  intros G SEP. destruct (perform_effect m op G) as [op|op h' l rs OP GR L GD F|v h' r GR FR NK|j shape sel l kk s i w b idx H GL|i name l d r O GD IR FL
    |i name j l r d h1 r1 O H GD F FL GR CS|i name l d O GD F|j pos e l kk s i w b es es' H GL GB|j pos kk l rs r H HK GL]; intros [y [t [HY R]]] LX; cbn [m_heap] in R;
    unfold holds in HY; cbn [m_held] in HY.
  - left. exists y, t. auto.
  - left. exists y, t. split; [exact HY|]. apply (reach_ext _ _ _ (g_wf m G) (proj1 (g_held m G y t HY)) (gr_ext _ _ GR)). exact R.
  - apply nth_app_cases in HY. destruct HY as [HY|[_ ->]].
    + left. exists y, t. split; [exact HY|]. apply (reach_ext _ _ _ (g_wf m G) (proj1 (g_held m G y t HY)) (gr_ext _ _ GR)). exact R.
    + assert (Y := reach_new _ _ _ x GR (proj2 FR) R). lia.
  - apply nth_app_cases in HY. destruct (view_reach m l kk s i w b idx shape G GL) as [W [X [P RR]]]. destruct HY as [HY|[_ ->]].
    + left. exists y, t. split; [exact HY|]. apply (reach_ext _ _ _ (g_wf m G) (proj1 (g_held m G y t HY)) X). exact R.
    + left. destruct (RR x R) as [-> | ->]; [lia|]. exists j, (RLoc l). split; [exact H|].
      eapply reach_next; [apply reach_root; left; reflexivity|exact GL|left; reflexivity].
  - apply nth_app_cases in HY. destruct HY as [HY|[_ ->]]; [left; exists y, t; auto|].
    right. exists i, name. split; [reflexivity|]. exists l. split; [exact O|]. destruct (reach_one _ _ _ R) as [z ->].
    apply (reach_via _ _ z); [|exact R]. eapply reach_next; [apply reach_root; left; reflexivity|exact GD|exact IR].
  - left. exists y, t. split; [exact HY|]. assert (X := gr_ext _ _ GR).
    assert (NI : forall z, reach (m_heap m) [t] z -> nth_error (set_nth l (CMap TInstance (dset name r1 d)) h1) z = nth_error (m_heap m) z).
    { intros z RZ. rewrite set_nth_other; [exact (ext_nth _ _ _ X (reach_old _ _ _ (g_wf m G) (proj1 (g_held m G y t HY)) RZ))|].
      intros ->. exact (proj2 (g_held m G y t HY) _ _ _ RZ GD). }
    rewrite (reach_same _ _ _ NI) in R. exact R.
  - left. exists y, t. split; [exact HY|].
    assert (NI : forall z, reach (m_heap m) [t] z -> nth_error (set_nth l (CMap TInstance (ddel name d)) (m_heap m)) z = nth_error (m_heap m) z).
    { intros z RZ. apply set_nth_other. intros ->. exact (proj2 (g_held m G y t HY) _ _ _ RZ GD). }
    rewrite (reach_same _ _ _ NI) in R. exact R.
  - left. exists y, t. split; [exact HY|]. rewrite (reach_refs _ _ _ (refs_set_buf _ _ _ es' GB)) in R. exact R.
  - left. assert (HL : held_part m l) by (exists j, (RLoc l); split; [exact H|apply reach_root; left; reflexivity]).
    exact (put_part m l rs r G HL GL (ex_intro _ kk HK) pos y t x HY R).
Qed.

Lemma held_new m op x : good m -> separate m -> held_part (perform m op) x -> List.length (m_heap m) <= x ->
  (exists v, op = OValue v) \/ exists j shape sel, op = OView j shape sel.
Proof.
  intros G SEP. destruct (perform_effect m op G) as [op|op h' l rs OP GR L GD F|v h' r GR FR NK|j shape sel l kk s i w b idx H GL|i name l d r O GD IR FL
    |i name j l r d h1 r1 O H GD F FL GR CS|i name l d O GD F|j pos e l kk s i w b es es' H GL GB|j pos kk l rs r H HK GL]; intros [y [t [HY R]]] LX; cbn [m_heap] in R;
    unfold holds in HY; cbn [m_held] in HY.
  - assert (Y := reach_old _ _ _ (g_wf m G) (proj1 (g_held m G y t HY)) R). lia.
  - rewrite (reach_ext _ _ _ (g_wf m G) (proj1 (g_held m G y t HY)) (gr_ext _ _ GR)) in R.
    assert (Y := reach_old _ _ _ (g_wf m G) (proj1 (g_held m G y t HY)) R). lia.
  - left. eauto.
  - right. eauto.
  - apply nth_app_cases in HY. destruct HY as [HY|[_ ->]].
    + assert (Y := reach_old _ _ _ (g_wf m G) (proj1 (g_held m G y t HY)) R). lia.
    + assert (Y := reach_old _ _ _ (g_wf m G) (flat_proper _ _ FL) R). lia.
  - assert (X := gr_ext _ _ GR).
    assert (NI : forall z, reach (m_heap m) [t] z -> nth_error (set_nth l (CMap TInstance (dset name r1 d)) h1) z = nth_error (m_heap m) z).
    { intros z RZ. rewrite set_nth_other; [exact (ext_nth _ _ _ X (reach_old _ _ _ (g_wf m G) (proj1 (g_held m G y t HY)) RZ))|].
      intros ->. exact (proj2 (g_held m G y t HY) _ _ _ RZ GD). }
    rewrite (reach_same _ _ _ NI) in R. assert (Y := reach_old _ _ _ (g_wf m G) (proj1 (g_held m G y t HY)) R). lia.
  - assert (NI : forall z, reach (m_heap m) [t] z -> nth_error (set_nth l (CMap TInstance (ddel name d)) (m_heap m)) z = nth_error (m_heap m) z).
    { intros z RZ. apply set_nth_other. intros ->. exact (proj2 (g_held m G y t HY) _ _ _ RZ GD). }
    rewrite (reach_same _ _ _ NI) in R. assert (Y := reach_old _ _ _ (g_wf m G) (proj1 (g_held m G y t HY)) R). lia.
  - rewrite (reach_refs _ _ _ (refs_set_buf _ _ _ es' GB)) in R. assert (Y := reach_old _ _ _ (g_wf m G) (proj1 (g_held m G y t HY)) R). lia.
  - assert (HL : held_part m l) by (exists j, (RLoc l); split; [exact H|apply reach_root; left; reflexivity]).
    destruct (put_part m l rs r G HL GL (ex_intro _ kk HK) pos y t x HY R) as [jj [rr [HJ RJ]]].
    assert (Y := reach_old _ _ _ (g_wf m G) (proj1 (g_held m G jj rr HJ)) RJ). lia.
Qed.

Lemma hidden_step m op i : good m -> separate m -> careful m op -> discreet i m op -> hidden m i -> hidden (perform m op) i.
Proof.
  intros G SEP CA DI HI. rewrite hidden_owns in HI. apply hidden_owns. intros x OW HP.
  destruct (Nat.lt_ge_cases x (List.length (m_heap m))) as [L|L].
  - destruct (held_parts m op x G SEP HP L) as [HP0|[k [name [-> OK]]]].
    + destruct (object_parts m op i G SEP x OW L) as [OW0|[name [j [r [-> [H [AR R]]]]]]]; [exact (HI x OW0 HP0)|].
      exact (DI eq_refl r H AR).
    + cbn [discreet] in DI. destruct (object_parts m (OGet k name) i G SEP x OW L) as [OW0|[nm [j [r [E _]]]]]; [|discriminate E].
      apply DI. exact (proj1 (separate_owns m) SEP k i x OK OW0).
  - destruct (held_new m op x G SEP HP L) as [[v ->]|[j [shape [sel ->]]]]; destruct (new_owner m _ i x G SEP OW L) as [N|[N _]]; contradiction.
Qed.

(** a new object is not held by the program and shares nothing with the others *)
Lemma new_hidden m op : good m -> separate m -> (match op with ONew _ | OCopy _ => True | _ => False end) ->
  hidden (perform m op) (List.length (m_objs m)).
Proof.
  intros G SEP OP. apply hidden_owns. intros x OW HP.
  destruct (Nat.lt_ge_cases x (List.length (m_heap m))) as [L|L].
  - destruct (object_parts m op _ G SEP x OW L) as [[a [A _]]|[nm [j [r [-> _]]]]]; [|contradiction].
    apply nth_some in A. lia.
  - destruct (held_new m op x G SEP HP L) as [[v ->]|[j [shape [sel ->]]]]; contradiction.
Qed.

(** a hidden object changes only by the operations that name it *)
Lemma hidden_kept m op i : good m -> separate m -> hidden m i -> ~ names op i -> content_kept m (perform m op) i.
Proof.
  intros G SEP HI NM. destruct (one_object m op G SEP) as [K1 K2].
  destruct op; try (apply K1; [exact NM|intros ? ? ? E; discriminate E]).
  destruct (nth_error (m_held m) j) as [r|] eqn:H.
  - apply (K2 j pos e eq_refl i r H). intros a A. exact (HI a j r A H).
  - cbn [perform]. rewrite H. apply kept_of_same. intros a A. split; [exact A|reflexivity].
Qed.

(** ** Values of the entries *)
Lemma pick_all es : pick es (seq 0 (List.length es)) = es.
Proof.
  unfold pick. induction es as [|e es IH]; [reflexivity|]. cbn [List.length seq map nth]. f_equal.
  rewrite <- seq_shift, map_map. exact IH.
Qed.

Lemma normalize_no_text v w : (forall s, v <> VScal (EStr s)) -> normalize v = Ok w -> forall s, w <> VScal (EStr s).
Proof.
  intros NV H s ->. unfold normalize in H. destruct v as [b t|e|a|l]; try discriminate H.
  - cbn in H. destruct e; discriminate H.
  - destruct (np_array (VList l)) as [a|x]; [|discriminate H]. cbn [rbind] in H.
    destruct (Nat.eqb _ 1); [|discriminate H]. destruct (a_data _) as [|e es]; [discriminate H|]. destruct e; discriminate H.
Qed.

Lemma value_of_alloc h w h' r : (forall l, w <> VList l) -> (forall s, w <> VScal (EStr s)) -> alloc h w = (h', r) ->
  exists w', value_of 1 h' r = Some w' /\ same_value w w'.
Proof.
  intros N NT H. destruct w as [b s|e|a|l]; [| | |destruct (N l eq_refl)]; injection H as <- <-.
  - exists (VStr false s). split; [reflexivity|]. right. exists b, false, s. auto.
  - exists (VScal e). split; [|left; reflexivity]. destruct e; try reflexivity. destruct (NT s eq_refl).
  - exists (VArr a). split; [|left; reflexivity]. cbn [value_of].
    assert (B : forall c1 c2 : cell, nth_error (h ++ [c1; c2]) (List.length h) = Some c1 /\ nth_error (h ++ [c1; c2]) (S (List.length h)) = Some c2).
    { intros c1 c2. split; rewrite nth_error_app2 by lia; [rewrite Nat.sub_diag|replace (S (List.length h) - List.length h) with 1 by lia]; reflexivity. }
    destruct (B (CArr (a_kind a) (a_shape a) (seq 0 (List.length (a_data a))) (a_mask a) (S (List.length h))) (CBuf (a_data a))) as [B1 B2].
    rewrite B1, B2, pick_all. destruct a. reflexivity.
Qed.

Lemma value_of_kept n : forall h h' r, (forall x, reach h [r] x -> nth_error h' x = nth_error h x) -> value_of n h' r = value_of n h r.
Proof.
  induction n as [|n IH]; intros h h' r SM; (destruct r as [e|l]; [reflexivity|]); [reflexivity|]. cbn [value_of].
  rewrite (SM l) by (apply reach_root; left; reflexivity). destruct (nth_error h l) as [[t d|rs|k s ix w b|es]|] eqn:G; try reflexivity.
  - f_equal. assert (K : forall r, In r rs -> value_of n h' r = value_of n h r).
    { intros r I. apply IH. intros x R. apply SM. destruct (reach_one _ _ _ R) as [z ->]. apply (reach_via _ _ z); [|exact R].
      eapply reach_next; [apply reach_root; left; reflexivity|exact G|exact I]. }
    clear G SM. induction rs as [|r rs IHr]; [reflexivity|]. rewrite (K r (or_introl eq_refl)), IHr by (intros y I; apply K; right; exact I). reflexivity.
  - rewrite (SM b); [reflexivity|]. eapply reach_next; [apply reach_root; left; reflexivity|exact G|left; reflexivity].
Qed.

Lemma stored_value h r v w : wf_heap h -> proper h r -> (forall l t d, r = RLoc l -> nth_error h l <> Some (CMap t d)) ->
  value_of (S (List.length h)) h r = Some v -> normalize v = Ok w ->
  exists h1 r1, stored h r = Some (h1, r1) /\ exists w', value_of 1 h1 r1 = Some w' /\ same_value w w'.
Proof.
  intros WF P NM V NV. destruct r as [e|l].
  - exists h, (RAtom e). split; [reflexivity|]. destruct e; cbn [value_of] in V; injection V as <-; cbn in NV; injection NV as <-;
      (eexists; split; [reflexivity|left; reflexivity]).
  - cbn [stored]. destruct (nth_error h l) as [[t d|rs|k s ix m b|es]|] eqn:G.
    + destruct (NM l t d eq_refl G).
    + rewrite V, NV. destruct (alloc h w) as [h1 r1] eqn:A. exists h1, r1. split; [reflexivity|].
      assert (NS : forall s, v <> VScal (EStr s)).
      { intros s ->. cbn [value_of] in V. rewrite G in V. match type of V with option_map _ ?o = _ => destruct o; discriminate V end. }
      exact (value_of_alloc h w h1 r1 (normalize_no_list _ _ NV) (normalize_no_text _ _ NS NV) A).
    + exists h, (RLoc l). split; [reflexivity|]. cbn [value_of] in V |- *. rewrite G in V |- *.
      destruct (nth_error h b) as [[| | |es]|]; try discriminate V. injection V as <-. cbn in NV. injection NV as <-. eexists. split; [reflexivity|left; reflexivity].
    + cbn [value_of] in V. rewrite G in V. discriminate V.
    + cbn [value_of] in V. rewrite G in V. discriminate V.
Qed.

Lemma assigned_value m i name j r v w l : good m -> object m i l -> holds m j r ->
  value_of (S (List.length (m_heap m))) (m_heap m) r = Some v -> normalize v = Ok w ->
  (exists w', entry (perform m (OAssign i name j)) i name w' /\ same_value w w') /\
  forall other u, other <> name -> entry m i other u -> entry (perform m (OAssign i name j)) i other u.
Proof.
  intros G O H V NV. destruct (g_objs m G i l O) as [d [GD F]]. destruct (g_held m G j r H) as [P K].
  assert (NM : forall x t e, r = RLoc x -> nth_error (m_heap m) x <> Some (CMap t e)).
  { intros x t e ->. apply K. apply reach_root. left. reflexivity. }
  destruct (stored_value _ r v w (g_wf m G) P NM V NV) as [h1 [r1 [ST [w' [V1 SV]]]]].
  destruct (stored_cases _ _ _ _ NM ST) as [FL [GR CS]]. assert (X := gr_ext _ _ GR). assert (G1 := ext_some _ _ _ _ X GD).
  assert (PF : perform m (OAssign i name j) = Mem (set_nth l (CMap TInstance (dset name r1 d)) h1) (m_objs m) (m_held m)).
  { cbn [perform]. unfold object in O. unfold holds in H. rewrite O, H. unfold assign. rewrite GD, ST. reflexivity. }
  rewrite PF. assert (GL : nth_error (set_nth l (CMap TInstance (dset name r1 d)) h1) l = Some (CMap TInstance (dset name r1 d))) by (apply set_nth_same; exact (nth_some _ _ _ G1)).
  assert (NI : forall y, flat h1 y -> forall z, reach h1 [y] z -> nth_error (set_nth l (CMap TInstance (dset name r1 d)) h1) z = nth_error h1 z).
  { intros y FY z RZ. apply set_nth_other. intros ->.
    destruct FY as [[e ->]|[q [kq [sq [iq [wq [bq [-> GQ]]]]]]]]; [destruct (reach_one _ _ _ RZ) as [zz E]; discriminate E|].
    assert (B := gr_wf _ _ GR (g_wf m G) q _ GQ). destruct (reach_array _ _ _ _ _ _ _ l GQ B RZ) as [-> | ->].
    - rewrite G1 in GQ. discriminate GQ.
    - destruct B as [es B]. rewrite G1 in B. discriminate B. }
  split.
  - exists w'. split; [|exact SV]. exists l, (dset name r1 d), r1. split; [exact O|]. split; [exact GL|]. split; [apply dget_dset_same|].
    exists 1. rewrite <- V1. apply value_of_kept. exact (NI r1 FL).
  - intros other u NE [l' [d' [r' [O' [GD' [DG [n VO]]]]]]]. unfold object in O, O'. rewrite O in O'. injection O' as <-.
    rewrite GD in GD'. injection GD' as <-. exists l, (dset name r1 d), r'. split; [exact O|]. split; [exact GL|].
    split; [rewrite dget_dset_other by exact NE; exact DG|]. exists n. cbn [m_heap].
    assert (IR : In r' (map snd d)) by (apply dget_In in DG; apply (in_map snd) in DG; exact DG).
    rewrite (value_of_kept n h1) by exact (NI r' (flat_ext _ _ _ X (F r' IR))).
    rewrite (value_of_kept n (m_heap m)); [exact VO|]. intros x R. exact (ext_nth _ _ _ X (reach_old _ _ _ (g_wf m G) (flat_proper _ _ (F r' IR)) R)).
Qed.
