(** The argument compression of write_sofa. *)
From Verif Require Import Base PyStr PyNum NdArray Sofa Verify Io Level Demo SpecIo
  BaseFacts WriteFacts IoFacts DemoFacts PropIo PropRound.
From Coq Require Import ZArith Lia.
Open Scope string_scope.
Open Scope list_scope.
Open Scope nat_scope.

(** ** The level has no effect on what is written *)
Definition at_most (a b : W) : Prop := forall f g u, a f = (g, Ok u) -> b f = (g, Ok u).
Definition same_w (a b : W) : Prop := forall f, a f = b f.

Lemma deflate_ok zlib l ds f : (0 <= l <= 9)%Z -> deflate zlib l ds f = (f, Ok tt).
Proof.
  intro B. unfold deflate.
  assert (X : ((0 <=? l)%Z && (l <=? 9)%Z) = true) by (apply andb_true_iff; split; apply Z.leb_le; lia).
  rewrite X. cbn [negb]. rewrite andb_false_r. reflexivity.
Qed.
Lemma deflate_Ok zlib l ds f g u : deflate zlib l ds f = (g, Ok u) -> g = f.
Proof. unfold deflate. destruct (zlib && _ && _ && _); congruence. Qed.

Lemma same_for {A} (l : list A) j k : (forall x, same_w (j x) (k x)) -> same_w (wfor l j) (wfor l k).
Proof.
  intro H. induction l as [|x l IH]; intro f; [reflexivity|]. cbn [wfor]. unfold wseq. rewrite (H x f).
  destruct (k x f) as [g [u|e]]; [apply IH|reflexivity].
Qed.
Lemma most_for {A} (l : list A) j k : (forall x, at_most (j x) (k x)) -> at_most (wfor l j) (wfor l k).
Proof.
  intro H. induction l as [|x l IH]; intros f g u Q; [exact Q|]. cbn [wfor] in Q |- *. apply wseq_Ok in Q.
  destruct Q as [h [Q1 Q2]]. unfold wseq. rewrite (H x f h tt Q1). apply IH, Q2.
Qed.
Lemma most_seq a b b' : at_most b b' -> at_most (wseq a b) (wseq a b').
Proof. intros H f g u Q. apply wseq_Ok in Q. destruct Q as [h [Q1 Q2]]. unfold wseq. rewrite Q1. apply H, Q2. Qed.
Lemma same_seq a b b' : same_w b b' -> same_w (wseq a b) (wseq a b').
Proof. intros H f. unfold wseq. destruct (a f) as [g [u|e]]; [apply H|reflexivity]. Qed.
Lemma most_lift {A} (r : res A) j k : (forall x, at_most (j x) (k x)) -> at_most (wlift r j) (wlift r k).
Proof. intros H f g u. unfold wlift. destruct r as [a|e]; [apply H|intro Q; discriminate Q]. Qed.
Lemma same_lift {A} (r : res A) j k : (forall x, same_w (j x) (k x)) -> same_w (wlift r j) (wlift r k).
Proof. intros H f. unfold wlift. destruct r as [a|e]; [apply H|reflexivity]. Qed.

Lemma entry_same E zlib l o k : (0 <= l <= 9)%Z -> same_w (write_entry_at E zlib l o k) (write_entry E o k).
Proof.
  intro B. unfold write_entry_at, write_entry. apply same_lift. intro e. destruct (String.eqb (e_type e) "attribute"); [intro f; reflexivity|].
  apply same_lift. intro v. apply same_lift. intro d. apply same_lift. intro s. apply same_lift. intros [[sh data] str].
  apply same_seq. intro f. unfold wseq at 1. rewrite (deflate_ok zlib l _ f B). reflexivity.
Qed.
Lemma entry_most E zlib l o k : at_most (write_entry_at E zlib l o k) (write_entry E o k).
Proof.
  unfold write_entry_at, write_entry. apply most_lift. intro e. destruct (String.eqb (e_type e) "attribute"); [intros f g u Q; exact Q|].
  apply most_lift. intro v. apply most_lift. intro d. apply most_lift. intro s. apply most_lift. intros [[sh data] str].
  apply most_seq. intros f g u Q. apply wseq_Ok in Q. destruct Q as [h [Q1 Q2]]. apply deflate_Ok in Q1. subst h. exact Q2.
Qed.

Lemma content_same E zlib l o : (0 <= l <= 9)%Z -> same_w (write_content_at E zlib l o) (write_content E o).
Proof. intro B. unfold write_content_at, write_content. apply same_seq, same_seq, same_for. intro k. apply entry_same, B. Qed.
Lemma content_most E zlib l o : at_most (write_content_at E zlib l o) (write_content E o).
Proof. unfold write_content_at, write_content. apply most_seq, most_seq, most_for. intro k. apply entry_most. Qed.

(** ** Levels that do not exist *)
Definition no_axes (f : ncfile) : Prop := forall n x, In (n, x) (nf_vars f) -> nv_dims x = [].

Lemma In_dset {A} k (v : A) d n x : In (n, x) (dset k v d) -> x = v \/ In (n, x) d.
Proof.
  induction d as [|[j y] d IH]; cbn; [intros [Q|[]]; injection Q as _ <-; left; reflexivity|].
  destruct (String.eqb k j); cbn; intros [Q|I].
  - left. congruence.
  - right. right. exact I.
  - right. left. exact Q.
  - destruct (IH I) as [->|I']; [left; reflexivity|right; right; exact I'].
Qed.
Lemma dget_In_pair {A} k (v : A) d : dget k d = Some v -> exists j, In (j, v) d.
Proof.
  induction d as [|[j y] d IH]; cbn; [discriminate|]. destruct (String.eqb k j); intro Q.
  - injection Q as ->. exists j. left. reflexivity.
  - destruct (IH Q) as [i I]. exists i. right. exact I.
Qed.

Lemma vattr_axes var n t f g u : write_vattr var n t f = (g, Ok u) -> no_axes f -> no_axes g.
Proof.
  unfold write_vattr. destruct (check_attr variable_members n); [|discriminate]. destruct (dget var (nf_vars f)) as [v|] eqn:G; [|discriminate].
  intros [= <- _] NA m x I. cbn [nf_vars] in I. apply In_dset in I. destruct I as [->|I]; [|apply (NA m x I)].
  cbn [nv_dims]. destruct (dget_In_pair _ _ _ G) as [j J]. apply (NA j v J).
Qed.
Lemma assign_axes var s d f g u : assign_var var s d f = (g, Ok u) -> no_axes f -> no_axes g.
Proof.
  unfold assign_var. destruct (dget var (nf_vars f)) as [v|] eqn:G; [|discriminate].
  match goal with |- context[match ?r with Ok _ => _ | Err _ => _ end] => destruct r as [t|e] end; [|discriminate].
  intros [= <- _] NA m x I. cbn [nf_vars] in I. apply In_dset in I. destruct I as [->|I]; [|apply (NA m x I)].
  cbn [nv_dims]. destruct (dget_In_pair _ _ _ G) as [j J]. apply (NA j v J).
Qed.
Lemma create_axes n str f g u : create_var n str [] f = (g, Ok u) -> no_axes f -> no_axes g.
Proof.
  unfold create_var. destruct (check_name n); [|discriminate]. destruct (dmem n (nf_vars f)); [discriminate|]. cbn [rmap].
  intros [= <- _] NA m x I. cbn [nf_vars] in I. apply in_app_iff in I. destruct I as [I|[Q|[]]]; [apply (NA m x I)|].
  injection Q as _ <-. reflexivity.
Qed.
Lemma for_axes {A} (l : list A) k : (forall x f g u, k x f = (g, Ok u) -> no_axes f -> no_axes g) ->
  forall f g u, wfor l k f = (g, Ok u) -> no_axes f -> no_axes g.
Proof.
  intro H. induction l as [|x l IH]; intros f g u Q NA; [cbn in Q; injection Q as <- _; exact NA|].
  cbn [wfor] in Q. apply wseq_Ok in Q. destruct Q as [h [Q1 Q2]]. apply (IH _ _ _ Q2), (H _ _ _ _ Q1), NA.
Qed.

Lemma deflate_bad l ds f g u : (l < 0 \/ 9 < l)%Z -> deflate (negb (Z.eqb l 0)) l ds f = (g, Ok u) -> ds = [].
Proof.
  intro B. unfold deflate.
  assert (X : ((0 <=? l)%Z && (l <=? 9)%Z) = false).
  { apply andb_false_iff. destruct B; [left|right]; apply Z.leb_gt; lia. }
  assert (Z0 : Z.eqb l 0 = false) by (apply Z.eqb_neq; lia). rewrite X, Z0. cbn [negb andb].
  destruct ds; [reflexivity|]. cbn. discriminate.
Qed.

Lemma entry_axes E l o k f g u : (l < 0 \/ 9 < l)%Z -> write_entry_at E (negb (Z.eqb l 0)) l o k f = (g, Ok u) -> no_axes f -> no_axes g.
Proof.
  intros B Q NA. unfold write_entry_at in Q. apply wlift_Ok in Q. destruct Q as [e [_ Q]].
  destruct (String.eqb (e_type e) "attribute"); [injection Q as <- _; exact NA|].
  apply wlift_Ok in Q. destruct Q as [v [_ Q]]. apply wlift_Ok in Q. destruct Q as [d [_ Q]].
  apply wlift_Ok in Q. destruct Q as [s [_ Q]]. apply wlift_Ok in Q. destruct Q as [[[sh data] str] [_ Q]].
  apply wseq_Ok in Q. destruct Q as [h [Q1 Q]]. apply wseq_Ok in Q. destruct Q as [h2 [Q2 Q]].
  assert (DS := deflate_bad l _ _ _ _ B Q2). rewrite DS in Q1. apply deflate_Ok in Q2. subst h2.
  apply wseq_Ok in Q. destruct Q as [h3 [Q3 Q]]. revert Q. intro Q.
  assert (N3 : no_axes h3) by (apply (assign_axes _ _ _ _ _ _ Q3), (create_axes _ _ _ _ _ Q1), NA).
  revert Q N3. apply for_axes. intros x f1 g1 u1 W. apply wlift_Ok in W. destruct W as [w [_ W]]. apply (vattr_axes _ _ _ _ _ _ W).
Qed.

Lemma content_axes E l o g u : (l < 0 \/ 9 < l)%Z -> write_content_at E (negb (Z.eqb l 0)) l o empty_file = (g, Ok u) -> no_axes g.
Proof.
  intros B Q. unfold write_content_at in Q. apply wseq_Ok in Q. destruct Q as [h [Q1 Q]]. apply wseq_Ok in Q. destruct Q as [h2 [Q2 Q]].
  assert (N1 : no_axes h).
  { revert Q1. assert (N0 : no_axes empty_file) by (intros n x []). revert N0. generalize empty_file. intros f N0 Q1. revert Q1 N0. apply for_axes.
    intros [d n] f1 g1 u1. unfold create_dim. destruct (check_name (fst (d, n))); [|discriminate]. destruct (dmem _ (nf_dims f1)); [discriminate|].
    intros [= <- _] NA. exact NA. }
  assert (N2 : no_axes h2).
  { revert Q2 N1. apply for_axes. intros x f1 g1 u1 W. apply wlift_Ok in W. destruct W as [w [_ W]]. unfold write_gattr in W.
    destruct (check_attr dataset_members _); [|discriminate W]. injection W as <- _. intro NA. exact NA. }
  revert Q N2. apply for_axes. intros x f1 g1 u1. apply entry_axes, B.
Qed.

(** ** C92: the level of compression does not change the data *)

(** The levels 0 to 9 give the same file, the same messages and the same result. *)
Theorem C92_levels_agree :
  forall E name o s l, (0 <= l <= 9)%Z -> write_sofa_at E name o l s = write_sofa E name o s.
Proof.
  intros E name o s l B. unfold write_sofa_at, write_sofa. destruct (prepare_write E name o) as [[o1 e1] [p|e]]; [|reflexivity].
  destruct (fs_writable s p); [|reflexivity]. rewrite (content_same E _ l o1 B empty_file). reflexivity.
Qed.
Print Assumptions C92_levels_agree.

(** Any level: a file that is written is the same for all levels. A level that
    does not exist is never accepted for data with axes. Missing for the full
    claim: the earlier file is kept in this case, see [C92_refuted]. *)
Theorem C92_other_levels_partial :
  forall E name o s l,
  (m_res (snd (write_sofa_at E name o l s)) = Ok tt -> write_sofa_at E name o l s = write_sofa E name o s)
  /\ (forall e, m_res (prepare_write E name o) = Err e -> write_sofa_at E name o l s = write_sofa E name o s
        /\ fst (write_sofa_at E name o l s) = s)
  /\ (forall s' o' ev f n x, (l < 0 \/ 9 < l)%Z ->
        write_sofa E name o s = (s', (o', ev, Ok tt)) -> file_at s' name f -> In (n, x) (nf_vars f) -> nv_dims x <> [] ->
        exists e, m_res (snd (write_sofa_at E name o l s)) = Err e).
Proof.
  intros E name o s l.
  assert (G : m_res (snd (write_sofa_at E name o l s)) = Ok tt -> write_sofa_at E name o l s = write_sofa E name o s).
  { unfold write_sofa_at, write_sofa. destruct (prepare_write E name o) as [[o1 e1] [p|e]]; [|reflexivity].
    destruct (fs_writable s p); [|reflexivity].
    destruct (write_content_at E (negb (Z.eqb l 0)) l o1 empty_file) as [f [u|e]] eqn:W; [|discriminate].
    intros _. rewrite (content_most _ _ _ _ _ _ _ W). reflexivity. }
  split; [exact G|]. split.
  - intros e H. unfold write_sofa_at, write_sofa. destruct (prepare_write E name o) as [[o1 e1] [p|e']]; [discriminate H|split; reflexivity].
  - intros s' o' ev f n x B W FA I NE. destruct (m_res (snd (write_sofa_at E name o l s))) as [[]|e] eqn:R; [exfalso|eauto].
    assert (EQ := G eq_refl). rewrite W in EQ. unfold write_sofa_at in EQ. clear G R.
    destruct (prepare_write E name o) as [[o1 e1] [p|e]] eqn:P; [|discriminate EQ].
    destruct (fs_writable s p); [|discriminate EQ].
    destruct (write_content_at E (negb (Z.eqb l 0)) l o1 empty_file) as [g [u|e]] eqn:WC; [|discriminate EQ].
    injection EQ as <- _ _ _. apply prepare_write_Ok in P. destruct P as [SP _].
    destruct FA as [p' [SP' G]]. rewrite SP in SP'. injection SP' as <-. unfold fs_set in G. cbn [fs_files] in G.
    rewrite dget_dset_same in G. injection G as ->. apply NE. apply (content_axes _ _ _ _ _ B WC n x I).
Qed.
Print Assumptions C92_other_levels_partial.

(** an object that is written with the levels 0, 4 and 9 *)
Example C92_case :
  m_res (snd (write_sofa_at demo "trip" trip 0 disk)) = Ok tt
  /\ write_sofa_at demo "trip" trip 0 disk = write_sofa_at demo "trip" trip 9 disk
  /\ write_sofa_at demo "trip" trip 4 disk = write_sofa demo "trip" trip disk
  /\ exists f x, dget "trip.sofa" (fs_files (fst (write_sofa demo "trip" trip disk))) = Some (Some f)
       /\ dget "Data.IR" (nf_vars f) = Some x /\ nv_dims x = ["M"; "R"; "N"].
Proof.
  split; [vm_compute; reflexivity|]. split; [rewrite !C92_levels_agree by lia; reflexivity|].
  split; [apply C92_levels_agree; lia|].
  eexists. eexists. split; [vm_compute; reflexivity|]. split; vm_compute; reflexivity.
Qed.

(** The level 10 is rejected after the file has been emptied: what could be read
    before is lost. *)
Theorem C92_refuted :
  let s := fst (write_sofa demo "old" trip disk) in
  (exists ev p, read_sofa demo s "old" VAuto true = (ev, Ok p))
  /\ exists s' o' ev m, write_sofa_at demo "old" trip 10 s = (s', (o', ev, Err (Exn ERuntimeError m)))
     /\ exists ev2 e2, read_sofa demo s' "old" VAuto true = (ev2, Err e2).
Proof.
  intro s. split; [do 2 eexists; vm_compute; reflexivity|]. do 4 eexists. split; [vm_compute; reflexivity|].
  do 2 eexists. vm_compute. reflexivity.
Qed.
Print Assumptions C92_refuted.
