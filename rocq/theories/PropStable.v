(** C80: files that are read and written again. *)
From Verif Require Import Base PyStr PyNum NdArray Sofa Verify Upgrade Utils Io Demo
  SpecAttr SpecInit SpecValue SpecVerify SpecUpgrade SpecEquals SpecIo SpecStore SpecStable
  BaseFacts StrFacts AttrFacts OpFacts InitFacts ProtFacts AddDelFacts MissingFacts CoreFacts IssueFacts ValidFacts VerifyFacts
  DictFacts ShapeFacts DimFacts DemoFacts UpgradeFacts EqualsFacts WriteFacts ReadFacts IoFacts RoundFacts SameFacts AgainFacts
  TotalFacts RewriteFacts CheckFacts StableFacts PropVerify PropEquals PropIo PropRound PropRewrite.
From Coq Require Import ZArith Lia.
Open Scope string_scope.
Open Scope list_scope.
Open Scope nat_scope.

(** objects that are obtained from [o] by writing and reading any number of
    times, to and from any files *)
Inductive generation (E : env) (o : sofa) : sofa -> Prop :=
| gen_first : generation E o o
| gen_next p name s s' p' ev vo verbose ev2 q : generation E o p ->
    write_sofa E name p s = (s', (p', ev, Ok tt)) -> read_sofa E s' name vo verbose = (ev2, Ok q) ->
    generation E o q.

Lemma same_var_trans x y z : same_var x y -> same_var y z -> same_var x z.
Proof. intros [A1 A2 A3 A4] [B1 B2 B3 B4]. constructor; [congruence|congruence|congruence|]. intro b. rewrite A4. apply B4. Qed.
Lemma same_file_trans f g h : same_file f g -> same_file g h -> same_file f h.
Proof.
  intros [A1 A2 A3] [B1 B2 B3]. constructor.
  - intro d. rewrite A1. apply B1.
  - intro b. rewrite A2. apply B2.
  - intro n. destruct (A3 n) as [[N1 N2]|[x [y [X [Y Q]]]]]; destruct (B3 n) as [[M1 M2]|[y' [z [Y' [Z R]]]]]; try congruence.
    + left. auto.
    + right. exists x, z. split; [exact X|]. split; [exact Z|]. assert (y' = y) by congruence. subst y'. exact (same_var_trans _ _ _ Q R).
Qed.
Lemma same_file_refl f : same_file f f.
Proof.
  constructor; [reflexivity|reflexivity|]. intro n. destruct (dget n (nf_vars f)) as [x|]; [right|left; auto].
  exists x, x. split; [reflexivity|]. split; [reflexivity|]. constructor; reflexivity.
Qed.

(** what every generation inherits *)
Record heir (E : env) (cv : convention) (o p : sofa) : Prop := {
  he_dicts : dicts_ok p;
  he_conv : convention_of E p cv;
  he_store : storable cv p;
  he_faith : faithful cv p;
  he_read : readable_again E cv p;
  he_units : forall k e v, is_variable cv p k e v -> endswith "Units" k = false }.

Lemma heir_next E cv o p name s s' p' ev vo verbose ev2 q : db_ok E -> rules_tidy E -> heir E cv o p ->
  write_sofa E name p s = (s', (p', ev, Ok tt)) -> read_sofa E s' name vo verbose = (ev2, Ok q) -> heir E cv o q.
Proof.
  intros DB RT [DO CO ST FA RA NU] W R.
  destruct (read_back E name p s s' p' ev cv DB RT DO CO ST W FA RA NU vo verbose ev2 q R)
    as [c [v [VO [VP [DP [SQ [FQ [RQ [SE [TY [VA SI]]]]]]]]]]].
  constructor; auto.
  - destruct (va_name _ _ _ _ _ _ VP) as [b N]. destruct (va_version _ _ _ _ _ _ VP) as [w [N1 N2]].
    destruct (va_file _ _ _ _ _ _ VP) as [ct [F1 F2]]. exists b, c, w, ct. rewrite N2. auto.
  - intros k e w IV. destruct (VA k e w IV) as [e0 [v0 IV0]]. apply (NU k e0 v0 IV0).
Qed.

(** the file that is written by the last of two writes of the same object *)
Lemma write_same E name name' o s s2 s' s3 o' p' ev ev' :
  write_sofa E name o s = (s', (o', ev, Ok tt)) -> write_sofa E name' o s2 = (s3, (p', ev', Ok tt)) ->
  exists f, file_at s' name f /\ file_at s3 name' f.
Proof.
  intros W W'. destruct (write_sofa_Ok _ _ _ _ _ _ _ W) as [f [e2 [r [V1 [WC1 FA1]]]]].
  destruct (write_sofa_Ok _ _ _ _ _ _ _ W') as [g [e3 [r' [V2 [WC2 FA2]]]]].
  assert (o' = p') by congruence. subst p'. assert (f = g) by congruence. subst g. eauto.
Qed.

(** ** C80 *)

(** All generations can be written, and the file has the same dimensions,
    attributes and variables with the same elements as the first file.
    Missing: as in C66; texts that end in NULs are shorter in the second file
    ([C80_refuted]). *)
Theorem C80_same_file_partial :
  forall E name o s s' o' ev cv p name2 path s2,
  db_ok E -> rules_tidy E -> dicts_ok o -> convention_of E o cv ->
  storable cv o -> faithful cv o -> readable_again E cv o ->
  (forall k e v, is_variable cv o k e v -> endswith "Units" k = false) ->
  write_sofa E name o s = (s', (o', ev, Ok tt)) ->
  generation E o p ->
  sofa_path name2 = Ok path -> fs_writable s2 path = true ->
  exists s3 p' ev3 f g,
    write_sofa E name2 p s2 = (s3, (p', ev3, Ok tt))
    /\ file_at s' name f /\ file_at s3 name2 g /\ same_file f g.
Proof.
  intros E name o s s' o' ev cv p name2 path s2 DB RT DO CO ST FA RA NU W GEN SP WR.
  assert (H0 : heir E cv o o) by (constructor; assumption).
  assert (K : forall p, generation E o p -> heir E cv o p
            /\ exists n1 s1 s1' p1 ev1 f g, write_sofa E n1 p s1 = (s1', (p1, ev1, Ok tt))
                 /\ file_at s' name f /\ file_at s1' n1 g /\ same_file f g
                 /\ exists e, warn_version E p = (p, e, Ok tt)).
  { clear p GEN SP WR name2 path s2. induction 1 as [|p n1 s1 s1' p1 ev1 vo verbose ev2 q G IH W1 R].
    - split; [exact H0|]. destruct (write_same _ _ _ _ _ _ _ _ _ _ _ _ W W) as [f [F1 F2]].
      exists name, s, s', o', ev, f, f. split; [exact W|]. split; [exact F1|]. split; [exact F2|]. split; [apply same_file_refl|].
      exact (warned_before E name o s s' o' ev W).
    - destruct IH as [HP [n0 [t0 [t0' [q0 [ev0 [f [g [W0 [F1 [F2 [SF [e0 WV]]]]]]]]]]]]].
      assert (HQ := heir_next E cv o p n1 s1 s1' p1 ev1 vo verbose ev2 q DB RT HP W1 R). split; [exact HQ|].
      destruct HP as [PD PC PS PF PR PU]. destruct HQ as [QD QC QS QF QR QU].
      destruct (read_back E n1 p s1 s1' p1 ev1 cv DB RT PD PC PS W1 PF PR PU vo verbose ev2 q R)
        as [c [v [VO [VP [_ [_ [_ [_ [SE _]]]]]]]]].
      assert (WQ : exists e1, warn_version E q = (q, e1, Ok tt)).
      { destruct (va_name _ _ _ _ _ _ VO) as [b0 M]. destruct (va_version _ _ _ _ _ _ VO) as [w0 [M1 M2]].
        assert (A0 : is_attribute cv p "GLOBAL_SOFAConventionsVersion") by (apply (fa_global _ _ PF "SOFAConventionsVersion"); apply dget_Some_In; eauto).
        destruct (se_attrs _ _ _ SE _ A0) as [b1 [t1 [G1 G2]]].
        assert (A1 : is_attribute cv p "GLOBAL_SOFAConventions") by (apply (fa_global _ _ PF "SOFAConventions"); apply dget_Some_In; eauto).
        destruct (se_attrs _ _ _ SE _ A1) as [b2 [t2 [G3 G4]]]. rewrite M in G3. injection G3 as <- <-.
        apply (warn_version_same E p q b0 b1 false false c t1 e0 M G1 G4 G2 WV). }
      destruct WQ as [e1 WQ].
      assert (PW : exists path, sofa_path n1 = Ok path /\ fs_writable s1 path = true).
      { destruct (write_sofa_cases E n1 p s1) as [[o1 [x1 [x Q]]]|[o1 [x1 [pa [h [r [P [FW [_ _]]]]]]]]]; [rewrite Q in W1; discriminate W1|].
        exists pa. split; [|exact FW]. unfold prepare_write in P. apply bind_Ok in P. destruct P as [o2 [e2 [q2 [e3 [P1 [P _]]]]]].
        unfold lift in P1. injection P1 as _ _ P1. apply bind_Ok in P. destruct P as [o3 [e4 [[] [e5 [P2 [P _]]]]]].
        apply bind_Ok in P. destruct P as [o4 [e6 [r4 [e7 [P3 [P _]]]]]]. cbn in P. injection P as _ _ <-. exact P1. }
      destruct PW as [pa [SP WR]].
      assert (CU : forall cv', convention_of E q cv' -> cv' = cv) by (intros cv' C'; apply (convention_unique E q cv cv' DB QC C')).
      destruct (write_again E n1 pa q s1 e1 tt cv DB QD CU QS (ex_intro _ c (ex_intro _ v (ex_intro _ cv VP))) RT WQ SP WR)
        as [s3 [q' [ev3 W3]]].
      destruct (second_file E n1 p s1 s1' p1 ev1 cv vo verbose ev2 q n1 s1 s3 q' ev3 DB RT PD PC PS PF PR PU W1 R W3) as [f1 [g1 [X1 [X2 X3]]]].
      destruct (write_same _ _ _ _ _ _ _ _ _ _ _ _ W0 W1) as [h [Y1 Y2]].
      assert (FU : forall t n f1 f2, file_at t n f1 -> file_at t n f2 -> f1 = f2).
      { intros t n u1 u2 [pa1 [Q1 Q2]] [pa2 [Q3 Q4]]. congruence. }
      assert (HG := FU _ _ _ _ Y1 F2). subst h. assert (FG := FU _ _ _ _ X1 Y2). subst f1.
      exists n1, s1, s3, q', ev3, f, g1. split; [exact W3|]. split; [exact F1|]. split; [exact X2|].
      split; [exact (same_file_trans _ _ _ SF X3)|]. eauto. }
  destruct (K p GEN) as [[PD PC PS PF PR PU] [n1 [s1 [s1' [p1 [ev1 [f [g [W1 [F1 [F2 [SF [e WV]]]]]]]]]]]]].
  assert (CU : forall cv', convention_of E p cv' -> cv' = cv) by (intros cv' C'; apply (convention_unique E p cv cv' DB PC C')).
  destruct (total_valid E n1 p s1 s1' p1 ev1 cv DB RT PD PC W1) as [c [v VP]].
  destruct (write_again E name2 path p s2 e tt cv DB PD CU PS (ex_intro _ c (ex_intro _ v (ex_intro _ cv VP))) RT WV SP WR) as [s3 [p' [ev3 W3]]].
  destruct (write_same _ _ _ _ _ _ _ _ _ _ _ _ W1 W3) as [h [Y1 Y2]].
  assert (h = g) by (destruct Y1 as [? [? ?]]; destruct F2 as [? [? ?]]; congruence). subst h.
  exists s3, p', ev3, f, g. auto.
Qed.
Print Assumptions C80_same_file_partial.

(** the files of the object of the example, written, read and written twice *)
Definition saved (o : sofa) : option ncfile :=
  match dget "a.sofa" (fs_files (fst (write_sofa demo "a" o disk))) with Some f => f | None => None end.
Definition loaded (o : sofa) : res sofa := snd (read_sofa demo (fst (write_sofa demo "a" o disk)) "a" VAuto true).
Definition shown (f : ncfile) : dict (nat * bool) * dict value * list (string * list string * ncdata) :=
  (nf_dims f, nf_attrs f, map (fun nx => (fst nx, nv_dims (snd nx), nv_data (snd nx)))
     (filter (fun nx => smem (fst nx) ["SourceDescriptions"; "ListenerPosition"]) (nf_vars f))).
Lemma generation_loaded r o q : m_res (snd (write_sofa demo "a" o disk)) = Ok tt -> loaded o = Ok q ->
  generation demo r o -> generation demo r q.
Proof.
  unfold loaded. intros W L G. destruct (write_sofa demo "a" o disk) as [s1 [[o1 ev1] r1]] eqn:WP. cbn in W. subst r1.
  cbn [fst] in L. destruct (read_sofa demo s1 "a" VAuto true) as [ev3 r3] eqn:R1. cbn in L. subst r3.
  eapply gen_next; [exact G|exact WP|exact R1].
Qed.

Example C80_case :
  (exists p q, loaded trip = Ok p /\ loaded p = Ok q /\ generation demo trip q
     (* the data differ before the first file *)
     /\ dget "ListenerPosition" (pub trip) <> dget "ListenerPosition" (pub q)
     /\ exists f g, saved trip = Some f /\ saved q = Some g /\ shown f = shown g)
  /\ (exists path, sofa_path "b" = Ok path /\ fs_writable disk path = true)
  /\ dicts_ok trip /\ convention_of demo trip cv10 /\ storable cv10 trip /\ faithful cv10 trip /\ readable_again demo cv10 trip
  /\ (forall k e v, is_variable cv10 trip k e v -> endswith "Units" k = false).
Proof.
  split.
  - assert (L1 : exists p, loaded trip = Ok p) by (eexists; vm_compute; reflexivity). destruct L1 as [p L1].
    assert (W1 : m_res (snd (write_sofa demo "a" trip disk)) = Ok tt) by (vm_compute; reflexivity).
    assert (LQ : exists q, match loaded trip with Ok p => loaded p | Err e => Err e end = Ok q
       /\ match loaded trip with Ok p => m_res (snd (write_sofa demo "a" p disk)) | Err e => Err e end = Ok tt
       /\ dget "ListenerPosition" (pub trip) <> dget "ListenerPosition" (pub q)
       /\ exists f g, saved trip = Some f /\ saved q = Some g /\ shown f = shown g).
    { eexists. split; [vm_compute; reflexivity|]. split; [vm_compute; reflexivity|]. split; [vm_compute; discriminate|].
      do 2 eexists. split; [vm_compute; reflexivity|]. split; vm_compute; reflexivity. }
    destruct LQ as [q [L2 [W2 [NE SH]]]]. rewrite L1 in L2, W2. exists p, q. split; [exact L1|]. split; [exact L2|]. split; [|split; [exact NE|exact SH]].
    exact (generation_loaded trip p q W2 L2 (generation_loaded trip trip p W1 L1 (gen_first demo trip))).
  - split; [eexists; split; vm_compute; reflexivity|]. split; [exact trip_dicts|]. split; [apply in_hrir_ok; vm_compute; reflexivity|].
    split; [exact trip_storable|]. split; [exact trip_faithful|]. split; [exact trip_readable|].
    apply no_unit_variables_ok. vm_compute. reflexivity.
Qed.

(** texts that end in NULs: the size of S changes *)
Theorem C80_refuted :
  let o := with_words (VStr false ("end" +++ nuls 2)) in
  dicts_ok o
  /\ exists p f g, loaded o = Ok p /\ saved o = Some f /\ saved p = Some g
     /\ dget "S" (nf_dims f) = Some (5, false) /\ dget "S" (nf_dims g) = Some (3, false) /\ ~ same_file f g.
Proof.
  intro o. split; [apply dicts_check; vm_compute; reflexivity|].
  assert (X : exists p f g, loaded o = Ok p /\ saved o = Some f /\ saved p = Some g
     /\ dget "S" (nf_dims f) = Some (5, false) /\ dget "S" (nf_dims g) = Some (3, false)).
  { do 3 eexists. split; [vm_compute; reflexivity|]. split; [vm_compute; reflexivity|]. split; [vm_compute; reflexivity|]. split; vm_compute; reflexivity. }
  destruct X as [p [f [g [X1 [X2 [X3 [X4 X5]]]]]]]. exists p, f, g. do 5 (split; [assumption|]).
  intros [D _ _]. specialize (D "S"). rewrite X4, X5 in D. discriminate D.
Qed.
Print Assumptions C80_refuted.
