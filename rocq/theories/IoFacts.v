(** Lemmas about file names, fixed width texts and the functions to read and
    write files. *)
From Verif Require Import Base PyStr PyNum NdArray Sofa Verify Utils Io
  SpecAttr SpecInit SpecVerify SpecEquals SpecIo
  BaseFacts StrFacts AttrFacts OpFacts InitFacts ProtFacts AddDelFacts MissingFacts CoreFacts ValidFacts VerifyFacts
  DictFacts DimFacts UpgradeFacts EqualsFacts WriteFacts ReadFacts.
From Coq Require Import ZArith Lia.
Open Scope string_scope.
Open Scope list_scope.
Open Scope nat_scope.

(** ** File names *)
Lemma has_char_none c s : has_char c s = false -> before_last c s = None /\ after_last c s = s.
Proof.
  induction s as [|d s IH]; cbn; [auto|]. intro H. apply orb_false_iff in H. destruct H as [H1 H2].
  destruct (IH H2) as [-> _]. rewrite H1, H2. auto.
Qed.

Lemma stem_prefix n : exists r, n = stem n +++ r.
Proof.
  unfold stem. destruct (has_char "." n) eqn:H.
  - destruct (before_last_Some _ _ H) as [a [b [-> HB]]]. rewrite before_last_app, after_last_app by exact HB.
    destruct (_ || _); [exists ""; rewrite sapp_nil_r; reflexivity|eauto].
  - destruct (has_char_none _ _ H) as [-> _]. exists "". rewrite sapp_nil_r. reflexivity.
Qed.
Lemma stem_nonempty n : n <> "" -> stem n <> "".
Proof.
  unfold stem. destruct (before_last "." n) as [b|]; [|auto].
  destruct (String.eqb_spec b "") as [->|N]; cbn [orb]; [auto|]. destruct (String.eqb (after_last "." n) ""); auto.
Qed.
Lemma stem_sofa b : b <> "" -> stem (b +++ ".sofa") = b.
Proof.
  intro N. unfold stem. change (b +++ ".sofa") with (b +++ String "." "sofa").
  rewrite before_last_app, after_last_app by reflexivity. rewrite (eqb_neq_s _ _ N). reflexivity.
Qed.
Lemma stem_no_dot n : has_char "." n = false -> stem n = n.
Proof. intro H. unfold stem. destruct (has_char_none _ _ H) as [-> _]. reflexivity. Qed.

Lemma split_pieces s : Forall (fun c => has_char "/" c = false) (split "/" s).
Proof.
  unfold split. induction s as [|a s IH]; [constructor; [reflexivity|constructor]|].
  cbn [split_aux String.length Nat.sub]. destruct (String.prefix "/" (String a s)) eqn:P.
  - constructor; [reflexivity|exact IH].
  - assert (NA : Ascii.eqb "/" a = false).
    { destruct (Ascii.eqb_spec "/" a) as [<-|N]; [|reflexivity]. cbn in P. destruct s; discriminate P. }
    destruct (split_aux "/" s 0) as [|h r].
    + constructor; [cbn [has_char]; rewrite NA; reflexivity|constructor].
    + inversion IH as [|x y H1 H2]; subst. constructor; [cbn [has_char]; rewrite NA; exact H1|exact H2].
Qed.

Lemma split_of_join cs : cs <> [] -> Forall (fun c => has_char "/" c = false) cs -> split "/" (join "/" cs) = cs.
Proof.
  induction cs as [|c cs IH]; [congruence|]. intros _ H. inversion H as [|x y H1 H2]; subst.
  destruct cs as [|d cs]; [apply (split_no_char "/" c H1)|].
  change (join "/" (c :: d :: cs)) with (c +++ String "/" (join "/" (d :: cs))).
  change "/" with (str1 "/") at 1. rewrite (split_app "/" c _ H1). f_equal. apply IH; [discriminate|exact H2].
Qed.

Lemma prefix_no p t : startswith p t = false -> forall u, t <> p +++ u.
Proof. intros H u ->. rewrite (proj2 (startswith_iff p (p +++ u))) in H by eauto. discriminate. Qed.

Lemma path_root_spec p : root_of p (path_root p).
Proof.
  unfold path_root. destruct (startswith "//" p) eqn:S2; cbn [andb].
  - apply startswith_iff in S2. destruct S2 as [t ->]. destruct (startswith "///" ("//" +++ t)) eqn:S3; cbn [negb].
    + apply startswith_iff in S3. destruct S3 as [u U]. rewrite U. exact (root_many u).
    + apply root_two. intros u ->. apply (prefix_no _ _ S3 u). reflexivity.
  - destruct (startswith "/" p) eqn:S1.
    + apply startswith_iff in S1. destruct S1 as [t ->]. apply root_one. intros u ->. apply (prefix_no _ _ S2 u). reflexivity.
    + apply root_none. exact (prefix_no _ _ S1).
Qed.

Lemma startswith_not p t : (forall u, t <> p +++ u) -> startswith p t = false.
Proof.
  intro H. destruct (startswith p t) eqn:S; [|reflexivity]. apply startswith_iff in S. destruct S as [u U]. destruct (H u U).
Qed.
Lemma startswith_cut c p t : startswith (String c p) (String c t) = startswith p t.
Proof. unfold startswith. cbn [String.prefix]. destruct (ascii_dec c c); [reflexivity|congruence]. Qed.

Lemma root_unique p r : root_of p r -> r = path_root p.
Proof.
  intros H. unfold path_root. destruct H as [p H|t H|u|t H].
  - rewrite (startswith_not "//" p) by (intros u ->; apply (H ("/" +++ u)); reflexivity).
    rewrite (startswith_not "/" p H). reflexivity.
  - change ("/" +++ t) with (String "/" t). rewrite !startswith_cut, (startswith_not "/" t H). destruct t; reflexivity.
  - rewrite (proj2 (startswith_iff "///" ("///" +++ u))) by eauto. rewrite andb_false_r.
    rewrite (proj2 (startswith_iff "/" ("///" +++ u))); [reflexivity|]. exists ("//" +++ u). reflexivity.
  - change ("//" +++ t) with (String "/" (String "/" t)). rewrite !startswith_cut, (startswith_not "/" t H). destruct t; reflexivity.
Qed.

Lemma denotes_iff p r l : denotes p r l <-> r = path_root p /\ l = path_parts p.
Proof.
  assert (F : forall cs, filter named cs = filter (fun c => negb (String.eqb c "") && negb (String.eqb c ".")) cs).
  { intro cs. apply filter_ext. intro c. unfold named. destruct (String.eqb c ""), (String.eqb c "."); reflexivity. }
  split.
  - intros [R [cs [NE [P [NS L]]]]]. split; [apply root_unique; exact R|].
    unfold path_parts. rewrite P, (split_of_join cs NE NS), L. apply F.
  - intros [-> ->]. split; [apply path_root_spec|]. exists (split "/" p).
    split; [apply split_cons|]. split; [symmetry; exact (split_join "/" p)|]. split; [apply split_pieces|].
    symmetry. apply F.
Qed.

Lemma denotes_exists p : denotes p (path_root p) (path_parts p).
Proof. apply denotes_iff. auto. Qed.

Lemma denotes_unique p r l s m : denotes p r l -> denotes p s m -> r = s /\ l = m.
Proof. intros H K. apply denotes_iff in H. apply denotes_iff in K. destruct H, K. subst. auto. Qed.

(** a name that can be part of a path *)
Definition component (c : string) : Prop := named c = true /\ has_char "/" c = false.
Definition is_root (r : string) : Prop := r = "" \/ r = "/" \/ r = "//".

Lemma denotes_good p r l : denotes p r l -> is_root r /\ Forall component l.
Proof.
  intros [R [cs [_ [_ [NS ->]]]]]. split; [destruct R; unfold is_root; auto|].
  apply Forall_forall. intros c I. apply filter_In in I. destruct I as [I N]. split; [exact N|].
  apply (proj1 (Forall_forall _ _) NS c I).
Qed.

Lemma join_start l : Forall component l -> forall u, join "/" l <> "/" +++ u.
Proof.
  destruct l as [|c l]; intros H u Q; [discriminate Q|]. inversion H as [|x y [H1 H2] H3]; subst.
  destruct c as [|a c]; [discriminate H1|].
  assert (A : exists t, join "/" (String a c :: l) = String a t) by (destruct l; eexists; reflexivity).
  destruct A as [t A]. rewrite A in Q. cbn in Q. injection Q as -> _. cbn in H2. discriminate H2.
Qed.

Lemma good_denotes r l : is_root r -> Forall component l -> denotes (path_text r l) r l.
Proof.
  intros R H. assert (ST := join_start l H).
  assert (N : Forall (fun c => has_char "/" c = false) l).
  { apply Forall_forall. intros c I. apply (proj1 (Forall_forall _ _) H c I). }
  assert (F : filter named l = l).
  { clear - H. induction l as [|c l IH]; [reflexivity|]. inversion H as [|x y [H1 H2] H3]; subst. cbn [filter].
    rewrite H1, (IH H3). reflexivity. }
  set (tl := match l with [] => [""] | _ => l end).
  assert (T1 : join "/" tl = join "/" l) by (destruct l; reflexivity).
  assert (T2 : filter named tl = l) by (unfold tl; destruct l; [reflexivity|exact F]).
  assert (T3 : Forall (fun c => has_char "/" c = false) tl) by (unfold tl; destruct l; [repeat constructor|exact N]).
  assert (T4 : exists x y, tl = x :: y) by (unfold tl; destruct l; eauto).
  destruct T4 as [x [y T4]]. unfold path_text. destruct R as [-> | [-> | ->]]; split.
  - apply root_none. exact ST.
  - exists tl. split; [rewrite T4; discriminate|]. auto.
  - apply root_one. exact ST.
  - exists ("" :: tl). split; [discriminate|]. split; [rewrite <- T1, T4; reflexivity|]. split; [constructor; [reflexivity|exact T3]|].
    cbn [filter]. symmetry. exact T2.
  - apply root_two. exact ST.
  - exists ("" :: "" :: tl). split; [discriminate|]. split; [rewrite <- T1, T4; reflexivity|].
    split; [constructor; [reflexivity|constructor; [reflexivity|exact T3]]|]. cbn [filter]. symmetry. exact T2.
Qed.

Lemma sofa_path_Ok p q : sofa_path p = Ok q <->
  exists r l n, denotes p r (l ++ [n]) /\ q = path_text r (l ++ [stem n +++ ".sofa"]).
Proof.
  unfold sofa_path. split.
  - intro H. destruct (rev (path_parts p)) as [|n l] eqn:R; [discriminate|]. injection H as <-.
    exists (path_root p), (rev l), n. split; [|reflexivity]. apply denotes_iff. split; [reflexivity|].
    rewrite <- (rev_involutive (path_parts p)), R. reflexivity.
  - intros [r [l [n [D ->]]]]. apply denotes_iff in D. destruct D as [-> D]. rewrite <- D, rev_app_distr. cbn [rev app].
    rewrite rev_involutive. reflexivity.
Qed.

Lemma stem_component n : component n -> component (stem n +++ ".sofa").
Proof.
  intros [H1 H2]. assert (NE : stem n <> "") by (apply stem_nonempty; intros ->; discriminate H1). split.
  - unfold named. destruct (String.eqb_spec (stem n +++ ".sofa") "") as [E1|_].
    { apply sapp_eq_nil in E1. destruct E1. discriminate. }
    destruct (String.eqb_spec (stem n +++ ".sofa") ".") as [E1|_]; [|reflexivity].
    exfalso. apply (f_equal String.length) in E1. rewrite sapp_length in E1. cbn in E1. lia.
  - destruct (stem_prefix n) as [r R]. rewrite R, has_char_app in H2. apply orb_false_iff in H2.
    rewrite has_char_app, (proj1 H2). reflexivity.
Qed.

Lemma sofa_path_idem p q : sofa_path p = Ok q -> sofa_path q = Ok q.
Proof.
  intro H. apply sofa_path_Ok in H. destruct H as [r [l [n [D ->]]]]. apply denotes_good in D. destruct D as [R G].
  apply Forall_app in G. destruct G as [G1 G2]. inversion G2 as [|x y C _]; subst.
  apply sofa_path_Ok. exists r, l, (stem n +++ ".sofa"). split.
  - apply good_denotes; [exact R|]. apply Forall_app. split; [exact G1|]. constructor; [apply stem_component; exact C|constructor].
  - rewrite stem_sofa; [reflexivity|]. apply stem_nonempty. intros ->. destruct C as [C _]. discriminate C.
Qed.

(** ** Fixed width *)
Lemma nuls_length n : String.length (nuls n) = n.
Proof. unfold nuls. induction n as [|n IH]; [reflexivity|]. cbn. cbn in IH. rewrite IH. reflexivity. Qed.
Lemma stake_len n : forall s, String.length s <= n -> stake n s = s.
Proof. induction n as [|n IH]; intros [|c s]; cbn; intro H; try reflexivity; [lia|]. rewrite IH by lia. reflexivity. Qed.
Lemma stake_nuls n m : n <= m -> stake n (nuls m) = nuls n.
Proof.
  revert m. unfold nuls. induction n as [|n IH]; intros m H; [reflexivity|]. destruct m as [|m]; [lia|].
  cbn. f_equal. apply IH. lia.
Qed.
Lemma stake_app_ge a : forall n b, String.length a <= n -> stake n (a +++ b) = a +++ stake (n - String.length a) b.
Proof.
  induction a as [|c a IH]; intros n b H; cbn [append String.length] in *; [rewrite Nat.sub_0_r; reflexivity|].
  destruct n as [|n]; [lia|]. cbn [stake Nat.sub]. rewrite IH by lia. reflexivity.
Qed.

Lemma fixed_width_eq n s : String.length s <= n -> fixed_width n s = s +++ nuls (n - String.length s).
Proof.
  intro H. unfold fixed_width. fold (nuls n). rewrite stake_app_ge by exact H. f_equal. apply stake_nuls. lia.
Qed.
Lemma fixed_width_length n s : String.length s <= n -> String.length (fixed_width n s) = n.
Proof. intro H. rewrite fixed_width_eq, sapp_length, nuls_length by exact H. lia. Qed.

Lemma pieces_fixed n l : (forall s, In s l -> String.length s <= n) ->
  pieces (List.length l) n (sconcat (fixed_width n) l) = map (fixed_width n) l.
Proof.
  induction l as [|s l IH]; intro H; [reflexivity|]. cbn [List.length pieces sconcat map].
  assert (L : String.length (fixed_width n s) = n) by (apply fixed_width_length; apply H; left; reflexivity).
  f_equal.
  - rewrite <- L at 1. apply stake_app.
  - rewrite <- L at 2. rewrite sdrop_app. apply IH. intros t I. apply H. right. exact I.
Qed.

Lemma strip_fixed n s : String.length s <= n -> strip_nul (fixed_width n s) = strip_nul s.
Proof. intro H. rewrite fixed_width_eq by exact H. apply strip_nul_app. Qed.

Lemma strip_nul_idem s : strip_nul (strip_nul s) = strip_nul s.
Proof. destruct (strip_nul_spec s) as [n Q]. rewrite Q at 2. rewrite strip_nul_app. reflexivity. Qed.

Lemma strip_nul_id s : (forall r, s <> r +++ nuls 1) -> strip_nul s = s.
Proof.
  intro H. destruct (strip_nul_spec s) as [n Q]. destruct n as [|n].
  - rewrite Q at 2. cbn. rewrite sapp_nil_r. reflexivity.
  - exfalso. apply (H (strip_nul s +++ nuls n)). rewrite Q at 1. rewrite sapp_assoc. f_equal.
    clear. unfold nuls. induction n as [|n IH]; [reflexivity|]. cbn. f_equal. exact IH.
Qed.

Lemma strip_nul_shorter s : String.length (strip_nul s) <= String.length s.
Proof. destruct (strip_nul_spec s) as [n Q]. rewrite Q at 2. rewrite sapp_length. lia. Qed.

Lemma chars_app a b : chars (a +++ b) = chars a ++ chars b.
Proof. unfold chars. induction a as [|c a IH]; [reflexivity|]. cbn. rewrite IH. reflexivity. Qed.
Lemma chars_nuls n c : In c (chars (nuls n)) -> c = Ascii.zero.
Proof. unfold nuls, chars. rewrite list_ascii_of_string_of_list_ascii. intro H. apply repeat_spec in H. exact H. Qed.

(** the characters of the array of characters *)
Lemma chars_fixed n l c : (forall s, In s l -> String.length s <= n) -> In c (chars (sconcat (fixed_width n) l)) ->
  c = Ascii.zero \/ exists s, In s l /\ In c (chars s).
Proof.
  induction l as [|s l IH]; intros H I; [destruct I|]. cbn [sconcat] in I. rewrite chars_app in I. apply in_app_or in I.
  destruct I as [I|I].
  - rewrite fixed_width_eq in I by (apply H; left; reflexivity). rewrite chars_app in I. apply in_app_or in I.
    destruct I as [I|I]; [right; exists s; split; [left; reflexivity|exact I]|left; eapply chars_nuls; exact I].
  - destruct (IH (fun t T => H t (or_intror T)) I) as [Z|[t [T1 T2]]]; [left; exact Z|].
    right. exists t. split; [right; exact T1|exact T2].
Qed.

Lemma chars_strip s c : In c (chars (strip_nul s)) -> In c (chars s).
Proof. destruct (strip_nul_spec s) as [n Q]. rewrite Q at 2. rewrite chars_app. intro I. apply in_or_app. auto. Qed.

Lemma to_bytes_chars e x c : to_bytes e = Ok x -> (forall s, e <> EByt s) -> In c (chars x) -> nat_of_ascii c < 128.
Proof.
  intros H NB I. destruct e; cbn in H; try discriminate; [|destruct (NB s eq_refl)].
  destruct (forallb is_ascii (chars s)) eqn:F; [|discriminate]. inversion H; subst. apply chars_strip in I.
  rewrite forallb_forall in F. apply F in I. unfold is_ascii in I. apply Nat.ltb_lt in I. exact I.
Qed.

(** ** Events and objects *)
Lemma mfor_emit_obj ev o : m_obj (mfor ev emit o) = o.
Proof. rewrite emit_all. reflexivity. Qed.

Definition keeps {A} (m : M A) : Prop := forall o, m_obj (m o) = o.
Lemma keeps_bind {A B} (m : M A) (k : A -> M B) : keeps m -> (forall a, keeps (k a)) -> keeps (bind m k).
Proof.
  intros H K o. unfold bind. specialize (H o). destruct (m o) as [[o1 e1] [a|e]]; cbn in *; subst; [|reflexivity].
  specialize (K a o). destruct (k a o) as [[o2 e2] r]. exact K.
Qed.
Lemma keeps_get : keeps get. Proof. intro o. reflexivity. Qed.
Lemma keeps_ret {A} (a : A) : keeps (ret a). Proof. intro o. reflexivity. Qed.
Lemma keeps_lift {A} (r : res A) : keeps (lift r). Proof. intro o. unfold lift. reflexivity. Qed.
Lemma keeps_raise {A} x : keeps (@raise A x). Proof. intro o. reflexivity. Qed.
Lemma keeps_emit x : keeps (emit x). Proof. intro o. reflexivity. Qed.
Lemma keeps_mfor_emit l : keeps (mfor l emit). Proof. intro o. apply mfor_emit_obj. Qed.
Lemma keeps_when b m : keeps m -> keeps (when b m).
Proof. intros H o. destruct b; [apply H|reflexivity]. Qed.

Lemma warn_version_keeps E : keeps (warn_version E).
Proof.
  unfold warn_version. apply keeps_bind; [apply keeps_get|]. intro o.
  apply keeps_bind; [apply keeps_lift|]. intros [b c|e|a|l]; try apply keeps_raise.
  destruct (String.eqb c "invalid-value"); [apply keeps_ret|].
  destruct (sofa_init E c false "latest" VAuto) as [ev r].
  apply keeps_bind; [apply keeps_mfor_emit|]. intros _.
  apply keeps_bind; [apply keeps_lift|]. intro l.
  apply keeps_bind; [apply keeps_lift|]. intro la.
  apply keeps_bind; [apply keeps_lift|]. intro cu.
  destruct cu; try apply keeps_raise. destruct la; try apply keeps_raise.
  apply keeps_bind; [apply keeps_lift|]. intro old. apply keeps_when. apply keeps_emit.
Qed.

(** a file is only touched after successful verification *)
Lemma prepare_write_Ok E name o o' ev p : prepare_write E name o = (o', ev, Ok p) ->
  sofa_path name = Ok p /\ exists ev1 ev2 r, verify E HRaise VWrite o = (o', ev2, Ok r) /\ ev = ev1 ++ ev2.
Proof.
  unfold prepare_write. intro H. apply bind_Ok in H. destruct H as [o1 [e1 [q [e2 [H1 [H ->]]]]]].
  unfold lift in H1. inversion H1; subst o1 e1. clear H1.
  apply bind_Ok in H. destruct H as [o2 [e3 [u [e4 [H1 [H ->]]]]]].
  assert (K := warn_version_keeps E o). rewrite H1 in K. cbn in K. subst o2.
  apply bind_Ok in H. destruct H as [o3 [e5 [r [e6 [H2 [H ->]]]]]]. inversion H; subst. clear H.
  split; [assumption|]. exists e3, e5, r. rewrite app_nil_r. auto.
Qed.

Lemma write_sofa_cases E name o s :
  (exists o' ev e, write_sofa E name o s = (s, (o', ev, Err e)))
  \/ exists o' ev p f r, prepare_write E name o = (o', ev, Ok p) /\ fs_writable s p = true
       /\ write_content E o' empty_file = (f, r) /\ write_sofa E name o s = (fs_set p f s, (o', ev, r)).
Proof.
  unfold write_sofa. destruct (prepare_write E name o) as [[o' ev] [p|e]] eqn:P; [|left; eauto].
  destruct (fs_writable s p) eqn:W; [|left; eauto].
  destruct (write_content E o' empty_file) as [f r] eqn:C. right. exists o', ev, p, f, r. auto.
Qed.

Lemma open_file_Ok s name f : open_file s name = Ok f <-> file_at s name f.
Proof.
  unfold open_file, file_at. split.
  - intro H. apply rbind_Ok in H. destruct H as [p [H1 H2]]. exists p. split; [exact H1|].
    destruct (dget p (fs_files s)) as [[g|]|]; try discriminate. congruence.
  - intros [p [-> H]]. cbn [rbind]. rewrite H. reflexivity.
Qed.

Lemma read_netcdf_Ok s name ev p : read_sofa_as_netcdf s name = (ev, Ok p) ->
  exists f cu, file_at s name f /\ read_content f empty_sofa = (p, ev, Ok cu).
Proof.
  unfold read_sofa_as_netcdf. intro H. destruct (open_file s name) as [f|e] eqn:F; [|discriminate].
  apply open_file_Ok in F. unfold bind in H.
  destruct (read_content f empty_sofa) as [[p1 e1] [cu|e]] eqn:R; [|discriminate].
  cbn in H. rewrite app_nil_r in H. inversion H; subst. eauto.
Qed.

Lemma read_sofa_Ok E s name vo verbose ev p : read_sofa E s name vo verbose = (ev, Ok p) ->
  exists f c v ev0 o q ev1 cu,
    file_at s name f /\ file_text f "SOFAConventions" = Ok c /\ file_text f "SOFAConventionsVersion" = Ok v
    /\ is_ok (verify_convention_and_version E v c) = true
    /\ sofa_init E c false v vo = (ev0, Ok o) /\ read_content f o = (q, ev1, Ok cu)
    /\ exists ver, (match vo with VAuto => version_geb v "1.0" | VYes => Ok true | VNo => Ok false end) = Ok ver
    /\ (if ver then exists ev2 r, verify E HRaise VRead q = (p, ev2, Ok r) else p = q).
Proof.
  unfold read_sofa. intro H.
  destruct (let? f := open_file s name in _) as [[[f c] v]|e] eqn:I; [|discriminate].
  apply rbind_Ok in I. destruct I as [f' [I1 I]]. apply rbind_Ok in I. destruct I as [c' [I2 I]].
  apply rbind_Ok in I. destruct I as [v' [I3 I]]. apply rbind_Ok in I. destruct I as [u [I4 I]].
  inversion I; subst f' c' v'. clear I.
  destruct (sofa_init E c false v vo) as [ev0 [o|e]] eqn:SI; [|discriminate].
  exists f, c, v, ev0, o. unfold prepend in H. injection H as _ H.
  destruct ((do custom <- read_content f; _) o) as [[p1 e1] [uu|e]] eqn:Q; [|discriminate].
  cbn [finished snd] in H. injection H as ->.
  apply bind_Ok in Q. destruct Q as [q [e2 [cu [e3 [Q1 [Q ->]]]]]].
  apply bind_Ok in Q. destruct Q as [q1 [e4 [u1 [e5 [Q2 [Q ->]]]]]].
  assert (q1 = q).
  { destruct (_ && verbose); [|inversion Q2; reflexivity]. unfold when, emit in Q2. inversion Q2; reflexivity. }
  subst q1. apply bind_Ok in Q. destruct Q as [q2 [e6 [ver [e7 [Q3 [Q ->]]]]]].
  assert (q2 = q /\ (match vo with VAuto => version_geb v "1.0" | VYes => Ok true | VNo => Ok false end) = Ok ver).
  { destruct vo; unfold lift, ret in Q3; inversion Q3; subst; auto. }
  destruct H as [-> VE]. exists q, e2, cu. split; [apply open_file_Ok; exact I1|]. split; [exact I2|]. split; [exact I3|].
  split; [rewrite I4; reflexivity|]. split; [exact SI|]. split; [exact Q1|]. exists ver. split; [exact VE|].
  destruct ver; [|inversion Q; reflexivity]. unfold verify_read in Q.
  destruct (verify E HRaise VRead q) as [[q3 e8] [r|e]] eqn:V; [|discriminate]. inversion Q; subst. eauto.
Qed.

(** ** Shapes *)
Lemma prod_ones n : prod (repeat 1 n) = 1.
Proof. induction n as [|n IH]; [reflexivity|]. cbn in *. lia. Qed.
Lemma prod_pad1 n s : prod (pad1 n s) = prod s.
Proof. unfold pad1. rewrite prod_app, prod_ones. lia. Qed.
Lemma prod_atleast_nd s n : prod (sh_atleast_nd s n) = prod s.
Proof.
  unfold sh_atleast_nd. rewrite prod_pad1. destruct n as [|[|[|n]]]; [reflexivity| | |]; destruct s as [|a [|b [|c s]]]; cbn; lia.
Qed.
