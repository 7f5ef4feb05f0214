(** Writing objects that can be stored succeeds. *)
From Verif Require Import Base BaseFacts PyStr PyNum NdArray Sofa Verify Utils StrFacts SpecAttr SpecInit SpecVerify
  SpecEquals Io SpecIo SpecStore CoreFacts ValidFacts ShapeFacts InitFacts VerifyFacts DimFacts EqualsFacts WriteFacts ReadFacts IoFacts.
From Coq Require Import Lia.
Open Scope string_scope.
Open Scope list_scope.
Open Scope nat_scope.

(** ** Shapes *)
Fixpoint cut (n : nat) (s : list nat) : list nat :=
  match n with 0 => [] | S n => hd 1 s :: cut n (tl s) end.

Lemma cut_length n : forall s, List.length (cut n s) = n.
Proof. induction n; intro s; cbn; auto. Qed.

Lemma prod_app' s t : prod (s ++ t) = prod s * prod t.
Proof. induction s; cbn; [lia|]. rewrite IHs. lia. Qed.

Lemma cut_prod n : forall s, prod (cut n s) * prod (skipn n s) = prod s.
Proof.
  induction n as [|n IH]; intros [|m s]; cbn [cut skipn prod hd tl].
  - reflexivity.
  - cbn. lia.
  - assert (X := IH []). rewrite skipn_nil in X. cbn [prod] in X. lia.
  - rewrite <- (IH s). lia.
Qed.

Lemma squeeze_app s t : sh_squeeze (s ++ t) = sh_squeeze s ++ sh_squeeze t.
Proof. apply filter_app. Qed.

Lemma cut_squeeze n : forall s, sh_squeeze (cut n s) ++ sh_squeeze (skipn n s) = sh_squeeze s.
Proof.
  induction n as [|n IH]; intros [|m s]; cbn [cut skipn hd tl].
  - reflexivity.
  - reflexivity.
  - assert (X := IH []). rewrite skipn_nil in X. cbn [sh_squeeze filter Nat.eqb negb]. exact X.
  - cbn [sh_squeeze filter]. destruct (negb (m =? 1)); cbn [app]; f_equal; apply IH.
Qed.

Definition ones (s : list nat) : Prop := forall m, In m s -> m = 1.

Lemma ones_prod s : ones s -> prod s = 1.
Proof. induction s as [|m s IH]; intro H; [reflexivity|]. cbn [prod]. rewrite IH, (H m); [reflexivity|left; reflexivity|intros x I; apply H; right; exact I]. Qed.

Lemma prod_ones_iff s : prod s = 1 <-> ones s.
Proof.
  split; [|apply ones_prod]. induction s as [|m s IH]; intros H x I; [destruct I|]. cbn [prod] in H.
  apply Nat.eq_mul_1 in H. destruct H as [H1 H2]. destruct I as [->|I]; [exact H1|]. apply IH; auto.
Qed.

Lemma ones_squeeze s : ones s -> sh_squeeze s = [].
Proof.
  induction s as [|m s IH]; intro H; [reflexivity|]. cbn [sh_squeeze filter]. rewrite (H m (or_introl eq_refl)).
  cbn. apply IH. intros x I. apply H. right. exact I.
Qed.

Lemma shape4_prod s : prod (shape4 s) = prod s.
Proof. destruct s as [|a [|b [|c [|d r]]]]; cbn; lia. Qed.
Lemma shape4_squeeze s : sh_squeeze (shape4 s) = sh_squeeze s.
Proof.
  destruct s as [|a [|b [|c [|d r]]]]; try reflexivity; cbn [shape4 sh_squeeze filter Nat.eqb negb];
    repeat match goal with |- context [if ?x then _ else _] => destruct x end; reflexivity.
Qed.
Lemma shape4_rest n s : 2 <= n -> ones (skipn n s) -> ones (skipn n (shape4 s)).
Proof.
  intros L H. destruct n as [|[|n]]; [lia..|]. clear L.
  destruct s as [|a [|b [|c [|d r]]]]; cbn [shape4 skipn] in *; try exact H;
    destruct n as [|[|n]]; cbn [skipn] in *; rewrite ?skipn_nil in *; intros m I;
    repeat (destruct I as [I|I]; [first [congruence|apply H; cbn [In]; auto]|]); destruct I.
Qed.

Lemma fit_ok s t : prod s = prod t -> fit_shape t s = Ok tt.
Proof.
  intro H. unfold fit_shape. destruct (shape_eqb t s) eqn:Q; [reflexivity|].
  destruct ((List.length s =? 1) && (List.length t =? 1)) eqn:L.
  - exfalso. apply andb_true_iff in L. destruct L as [L1 L2]. apply Nat.eqb_eq in L1, L2.
    destruct s as [|m [|? ?]]; try discriminate. destruct t as [|m' [|? ?]]; try discriminate.
    cbn in H. assert (m = m') by lia. subst. cbn in Q. rewrite Nat.eqb_refl in Q. discriminate.
  - rewrite H, Nat.eqb_refl. reflexivity.
Qed.

Lemma shape_in_cut a cs : forall s0 s,
  (forall i x, nth_error cs i = Some x -> dget (str1 x) a = Some (nth i s 1)) ->
  (forall n, In n (cut (List.length cs) s) -> n <> 0) ->
  shape_in a (map str1 cs) s0 = Some (cut (List.length cs) s).
Proof.
  induction cs as [|c cs IH]; intros s0 s H NZ; [reflexivity|]. cbn [map shape_in List.length cut].
  rewrite (H 0 c eq_refl). rewrite (IH (tl s0) (tl s)).
  - assert (X := NZ (hd 1 s) (or_introl eq_refl)).
    replace (nth 0 s 1) with (hd 1 s) by (destruct s; reflexivity).
    apply Nat.eqb_neq in X. rewrite X. reflexivity.
  - intros i x G. rewrite (H (S i) x G). destruct s; [destruct i|]; reflexivity.
  - intros n I. apply NZ. right. exact I.
Qed.

(** ** Numbers *)
Lemma to_f8_number e f : to_f8 e = Ok (EFlt f) <-> number e f.
Proof.
  split.
  - destruct e; cbn; intro H; try discriminate; injection H as H; subst; constructor.
  - intro H. destruct H; reflexivity.
Qed.

Lemma rmap_f8 l : (forall e, In e l -> elt_kind e = KI \/ elt_kind e = KF) ->
  exists fs, rmap to_f8 l = Ok (map EFlt fs) /\ Forall2 number l fs.
Proof.
  induction l as [|e l IH]; intro H; [exists []; split; [reflexivity|constructor]|].
  destruct IH as [fs [F1 F2]]; [intros x I; apply H; right; exact I|].
  assert (X : exists f, to_f8 e = Ok (EFlt f)).
  { destruct (H e (or_introl eq_refl)) as [K|K]; destruct e; try discriminate; cbn; eauto. }
  destruct X as [f X]. exists (f :: fs). cbn [rmap map]. rewrite X. cbn [rbind]. rewrite F1.
  split; [reflexivity|]. constructor; [apply to_f8_number; exact X|exact F2].
Qed.

(** the number in the file: missing elements are marked *)
Definition filed (x : elt) (f : f64) : Prop := number x f \/ (x = EObj /\ f = fill64).

Lemma numbers_filed l fs : Forall2 number l fs -> Forall2 filed l fs.
Proof. intro H. induction H; constructor; [left|]; assumption. Qed.

Lemma rmap_fill l : (forall e, In e l -> e = EObj \/ exists f, e = EFlt f) ->
  exists fs, rmap fill_f8 l = Ok (map EFlt fs) /\ Forall2 filed l fs.
Proof.
  induction l as [|e l IH]; intro H; [exists []; split; [reflexivity|constructor]|].
  destruct IH as [fs [F1 F2]]; [intros x I; apply H; right; exact I|].
  destruct (H e (or_introl eq_refl)) as [K|[f K]]; subst e.
  - exists (fill64 :: fs). cbn [rmap map fill_f8 rbind]. rewrite F1. split; [reflexivity|]. constructor; [right; auto|exact F2].
  - exists (f :: fs). cbn [rmap map fill_f8 to_f8 rbind]. rewrite F1. split; [reflexivity|]. constructor; [left; constructor|exact F2].
Qed.

Lemma regular_array v dtype : has_type dtype v -> regular_value v ->
  exists a, np_array v = Ok a /\ a_shape a = shape_of v /\ a_data a = elements v /\ a_mask a = false
    /\ List.length (elements v) = prod (shape_of v)
    /\ (dtype = "double" -> forall e, In e (elements v) -> elt_kind e = KI \/ elt_kind e = KF)
    /\ (dtype = "string" -> forall e, In e (elements v) -> exists s, e = EStr s).
Proof.
  intros T R. destruct v as [b s|e|a|l]; cbn [regular_value] in R; [..|contradiction].
  - eexists. split; [reflexivity|]. cbn. do 4 (split; [reflexivity|]). split.
    + intros ->. unfold has_type in T. destruct T as [[T _]|[[_ T]|[T _]]]; try discriminate.
      destruct T as [[z T]|[[f T]|[a [T _]]]]; discriminate.
    + intros _ e [<-|[]]. eauto.
  - eexists. split; [reflexivity|]. cbn. do 4 (split; [reflexivity|]). split.
    + intros -> e' [<-|[]]. unfold has_type in T. destruct T as [[T _]|[[_ T]|[T _]]]; try discriminate.
      destruct T as [[z T]|[[f T]|[a [T _]]]]; try discriminate; injection T as ->; cbn; auto.
    + intros -> e' [<-|[]]. unfold has_type in T. destruct T as [[T _]|[[T _]|[_ T]]]; try discriminate.
      destruct T as [[b [s T]]|[a [T _]]]; discriminate.
  - destruct R as [R1 [R2 R3]]. exists a. split; [reflexivity|]. cbn [shape_of elements].
    do 2 (split; [reflexivity|]). split; [exact R2|]. split; [apply Nat.eqb_eq; exact R1|]. split.
    + intros -> e I. rewrite (R3 e I). unfold has_type in T. destruct T as [[T _]|[[_ T]|[T _]]]; try discriminate.
      destruct T as [[z T]|[[f T]|[a' [T K]]]]; try discriminate. injection T as <-. exact K.
    + intros -> e I. assert (K := R3 e I). unfold has_type in T. destruct T as [[T _]|[[T _]|[_ T]]]; try discriminate.
      destruct T as [[b [s T]]|[a' [T K']]]; try discriminate. injection T as <-. rewrite K' in K.
      destruct e; try discriminate. eauto.
Qed.

Lemma sound_text v : has_type "string" v -> sound_value v -> regular_value v.
Proof.
  intros T [R|[a [-> [_ [_ [K _]]]]]]; [exact R|]. unfold has_type in T. destruct T as [[T _]|[[T _]|[_ T]]]; try discriminate.
  destruct T as [[b [s T]]|[a' [T K']]]; [discriminate|]. injection T as <-. congruence.
Qed.

Lemma sound_length v dtype : has_type dtype v -> sound_value v -> List.length (elements v) = prod (shape_of v).
Proof.
  intros T [R|[a [-> [W _]]]].
  - destruct (regular_array v dtype T R) as [a [_ [_ [_ [_ [L _]]]]]]. exact L.
  - apply Nat.eqb_eq. exact W.
Qed.

(** missing elements are those of masked arrays *)
Lemma sound_missing v : has_type "double" v -> sound_value v -> (In EObj (elements v) <-> masked v = true).
Proof.
  intros T [R|[a [-> [_ [M [_ [I _]]]]]]]; [|cbn [masked elements]; tauto].
  destruct (regular_array v "double" T R) as [a [A1 [_ [_ [A4 [_ [A6 _]]]]]]]. split.
  - intro I. destruct (A6 eq_refl EObj I); discriminate.
  - intro M. destruct v as [b s|e|a'|l]; try discriminate M. cbn [masked] in M. injection A1 as <-. congruence.
Qed.

Lemma filed_missing l fs : Forall2 filed l fs ->
  (forall x f, In x l -> number x f -> f_eqb fill64 f = false) ->
  (existsb (elt_eqb (EFlt fill64)) (map EFlt fs) = true <-> In EObj l).
Proof.
  intro H. induction H as [|x f l fs F _ IH]; intro N; [cbn; split; [discriminate|intros []]|].
  cbn [map existsb elt_eqb In]. rewrite orb_true_iff, IH by (intros y g I; apply N; right; exact I).
  destruct F as [F|[-> ->]].
  - rewrite (N x f (or_introl eq_refl) F). split; [intros [X|X]; [discriminate X|right; exact X]|].
    intros [X|X]; [subst x; inversion F|right; exact X].
  - split; intros _; left; reflexivity.
Qed.

Lemma filed_read l fs : Forall2 filed l fs ->
  (forall x f, In x l -> number x f -> f_eqb fill64 f = false) ->
  forall d, Forall2 (element_read (Some (EFlt fill64))) (map EFlt fs) d -> Forall2 kept_elt l d.
Proof.
  intro H. induction H as [|x f l fs F _ IH]; intros N d R; cbn [map] in R; inversion R as [|? y ? d' R1 R2]; subst; constructor.
  2: { apply IH; [|exact R2]. intros z g I. apply N. right. exact I. }
  unfold element_read in R1. destruct F as [F|[-> ->]].
  - left. exists f. split; [exact F|]. destruct R1 as [[[g [G Q]] _]|[_ Q]]; [|exact Q].
    injection G as <-. cbn [elt_eqb] in Q. rewrite (N x f (or_introl eq_refl) F) in Q. discriminate Q.
  - right. split; [reflexivity|]. destruct R1 as [[_ Q]|[Q _]]; [exact Q|].
    specialize (Q _ eq_refl). vm_compute in Q. discriminate Q.
Qed.

Lemma sound_format v key alt n : has_type "double" v -> sound_value v ->
  exists fs, format_for_netcdf v key "double" alt n
      = Ok (sh_atleast_nd (shape_of v) (String.length alt), DNum KF (Some (EFlt fill64)) (map EFlt fs), false)
    /\ Forall2 filed (elements v) fs.
Proof.
  intros T [R|[a [-> [W [M [K [_ EL]]]]]]].
  - destruct (regular_array v "double" T R) as [ar [A1 [A2 [A3 [A4 [A5 [A6 _]]]]]]].
    destruct (rmap_f8 (elements v) (A6 eq_refl)) as [fs [F1 F2]]. exists fs. split; [|apply numbers_filed, F2].
    unfold format_for_netcdf. cbn [String.eqb Ascii.eqb Bool.eqb andb]. unfold atleast_nd. rewrite A1. cbn [rbind].
    cbn [reshape a_mask a_data a_shape a_kind]. rewrite A4, A3. cbn [andb]. rewrite F1. cbn [rbind]. rewrite A2. reflexivity.
  - destruct (rmap_fill (a_data a) EL) as [fs [F1 F2]]. exists fs. split; [|exact F2].
    unfold format_for_netcdf. cbn [String.eqb Ascii.eqb Bool.eqb andb]. unfold atleast_nd. cbn [np_array rbind].
    cbn [reshape a_mask a_data a_shape a_kind]. rewrite M, K. cbn [andb dkind_eqb negb]. rewrite F1. reflexivity.
Qed.

Section Format.
Variables (cv : convention) (o : sofa) (a : dict nat).
Hypothesis SZ : forall x n, dget x a = Some n <-> size cv o x n.

Lemma upper_chars s : chars (upper s) = map upper_char (chars s).
Proof. unfold upper, chars. induction s; cbn; [reflexivity|]. f_equal. exact IHs. Qed.
Lemma chars_length s : List.length (chars s) = String.length s.
Proof. unfold chars. induction s; cbn; auto. Qed.
Lemma upper_length s : String.length (upper s) = String.length s.
Proof. rewrite <- !chars_length, upper_chars, map_length. reflexivity. Qed.

Lemma has_char_In c s : has_char c s = true <-> In c (chars s).
Proof.
  unfold chars. induction s as [|b s IH]; cbn [has_char list_ascii_of_string In]; [split; [discriminate|intros []]|].
  rewrite orb_true_iff, IH. split; intros [H|H]; auto; left; [apply Ascii.eqb_eq in H|apply Ascii.eqb_eq]; congruence.
Qed.

Lemma fits_sizes s b : fits cv o s b -> has_char "S" b = false ->
  forall i x, nth_error (chars (upper b)) i = Some x -> dget (str1 x) a = Some (nth i s 1).
Proof.
  intros F NS i x G. rewrite upper_chars, nth_error_map in G.
  destruct (nth_error (chars b) i) as [c|] eqn:G'; [|discriminate]. injection G as <-.
  assert (X := F i c G'). unfold extent in X. destruct (Ascii.eqb_spec c "S") as [->|N].
  - apply nth_error_In in G'. apply has_char_In in G'. congruence.
  - apply SZ. exact X.
Qed.

Lemma prod_nonzero_cut n : forall s, prod s <> 0 -> forall m, In m (cut n s) -> m <> 0.
Proof.
  induction n as [|n IH]; intros s P m I; [destruct I|]. destruct I as [<-|I].
  - destruct s as [|x s]; cbn [hd]; [discriminate|]. cbn [prod] in P. intros ->. apply P. reflexivity.
  - apply (IH (tl s)); [|exact I]. destruct s as [|x s]; cbn [tl]; [discriminate|]. cbn [prod] in P. lia.
Qed.

(** [s] with one axis for every letter *)
Definition stored_shape (v : value) (n : nat) (t : list nat) : Prop :=
  List.length t = n /\ prod t = prod (shape_of v) /\ sh_squeeze t = sh_squeeze (shape_of v).

Lemma squeeze_single s : List.length (sh_squeeze s) <= 1 -> sh_squeeze [prod s] = sh_squeeze s.
Proof.
  intro L. assert (P := prod_squeeze s).
  destruct (sh_squeeze s) as [|m [|? ?]] eqn:Q; cbn in L; [| |lia].
  - cbn [prod] in P. cbn [sh_squeeze filter]. rewrite <- P || rewrite P. reflexivity.
  - cbn [prod] in P. assert (P' : prod s = m) by lia. rewrite P'.
    assert (I : In m (sh_squeeze s)) by (rewrite Q; left; reflexivity). unfold sh_squeeze in I. apply filter_In in I.
    cbn [sh_squeeze filter]. rewrite (proj2 I). reflexivity.
Qed.

Lemma number_shape v d s alt :
  compared_shape "double" d v s -> dims_tidy "double" d -> In alt (alternatives d) ->
  axes_fit "double" (String.length alt) (shape_of v) ->
  stored_shape v (String.length alt) (cut (String.length alt) s).
Proof.
  intros C T I A. destruct (T alt I) as [NE [L _]]. split; [apply cut_length|].
  destruct C as [s ls [X|X] _|_ _ LM|_ _ LS]; [discriminate..| |].
  - rewrite <- L in LM. destruct A as [A|[_ [A _]]]; [|lia].
    assert (R := shape4_rest _ _ LM A). assert (P := cut_prod (String.length alt) (shape4 (shape_of v))).
    assert (Q := cut_squeeze (String.length alt) (shape4 (shape_of v))).
    rewrite (ones_prod _ R), shape4_prod in P. rewrite (ones_squeeze _ R), shape4_squeeze, app_nil_r in Q.
    split; [lia|exact Q].
  - rewrite <- L in LS. assert (L1 : String.length alt = 1) by (destruct alt; [congruence|]; cbn in *; lia).
    rewrite L1 in *. cbn [cut hd tl]. split; [cbn; lia|]. destruct A as [A|[_ [_ A]]]; apply squeeze_single; [|exact A].
    destruct (shape_of v) as [|m r]; [cbn; lia|]. cbn [skipn] in A.
    change (m :: r) with ([m] ++ r). rewrite squeeze_app, (ones_squeeze r A), app_nil_r.
    cbn. destruct (negb (m =? 1)); cbn; lia.
Qed.

Lemma number_format v key d s alt n : has_type "double" v -> sound_value v ->
  compared_shape "double" d v s -> dims_tidy "double" d -> In alt (alternatives d) ->
  axes_fit "double" (String.length alt) (shape_of v) -> fits cv o s alt -> prod (shape_of v) <> 0 ->
  exists sh fs t,
    format_for_netcdf v key "double" (upper alt) n = Ok (sh, DNum KF (Some (EFlt fill64)) (map EFlt fs), false)
    /\ Forall2 filed (elements v) fs
    /\ shape_in a (map str1 (chars (upper alt))) sh = Some t /\ fit_shape t sh = Ok tt
    /\ stored_shape v (String.length alt) t.
Proof.
  intros T R C TD I A F NZ. destruct (sound_format v key (upper alt) n T R) as [fs [F1 F2]]. rewrite upper_length in F1.
  assert (SS := number_shape v d s alt C TD I A). destruct (TD alt I) as [_ [_ [_ [NS _]]]].
  exists (sh_atleast_nd (shape_of v) (String.length alt)), fs, (cut (String.length alt) s).
  split; [exact F1|].
  split; [exact F2|]. split.
  { assert (Q := shape_in_cut a (chars (upper alt)) (sh_atleast_nd (shape_of v) (String.length alt)) s (fits_sizes s alt F (NS eq_refl))).
    rewrite chars_length, upper_length in Q. apply Q.
    destruct SS as [_ [SP _]]. intros m IM M0. subst m. apply NZ. rewrite <- SP.
    clear - IM. induction (cut (String.length alt) s) as [|x l IH]; [destruct IM|]. cbn [prod].
    destruct IM as [->|IM]; [reflexivity|]. rewrite (IH IM). lia. }
  split; [|exact SS]. apply fit_ok. rewrite prod_atleast_nd. symmetry. apply (proj1 (proj2 SS)).
Qed.

(** ** Texts *)
Lemma to_bytes_ascii s : ascii_text s -> to_bytes (EStr s) = Ok (strip_nul s).
Proof. intro A. apply to_bytes_iff. exists s. split; [constructor; exact A|reflexivity]. Qed.

Lemma rmap_bytes v : has_type "string" v -> ascii_value v -> (forall e, In e (elements v) -> exists s, e = EStr s) ->
  exists ts, elements v = map EStr ts /\ rmap to_bytes (elements v) = Ok (map strip_nul ts)
    /\ forall t, In t ts -> ascii_text t.
Proof.
  intros TY AV H. assert (AE : forall s, In (EStr s) (elements v) -> ascii_text s).
  { destruct v as [b s|e|ar|l]; cbn [ascii_value elements] in *; intros s' I.
    - destruct I as [I|[]]. injection I as <-. exact AV.
    - unfold has_type in TY. destruct TY as [[T _]|[[T _]|[_ T]]]; try discriminate.
      destruct T as [[b [s T]]|[ar [T _]]]; discriminate.
    - auto.
    - destruct I. }
  clear AV. induction (elements v) as [|e l IH]; [exists []; repeat split; intros t []|].
  destruct (H e (or_introl eq_refl)) as [s ->].
  destruct IH as [ts [I1 [I2 I3]]]; [intros e I; apply H; right; exact I|intros t I; apply AE; right; exact I|].
  exists (s :: ts). split; [cbn; congruence|]. split.
  - cbn [rmap map]. rewrite (to_bytes_ascii s); [|apply AE; left; reflexivity]. rewrite I2. reflexivity.
  - intros t [<-|I]; [|auto]. apply AE. left. reflexivity.
Qed.

Lemma shape_in_app b : forall c s0 t u, shape_in a b s0 = Some t -> shape_in a c (skipn (List.length b) s0) = Some u ->
  shape_in a (b ++ c) s0 = Some (t ++ u).
Proof.
  induction b as [|x b IH]; intros c s0 t u H1 H2; cbn [shape_in] in *.
  - injection H1 as <-. exact H2.
  - cbn [app shape_in]. destruct (dget x a) as [n|]; [|discriminate].
    destruct (shape_in a b (tl s0)) as [r|] eqn:Q; [|discriminate].
    rewrite (IH c (tl s0) r u Q).
    + destruct (n =? 0); [destruct s0; [discriminate|]|]; injection H1 as <-; reflexivity.
    + destruct s0; cbn [tl skipn List.length] in *; [rewrite skipn_nil|]; exact H2.
Qed.

Lemma str1_S_upper b : chars (upper (b +++ "S")) = chars (upper b) ++ ["S"%char].
Proof. rewrite upper_chars, chars_app, map_app, <- upper_chars. reflexivity. Qed.

Lemma nth_skipn_hd (s : list nat) n : nth n s 1 = hd 1 (skipn n s).
Proof. revert s. induction n; intros [|m s]; cbn; auto. Qed.
Lemma skipn_tl (s : list nat) n : skipn (S n) s = tl (skipn n s).
Proof. revert s. induction n; intros [|m s]; cbn [skipn tl]; auto; try apply IHn. Qed.

Lemma atleast_nd_ones s n : ones s -> ones (sh_atleast_nd s n).
Proof. rewrite <- !prod_ones_iff, prod_atleast_nd. auto. Qed.
Lemma pad1_length n s : n <= List.length (pad1 n s).
Proof. unfold pad1. rewrite app_length, repeat_length. lia. Qed.
Lemma atleast_nd_length s n : n <= List.length (sh_atleast_nd s n).
Proof. apply pad1_length. Qed.

Lemma strings_shape v s ls : strings v s ls -> has_type "string" v -> prod s = prod (shape_of v)
  /\ sh_squeeze s = sh_squeeze (shape_of v) /\ (forall n, ones (skipn n (shape_of v)) -> ones (skipn n s)) /\ elements v <> []
  /\ forall ts, elements v = map EStr ts -> ls = map String.length ts.
Proof.
  intros H TY. destruct H as [b t|ar n rest ls H1 H2 H3 H4].
  - split; [reflexivity|]. split; [reflexivity|]. split.
    + intros n _. apply prod_ones_iff. destruct n as [|[|n]]; try reflexivity. cbn. rewrite skipn_nil. reflexivity.
    + split; [discriminate|]. intros [|u [|? ?]] Q; try discriminate. injection Q as ->. reflexivity.
  - cbn [shape_of elements]. rewrite H1. do 2 (split; [reflexivity|]). split; [auto|]. split; [exact H3|].
    intros ts Q. rewrite Q in H4. clear - H4. remember (map EStr ts) as l eqn:E. revert ts E.
    induction H4 as [|x m l ls [t [[X|X] L]] _ IH]; intros [|u ts] E; try discriminate; [reflexivity|..].
    + injection E as E1 E2. subst x. injection E1 as ->. cbn. f_equal; auto.
    + injection E as E1 E2. congruence.
Qed.

Lemma text_format v key d s alt n : has_type "string" v -> regular_value v -> ascii_value v ->
  compared_shape "string" d v s -> dims_tidy "string" d -> In alt (alternatives d) ->
  axes_fit "string" (String.length alt) (shape_of v) -> fits cv o s alt -> dget "S" a = Some n ->
  (n = 0 -> prod (shape_of v) = 1) ->
  (forall t, In (EStr t) (elements v) -> String.length t <= n) ->
  exists sh ts t,
    format_for_netcdf v key "string" (upper alt) n
    = Ok (sh, DChar (sconcat (fixed_width (Nat.max 1 n)) (map strip_nul ts)), true)
    /\ elements v = map EStr ts
    /\ shape_in a (map str1 (chars (upper alt))) sh = Some (t ++ [Nat.max 1 n])
    /\ fit_shape (t ++ [Nat.max 1 n]) sh = Ok tt
    /\ stored_shape v (String.length alt - 1) t /\ prod (shape_of v) <> 0.
Proof.
  intros T R AV C TD I A F GS NZ LE.
  destruct (regular_array v "string" T R) as [ar [A1 [A2 [A3 [A4 [A5 [_ A6]]]]]]].
  destruct (rmap_bytes v T AV (A6 eq_refl)) as [ts [B1 [B2 B3]]].
  destruct C as [s ls _ ST|_ X _|_ X _]; [|congruence..].
  destruct (strings_shape v s ls ST T) as [S1 [S2 [S3 [S4 _]]]].
  destruct (TD alt I) as [_ [_ [_ [_ TS]]]]. destruct (TS eq_refl) as [b [-> NS]].
  assert (LB : String.length (b +++ "S") = S (String.length b)) by (rewrite sapp_length; cbn; lia).
  rewrite LB in *. destruct A as [A|[A _]]; [|discriminate].
  assert (NZP : prod (shape_of v) <> 0).
  { rewrite <- A5. destruct (elements v); [congruence|discriminate]. }
  assert (FB : fits cv o s b).
  { intros i x G. apply F. rewrite chars_app, nth_error_app1; [exact G|]. apply nth_error_Some. congruence. }
  assert (FS : nth (String.length b) s 1 = 1).
  { assert (X := F (String.length b) "S"%char). unfold extent in X. cbn [Ascii.eqb Bool.eqb] in X. apply X.
    rewrite chars_app, nth_error_app2, chars_length, Nat.sub_diag by (rewrite chars_length; lia). reflexivity. }
  assert (O1 : ones (skipn (String.length b) s)).
  { assert (A' := S3 _ A). rewrite skipn_tl in A'. rewrite nth_skipn_hd in FS.
    destruct (skipn (String.length b) s) as [|m r]; [intros ? []|]. cbn in FS, A'.
    intros y [<-|J]; [exact FS|auto]. }
  assert (SP : stored_shape v (String.length b) (cut (String.length b) s)).
  { split; [apply cut_length|]. assert (P := cut_prod (String.length b) s). assert (Q := cut_squeeze (String.length b) s).
    rewrite (ones_prod _ O1) in P. rewrite (ones_squeeze _ O1), app_nil_r in Q. split; [lia|congruence]. }
  set (w := Nat.max 1 n).
  assert (W : (if n =? 0 then Nat.max 1 (max_list (map String.length (map strip_nul ts))) else n) = w).
  { destruct (Nat.eqb_spec n 0) as [N0|N0]; [|unfold w; lia]. unfold w. rewrite N0. f_equal.
    assert (X : forall l, (forall t, In t l -> String.length t <= 0) -> max_list (map String.length (map strip_nul l)) = 0).
    { induction l as [|t l IH]; intro H; [reflexivity|]. destruct t; [|specialize (H _ (or_introl eq_refl)); cbn in H; lia].
      assert (IH' := IH (fun t J => H t (or_intror J))).
      cbn [map strip_nul String.length max_list fold_right]. exact IH'. }
    apply X. intros t J. rewrite <- N0. apply LE. rewrite B1. apply in_map. exact J. }
  exists (sh_atleast_nd (shape_of v) (S (String.length b)) ++ [w]), ts, (cut (String.length b) s).
  split.
  { unfold format_for_netcdf. cbn [String.eqb Ascii.eqb Bool.eqb andb]. rewrite A1. cbn [rbind].
    rewrite A3, B2. cbn [rbind]. rewrite A2, upper_length, LB. cbv zeta. rewrite W. reflexivity. }
  split; [exact B1|]. split.
  { rewrite str1_S_upper, map_app. apply shape_in_app.
    - assert (Q := shape_in_cut a (chars (upper b)) (sh_atleast_nd (shape_of v) (S (String.length b)) ++ [w]) s (fits_sizes s b FB NS)).
      rewrite chars_length, upper_length in Q. apply Q. apply prod_nonzero_cut. congruence.
    - rewrite map_length, chars_length, upper_length. cbn [map shape_in]. change (str1 "S") with "S". rewrite GS.
      destruct (Nat.eqb_spec n 0) as [N0|N0]; [|unfold w; do 2 f_equal; lia].
      assert (L := atleast_nd_length (shape_of v) (S (String.length b))).
      assert (O : ones (sh_atleast_nd (shape_of v) (S (String.length b)))) by (apply atleast_nd_ones, prod_ones_iff; auto).
      rewrite skipn_app.
      destruct (skipn (String.length b) (sh_atleast_nd (shape_of v) (S (String.length b)))) as [|m r] eqn:Q.
      + exfalso. assert (Q' := f_equal (@List.length nat) Q). rewrite skipn_length in Q'. change (@List.length nat []) with 0 in Q'. lia.
      + cbn [app]. assert (m = 1).
        { apply O. assert (J : In m (skipn (String.length b) (sh_atleast_nd (shape_of v) (S (String.length b))))) by (rewrite Q; left; reflexivity).
          rewrite <- (firstn_skipn (String.length b)). apply in_or_app. right. exact J. }
        subst m. unfold w. rewrite N0. reflexivity. }
  split.
  { apply fit_ok. rewrite !prod_app', prod_atleast_nd. cbn [prod]. rewrite (proj1 (proj2 SP)). reflexivity. }
  split; [|exact NZP]. replace (S (String.length b) - 1) with (String.length b) by lia. exact SP.
Qed.
End Format.

(** ** Writing succeeds *)
Lemma wfor_total {A} (P : list A -> ncfile -> Prop) (k : A -> W) l f :
  P [] f -> (forall pre x post h, l = pre ++ x :: post -> P pre h -> exists h', k x h = (h', Ok tt) /\ P (pre ++ [x]) h') ->
  exists g, wfor l k f = (g, Ok tt).
Proof.
  intros P0 PS.
  assert (G : forall post pre h, l = pre ++ post -> P pre h -> exists g, wfor post k h = (g, Ok tt)).
  { induction post as [|x post IH]; intros pre h L H; [exists h; reflexivity|].
    destruct (PS pre x post h L H) as [h' [K H']]. destruct (IH (pre ++ [x]) h') as [g G]; [rewrite <- app_assoc; exact L|exact H'|].
    exists g. cbn [wfor]. unfold wseq. rewrite K. exact G. }
  apply (G l [] f eq_refl P0).
Qed.

Lemma create_dims_total a f : NoDup (dkeys a) -> (forall x, In x (dkeys a) -> check_name x = Ok tt) -> nf_dims f = [] ->
  exists g, wfor a (fun dn => create_dim (fst dn) (snd dn)) f = (g, Ok tt).
Proof.
  intros N C F0. apply (wfor_total (fun pre h => dkeys (nf_dims h) = dkeys pre)).
  - rewrite F0. reflexivity.
  - intros pre [x n] post h L H. unfold create_dim. cbn [fst snd]. rewrite C.
    2:{ rewrite L. unfold dkeys. rewrite map_app. apply in_or_app. right. left. reflexivity. }
    assert (NI : ~ In x (dkeys (nf_dims h))).
    { rewrite H. rewrite L in N. rewrite dkeys_app in N. cbn [dkeys map fst] in N. apply NoDup_remove_2 in N.
      intro I. apply N. apply in_or_app. left. exact I. }
    apply dmem_false in NI. rewrite NI. eexists. split; [reflexivity|]. cbn [nf_dims].
    rewrite !dkeys_app, H. reflexivity.
Qed.

Lemma getattr_pub o k : In k (dkeys (pub o)) -> exists w, getattr o k = Ok w.
Proof. intro I. apply dget_Some_In in I. destruct I as [w G]. exists w. unfold getattr. rewrite G. reflexivity. Qed.

Lemma write_gattrs_total E o f :
  (forall k, In k (filter (startswith "GLOBAL_") (dkeys (pub o))) -> check_attr dataset_members (sdrop 7 k) = Ok tt) ->
  exists g, wfor (filter (startswith "GLOBAL_") (dkeys (pub o))) (fun k =>
           wlift (getattr o k) (fun w => write_gattr (sdrop 7 k) (py_str E w))) f = (g, Ok tt).
Proof.
  intro C. apply (wfor_total (fun _ _ => True)); [exact I|]. intros pre k post h L _.
  assert (IK : In k (filter (startswith "GLOBAL_") (dkeys (pub o)))) by (rewrite L; apply in_or_app; right; left; reflexivity).
  assert (IK' := IK). apply filter_In in IK'. destruct (getattr_pub o k (proj1 IK')) as [w G].
  unfold wlift. rewrite G. unfold write_gattr. rewrite (C k IK). eauto.
Qed.

Lemma write_vattrs_total E o key n f :
  (forall k, In k (filter (startswith (key +++ "_")) (dkeys (pub o))) ->
     check_attr variable_members (sdrop (String.length key + 1) k) = Ok tt) ->
  In n (dkeys (nf_vars f)) ->
  exists g, wfor (filter (startswith (key +++ "_")) (dkeys (pub o))) (fun k =>
       wlift (getattr o k) (fun w =>
       write_vattr n (sdrop (String.length key + 1) k) (py_str E w))) f = (g, Ok tt).
Proof.
  intros C IN. apply (wfor_total (fun _ h => In n (dkeys (nf_vars h)))); [exact IN|]. intros pre k post h L IH.
  assert (IK : In k (filter (startswith (key +++ "_")) (dkeys (pub o)))) by (rewrite L; apply in_or_app; right; left; reflexivity).
  assert (IK' := IK). apply filter_In in IK'. destruct (getattr_pub o k (proj1 IK')) as [w G].
  unfold wlift. rewrite G. unfold write_vattr. rewrite (C k IK). apply dget_Some_In in IH. destruct IH as [v H]. rewrite H.
  eexists. split; [reflexivity|]. cbn [nf_vars]. apply In_dkeys_dset. left. reflexivity.
Qed.

(** what is needed to write a variable *)
Definition writable (o : sofa) (a : dict nat) (key : string) : Prop :=
  exists e v d ds n shape data is_string t,
    dget key (conv o) = Some e /\ e_type e <> "attribute" /\ dget key (pub o) = Some v
    /\ dims o = Some ds /\ dget key ds = Some d /\ dget "S" a = Some n
    /\ format_for_netcdf v key (e_type e) d n = Ok (shape, data, is_string)
    /\ shape_in a (map str1 (chars d)) shape = Some t /\ fit_shape t shape = Ok tt
    /\ check_name (netcdf_name key) = Ok tt
    /\ (forall k, In k (filter (startswith (key +++ "_")) (dkeys (pub o))) ->
          check_attr variable_members (sdrop (String.length key + 1) k) = Ok tt).

Lemma shape_in_keys a ds : forall s t, shape_in a ds s = Some t -> forall x, In x ds -> In x (dkeys a).
Proof.
  induction ds as [|d ds IH]; intros s t H x I; [destruct I|]. cbn [shape_in] in H.
  destruct (dget d a) as [n|] eqn:G; [|discriminate]. destruct (shape_in a ds (tl s)) as [r|] eqn:Q; [|discriminate].
  destruct I as [<-|I]; [apply dget_Some_In; eauto|eauto].
Qed.

Lemma write_entry_total E o a key f : api o = Some a -> dims_for a (nf_dims f) -> writable o a key ->
  ~ In (netcdf_name key) (dkeys (nf_vars f)) -> exists g, write_entry E o key f = (g, Ok tt).
Proof.
  intros AP DF [e [v [d [ds [n [shape [data [is_string [t [W1 [W2 [W3 [W4 [W5 [W6 [W7 [W8 [W9 [W10 W11]]]]]]]]]]]]]]]]]]] NI.
  unfold write_entry. unfold wlift at 1. unfold dgetE at 1. rewrite W1.
  destruct (String.eqb_spec (e_type e) "attribute") as [X|_]; [contradiction|].
  unfold wlift at 1. unfold getattr at 1. rewrite W3. unfold wlift at 1. rewrite W4. unfold dgetE at 1. rewrite W5.
  unfold wlift at 1. rewrite AP. unfold dgetE at 1. rewrite W6. unfold wlift at 1. rewrite W7.
  assert (KS := shape_in_keys _ _ _ _ W8).
  assert (RM : exists l, rmap (fun x => dgetE x (nf_dims f)) (map str1 (chars d)) = Ok l).
  { apply rmap_total. intros x I. assert (K := KS x I). rewrite <- (proj1 DF) in K. apply dget_Some_In in K.
    destruct K as [m K]. unfold dgetE. rewrite K. eauto. }
  destruct RM as [l RM]. unfold wseq at 1. unfold create_var. rewrite W10.
  assert (DM := NI). apply dmem_false in DM. rewrite DM, RM.
  unfold wseq at 1. unfold assign_var at 1. cbn [nf_vars nf_dims nf_attrs]. rewrite (dget_last _ _ _ NI). cbn [nv_dims nv_attrs].
  rewrite RM. cbn [rbind]. rewrite (proj2 (target_shape_in a (nf_dims f) _ DF KS l shape t RM) W8). cbn [rbind].
  rewrite W9. cbn [rbind]. apply write_vattrs_total; [exact W11|]. cbn [nf_vars]. apply In_dkeys_dset. left. reflexivity.
Qed.

Lemma write_content_total E o a : NoDup (dkeys (pub o)) -> api o = Some a -> NoDup (dkeys a) ->
  (forall x, In x (dkeys a) -> check_name x = Ok tt) ->
  (forall k, In k (filter (startswith "GLOBAL_") (dkeys (pub o))) -> check_attr dataset_members (sdrop 7 k) = Ok tt) ->
  (forall k, In k (dkeys (pub o)) -> exists e, dget k (conv o) = Some e /\ (e_type e <> "attribute" -> writable o a k)) ->
  (forall j k, In j (entry_keys o) -> In k (entry_keys o) -> netcdf_name j = netcdf_name k -> j = k) ->
  exists f, write_content E o empty_file = (f, Ok tt).
Proof.
  intros N AP NA CN CG CW INJ. unfold write_content. rewrite AP. unfold wseq at 1.
  destruct (create_dims_total a empty_file NA CN eq_refl) as [f1 H1]. rewrite H1. unfold wseq at 1.
  destruct (write_gattrs_total E o f1 CG) as [f2 H2]. rewrite H2.
  apply create_dims_Ok in H1. cbn [empty_file nf_dims nf_attrs nf_vars app] in H1. destruct H1 as [D1 [D2 D3]].
  apply write_gattrs_Ok in H2; [|exact N|exact D2]. destruct H2 as [G1 [G2 [G3 G4]]].
  apply (wfor_total (fun pre h => dims_for a (nf_dims h)
     /\ forall n, In n (dkeys (nf_vars h)) -> exists k, In k pre /\ In k (entry_keys o) /\ n = netcdf_name k)).
  - rewrite G1, D1, G3, D3. split; [apply new_dims_for|]. intros n [].
  - intros pre k post h L [P1 P2].
    assert (IK : In k (dkeys (pub o))) by (rewrite L; apply in_or_app; right; left; reflexivity).
    destruct (CW k IK) as [e [CE W]]. destruct (String.eqb_spec (e_type e) "attribute") as [TA|TA].
    { exists h. split.
      - unfold write_entry, wlift. unfold dgetE at 1. rewrite CE, TA. reflexivity.
      - split; [exact P1|]. intros n I. destruct (P2 n I) as [j [J1 J2]]. exists j. split; [apply in_or_app; auto|exact J2]. }
    assert (IE : In k (entry_keys o)).
    { unfold entry_keys. apply filter_In. split; [exact IK|]. rewrite CE. destruct (String.eqb_spec (e_type e) "attribute"); [contradiction|reflexivity]. }
    assert (NI : ~ In (netcdf_name k) (dkeys (nf_vars h))).
    { intro I. destruct (P2 _ I) as [j [J1 [J2 J3]]]. apply INJ in J3; auto. subst j.
      apply (pre_post_not_in _ _ _ _ L N). exact J1. }
    destruct (write_entry_total E o a k h AP P1 (W TA) NI) as [h' H]. exists h'. split; [exact H|].
    apply (write_entry_Ok E o a k h h' tt N AP P1) in H. destruct H as [_ [Q1 Q2]]. split; [exact Q1|].
    intros n I. destruct Q2 as [[e' [X1 [X2 ->]]]|[_ [x [_ [X3 _]]]]].
    + destruct (P2 n I) as [j [J1 J2]]. exists j. split; [apply in_or_app; auto|exact J2].
    + rewrite X3, dkeys_app in I. apply in_app_or in I. destruct I as [I|[<-|[]]].
      * destruct (P2 n I) as [j [J1 J2]]. exists j. split; [apply in_or_app; auto|exact J2].
      * exists k. split; [apply in_or_app; right; left; reflexivity|auto].
Qed.

(** ** Verified objects *)
Lemma upd_nodup l : forall d, NoDup (dkeys d) -> NoDup (dkeys (upd l d)).
Proof. induction l as [|[c n] l IH]; intros d N; [exact N|]. cbn. apply IH. apply NoDup_dset. exact N. Qed.

Lemma detect_nodup o s : detect o = (s, Ok tt) -> NoDup (dkeys (fixed_sizes s)).
Proof.
  intro H. destruct (detect_map o) as [D1 D2].
  destruct (rmap (key_found o) (dim_keys o)) as [rs|e] eqn:RM.
  - rewrite (D1 rs eq_refl) in H. injection H as <-. unfold fixed_sizes. cbn [fst snd].
    do 3 apply NoDup_dset. apply upd_nodup. constructor.
  - rewrite H in D2. specialize (D2 e eq_refl). discriminate.
Qed.

Lemma lower_letter c : is_lower_ascii c = true -> check_name (str1 (upper_char c)) = Ok tt.
Proof. destruct c as [[] [] [] [] [] [] [] []]; vm_compute; congruence. Qed.

Lemma size_name cv o x n : size cv o x n -> check_name x = Ok tt.
Proof.
  intros [[-> _]|[[-> _]|[[-> _]|[c [l [r [-> [_ [S _]]]]]]]]]; try reflexivity.
  assert (I : In (c, Some n) (all_states cv o)) by (rewrite S; apply in_or_app; right; left; reflexivity).
  unfold all_states in I. apply in_flat_map in I. destruct I as [k [_ I]]. unfold states in I.
  destruct (declared cv o k) as [e|]; [|destruct I]. destruct (dget k (pub o)) as [v|]; [|destruct I].
  destruct (e_dims e) as [d|]; [|destruct I]. apply in_map_iff in I. destruct I as [[i b] [Q I]].
  injection Q as Q _. apply filter_In in I. cbn [snd] in *. subst c. apply lower_letter. apply (proj2 I).
Qed.

Record verified (E : env) (o o' : sofa) (cv : convention) (a : dict nat) (ds : dict string) : Prop := {
  vd_cv : convention_of E o cv;
  vd_pub : pub o' = pub o;
  vd_conv : forall k, dget k (conv o') = declared cv o k;
  vd_nodup : NoDup (dkeys (pub o));
  vd_api : api o' = Some a;
  vd_dims : dims o' = Some ds;
  vd_anodup : NoDup (dkeys a);
  vd_size : forall x n, dget x a = Some n <-> size cv o x n;
  vd_S : exists n, dget "S" a = Some n;
  vd_type : forall k v, dget k (pub o) = Some v -> exists e, declared cv o k = Some e /\ has_type (e_type e) v;
  vd_shape : forall k, In k (variables cv o) -> exists e dd v s alt,
          declared cv o k = Some e /\ e_dims e = Some dd /\ dget k (pub o) = Some v
          /\ compared_shape (e_type e) dd v s /\ In alt (alternatives dd)
          /\ dget k ds = Some (upper alt) /\ fits cv o s alt }.

Lemma verify_verified E m o o' ev r : db_ok E -> dicts_ok o ->
  verify E HRaise m o = (o', ev, Ok r) -> exists cv a ds, verified E o o' cv a ds.
Proof.
  intros DB DO H. destruct (verified_dims E m o o' ev r DB DO H) as [cv [a [d [H1 [H2 [H3 [H4 H5]]]]]]].
  exists cv, a, d. destruct (raise_ok_core _ _ _ _ _ _ H) as [o1 [e1 [w [a' [d' [R [M [T [_ [OD [D _]]]]]]]]]]].
  destruct (reset_iff E o DB DO) as [RI _].
  destruct (RI _ R) as [b [c [wv [content [V1 [V2 [V3 RT]]]]]]].
  assert (cv = sofar_keys content).
  { eapply convention_unique; [exact DB| |exact H1]. exists b, c, wv, content. auto. }
  subst cv. subst o'. cbn [set_dims api with_dims with_api] in H2. injection H2 as ->.
  constructor; auto.
  - apply (rt_pub _ _ _ RT).
  - apply (rt_conv _ _ _ RT).
  - apply (proj1 DO).
  - destruct (dims_pure_detect _ _ _ _ D) as [s [HD ->]]. apply (detect_nodup o1 s HD).
  - destruct (dims_pure_detect _ _ _ _ D) as [s [HD ->]]. exists (snd s). unfold fixed_sizes. rewrite dget_dset, eqb_refl_s. reflexivity.
  - exact (proj1 (types_iff E _ o o1 RT) T).
Qed.

Lemma main_in d alt : In alt (alternatives d) -> In (main_alternative d) (alternatives d).
Proof. unfold main_alternative. destruct (alternatives d); [intros []|]. intros _. left. reflexivity. Qed.

Lemma srev_acc a : forall x y, PyStr.srev_app a (x +++ y) = PyStr.srev_app a x +++ y.
Proof. induction a as [|c a IH]; intros x y; [reflexivity|]. cbn [PyStr.srev_app]. apply (IH (String c x) y). Qed.
Lemma srev_cons c a : srev (String c a) = srev a +++ String c "".
Proof. unfold srev. cbn [PyStr.srev_app]. apply (srev_acc a "" (String c "")). Qed.
Lemma sapp_nil a : a +++ "" = a.
Proof. induction a; cbn; congruence. Qed.
Lemma srev_append a b : srev (a +++ b) = srev b +++ srev a.
Proof.
  induction a as [|c a IH]; [rewrite sapp_nil; reflexivity|].
  cbn [append]. rewrite !srev_cons, IH, sapp_assoc. reflexivity.
Qed.
Lemma srev_srev a : srev (srev a) = a.
Proof. induction a as [|c a IH]; [reflexivity|]. rewrite srev_cons, srev_append, IH. reflexivity. Qed.
Lemma endswith_iff p s : endswith p s = true <-> exists r, s = r +++ p.
Proof.
  unfold endswith. rewrite prefix_spec. split; intros [r H].
  - exists (srev r). rewrite <- (srev_srev s), H, srev_append, srev_srev. reflexivity.
  - exists (srev r). rewrite H, srev_append. reflexivity.
Qed.

Lemma check_name_valid n : name_valid n = true -> check_name n = Ok tt.
Proof.
  intro L4. unfold check_name. rewrite L4. replace (has_char "/" n) with false; [reflexivity|]. symmetry.
  apply not_true_iff_false. intro H. apply has_char_In in H. destruct n as [|c n]; [discriminate|].
  unfold name_valid in L4. repeat (apply andb_true_iff in L4; destruct L4 as [L4 ?]).
  match goal with X : forallb _ _ = true |- _ => rewrite forallb_forall in X; specialize (X _ H); discriminate X end.
Qed.

Lemma check_attr_legal mem n : legal_attr mem n -> check_attr mem n = Ok tt.
Proof.
  intros [L1 [L2 [L3 L4]]]. unfold check_attr. apply smem_false in L1, L2. rewrite L1, L2. cbn [orb].
  destruct (endswith "__" n) eqn:Q; [apply endswith_iff in Q; destruct Q as [r Q]; destruct (L3 r Q)|].
  apply check_name_valid. exact L4.
Qed.

Lemma undotted_aux s : has_char "." s = false -> forall k, undotted (replace_aux "Data_" "Data." s k) = sdrop k s.
Proof.
  induction s as [|c s IH]; intros ND k; [destruct k; reflexivity|].
  cbn [has_char] in ND. apply orb_false_iff in ND. destruct ND as [N1 N2].
  destruct k as [|k]; [|exact (IH N2 k)]. cbn [replace_aux].
  destruct (prefix "Data_" (String c s)) eqn:P.
  - apply prefix_spec in P. destruct P as [r P].
    assert (X : undotted ("Data." +++ replace_aux "Data_" "Data." s (String.length "Data_" - 1))
      = "Data_" +++ undotted (replace_aux "Data_" "Data." s (String.length "Data_" - 1))) by reflexivity.
    rewrite X, (IH N2), P. injection P as _ ->. reflexivity.
  - cbn [undotted smap sdrop]. rewrite Ascii.eqb_sym, N1 || (rewrite N1). f_equal. exact (IH N2 0).
Qed.

Lemma netcdf_name_undotted k : has_char "." k = false -> undotted (netcdf_name k) = k.
Proof. intro H. exact (undotted_aux k H 0). Qed.

Section Stored.
Variables (E : env) (o o' : sofa) (cv : convention) (a : dict nat) (ds : dict string).
Hypothesis V : verified E o o' cv a ds.
Hypothesis ST : storable cv o.

Lemma variable_in k e v : is_variable cv o k e v -> In k (variables cv o).
Proof.
  intros [D [T G]]. destruct (st_dims _ _ ST k e v) as [d [ED _]]; [split; auto|].
  unfold variables. apply in_or_app. left. apply filter_In. split; [apply dget_Some_In; eauto|]. rewrite D, ED. reflexivity.
Qed.

Lemma size_S n : size cv o "S" n -> longest cv o n.
Proof.
  intros [[X _]|[[X _]|[[_ L]|[c [l [r [X [H _]]]]]]]]; try discriminate; auto.
  exfalso. injection X as <-. discriminate.
Qed.

(** a variable in the file *)
Inductive held (k : string) (e : entry) (v : value) (alt : string) (n : nat) : list nat -> ncdata -> list nat -> bool -> Prop :=
| held_num sh fs t : e_type e = "double" -> Forall2 filed (elements v) fs -> stored_shape v (String.length alt) t ->
    has_char "S" alt = false -> prod (shape_of v) <> 0 ->
    held k e v alt n sh (DNum KF (Some (EFlt fill64)) (map EFlt fs)) t false
| held_txt sh ts t : e_type e = "string" -> elements v = map EStr ts -> (forall s, In s ts -> ascii_text s /\ String.length s <= n) ->
    stored_shape v (String.length alt - 1) t -> (exists b, alt = b +++ "S" /\ has_char "S" b = false) -> prod (shape_of v) <> 0 ->
    held k e v alt n sh (DChar (sconcat (fixed_width (Nat.max 1 n)) (map strip_nul ts))) (t ++ [Nat.max 1 n]) true.

Lemma variable_held k e v : is_variable cv o k e v -> exists d alt n sh data b t,
  e_dims e = Some d /\ In alt (alternatives d) /\ dget k ds = Some (upper alt) /\ dget "S" a = Some n
  /\ format_for_netcdf v k (e_type e) (upper alt) n = Ok (sh, data, b)
  /\ shape_in a (map str1 (chars (upper alt))) sh = Some t /\ fit_shape t sh = Ok tt
  /\ held k e v alt n sh data t b.
Proof.
  intro IV. assert (IV' := IV). destruct IV' as [D [T G]].
  destruct (vd_shape _ _ _ _ _ _ V k (variable_in k e v IV)) as [e' [d [v' [s [alt [S1 [S2 [S3 [S4 [S5 [S6 S7]]]]]]]]]]].
  rewrite D in S1. injection S1 as <-. rewrite G in S3. injection S3 as <-.
  destruct (st_dims _ _ ST k e v IV) as [d' [ED [TD AX]]]. rewrite S2 in ED. injection ED as <-.
  destruct (vd_type _ _ _ _ _ _ V k v G) as [e' [D' TY]]. rewrite D in D'. injection D' as <-.
  destruct (vd_S _ _ _ _ _ _ V) as [n GS].
  assert (LA : String.length (main_alternative d) = String.length alt).
  { destruct (TD alt S5) as [_ [L _]]. destruct (TD _ (main_in d alt S5)) as [_ [L' _]]. congruence. }
  rewrite LA in AX. assert (SV := st_sound _ _ ST k v G).
  assert (TT : e_type e = "double" \/ e_type e = "string").
  { unfold has_type in TY. destruct TY as [[X _]|[[X _]|[X _]]]; auto. contradiction. }
  destruct TT as [TT|TT]; rewrite TT in *.
  - destruct (number_format cv o a (vd_size _ _ _ _ _ _ V) v k d s alt n TY SV S4 TD S5 AX S7 (st_numbers _ _ ST k e v IV TT))
      as [sh [fs [t [F1 [F2 [F3 [F4 F5]]]]]]].
    exists d, alt, n, sh, (DNum KF (Some (EFlt fill64)) (map EFlt fs)), false, t.
    do 7 (split; [assumption|]). apply held_num; auto; [|apply (st_numbers _ _ ST k e v IV TT)].
    apply (TD alt S5). reflexivity.
  - destruct (st_texts _ _ ST k e v IV TT) as [AV NZ]. assert (RG := sound_text v TY SV). clear SV.
    assert (SN := proj1 (vd_size _ _ _ _ _ _ V "S" n) GS).
    assert (LE : forall t, In (EStr t) (elements v) -> String.length t <= n).
    { intros t IT. destruct (size_S n SN) as [LG _].
      destruct S4 as [s ls _ SS|_ X _|_ X _]; [|congruence..].
      assert (SV : string_variable cv o k).
      { split; [apply (variable_in k e v IV)|]. exists e, d. do 2 (split; [assumption|]).
        destruct (TD _ (main_in d alt S5)) as [_ [_ [_ [_ X]]]]. destruct (X eq_refl) as [b [-> _]].
        apply has_char_In. rewrite chars_app. apply in_or_app. right. left. reflexivity. }
      apply (LG k v s ls (String.length t) SV G SS).
      destruct (regular_array v "string" TY RG) as [ar [A1 [A2 [A3 [A4 [A5 [_ A6]]]]]]].
      destruct (rmap_bytes v TY AV (A6 eq_refl)) as [ts [B1 [B2 B3]]].
      destruct (strings_shape v s ls SS TY) as [_ [_ [_ [_ X]]]]. rewrite (X ts B1). apply in_map.
      rewrite B1 in IT. apply in_map_iff in IT. destruct IT as [u [Q IT]]. injection Q as <-. exact IT. }
    assert (NZ' : n = 0 -> prod (shape_of v) = 1) by (intros ->; auto).
    destruct (text_format cv o a (vd_size _ _ _ _ _ _ V) v k d s alt n TY RG AV S4 TD S5 AX S7 GS NZ' LE)
      as [sh [ts [t [F1 [F2 [F3 [F4 [F5 F6]]]]]]]].
    exists d, alt, n, sh, (DChar (sconcat (fixed_width (Nat.max 1 n)) (map strip_nul ts))), true, (t ++ [Nat.max 1 n]).
    do 7 (split; [assumption|]). apply held_txt; auto.
    + intros u IU. split; [|apply LE; rewrite F2; apply in_map; exact IU].
      destruct v as [b0 s0|e0|ar|l]; cbn [ascii_value elements] in *.
      * destruct ts as [|u' [|? ?]]; try discriminate. injection F2 as ->. destruct IU as [<-|[]]. exact AV.
      * unfold has_type in TY. destruct TY as [[X _]|[[X _]|[_ X]]]; try discriminate.
        destruct X as [[? [? X]]|[? [X _]]]; discriminate.
      * apply AV. rewrite F2. apply in_map. exact IU.
      * destruct ts; [destruct IU|discriminate].
    + apply (TD alt S5). reflexivity.
Qed.

Lemma entry_key_variable k : In k (entry_keys o') -> exists e v, is_variable cv o k e v.
Proof.
  intro I. unfold entry_keys in I. rewrite (vd_pub _ _ _ _ _ _ V) in I. apply filter_In in I. destruct I as [I1 I2].
  apply dget_Some_In in I1. destruct I1 as [v G]. destruct (vd_type _ _ _ _ _ _ V k v G) as [e [D _]].
  exists e, v. split; [exact D|]. split; [|exact G]. rewrite (vd_conv _ _ _ _ _ _ V), D in I2.
  destruct (String.eqb_spec (e_type e) "attribute"); [discriminate|assumption].
Qed.

Lemma variable_writable k e v : is_variable cv o k e v -> writable o' a k.
Proof.
  intro IV. destruct (variable_held k e v IV) as [d [alt [n [sh [data [b [t [H1 [H2 [H3 [H4 [H5 [H6 [H7 _]]]]]]]]]]]]]].
  assert (IV' := IV). destruct IV' as [D [T G]].
  exists e, v, (upper alt), ds, n, sh, data, b, t.
  rewrite (vd_conv _ _ _ _ _ _ V), (vd_pub _ _ _ _ _ _ V). do 3 (split; [assumption|]).
  split; [apply (vd_dims _ _ _ _ _ _ V)|]. do 5 (split; [assumption|]).
  destruct (st_name _ _ ST k e v IV) as [N1 N2]. split.
  { apply check_name_valid. exact N2. }
  intros j J. apply check_attr_legal. apply filter_In in J. destruct J as [J1 J2].
  assert (X := sdrop_prefix _ _ J2). rewrite slength_1 in X. rewrite sapp_assoc in X.
  apply (st_vattr _ _ ST k e v _ IV). unfold contained. cbn [append] in X. rewrite X in J1. exact J1.
Qed.

Lemma write_storable : exists f, write_content E o' empty_file = (f, Ok tt).
Proof.
  apply (write_content_total E o' a).
  - rewrite (vd_pub _ _ _ _ _ _ V). apply (vd_nodup _ _ _ _ _ _ V).
  - apply (vd_api _ _ _ _ _ _ V).
  - apply (vd_anodup _ _ _ _ _ _ V).
  - intros x I. apply dget_Some_In in I. destruct I as [n I]. apply (vd_size _ _ _ _ _ _ V) in I. eapply size_name. exact I.
  - intros k I. rewrite (vd_pub _ _ _ _ _ _ V) in I. apply filter_In in I. destruct I as [I1 I2].
    assert (X := sdrop_prefix _ _ I2). change (String.length "GLOBAL_") with 7 in X.
    apply check_attr_legal. apply (st_gattr _ _ ST). unfold contained. rewrite <- X. exact I1.
  - intros k I. rewrite (vd_pub _ _ _ _ _ _ V) in I. apply dget_Some_In in I. destruct I as [v G].
    destruct (vd_type _ _ _ _ _ _ V k v G) as [e [D TY]]. exists e. split; [rewrite (vd_conv _ _ _ _ _ _ V); exact D|].
    intro T. apply (variable_writable k e v). repeat split; auto.
  - intros j k J K Q. destruct (entry_key_variable j J) as [e [v IJ]]. destruct (entry_key_variable k K) as [e' [v' IK]].
    rewrite <- (netcdf_name_undotted j), <- (netcdf_name_undotted k), Q; [reflexivity| |].
    + apply (st_name _ _ ST k e' v' IK).
    + apply (st_name _ _ ST j e v IJ).
Qed.
End Stored.
