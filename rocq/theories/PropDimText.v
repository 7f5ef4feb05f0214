(** What list_dimensions tells about the dimensions (C107). *)
From Coq Require Import ZArith.
From Verif Require Import Base PyStr PyNum NdArray Sofa Verify Listing Utils Io Stream Demo SpecAttr SpecInit SpecVerify SpecListing
  BaseFacts StrFacts CoreFacts AttrFacts OpFacts InitFacts MissingFacts ValidFacts DictFacts IssueFacts EqualsFacts DimFacts RoundFacts
  DemoFacts PropVerify PropRound PropListing PropStream PropStreamInfo.
Open Scope nat_scope.
Open Scope string_scope.
Open Scope list_scope.

(** ** Specification *)

(** [t] occurs in [s] *)
Definition within (t s : string) : Prop := exists a b, s = a +++ t +++ b.

(** what the dimension N counts for the data type [dt] *)
Definition counted (dt d : string) : Prop :=
  ((exists r, dt = "FIR" +++ r) /\ d = "samples") \/ ((exists r, dt = "TF" +++ r) /\ d = "frequencies")
  \/ ((exists r, dt = "SOS" +++ r) /\ d = "SOS coefficients").

(** what a dimension of positions counts for the coordinate type [t] *)
Definition placed (who t d : string) : Prop :=
  (within "harmonic" t /\ d = who +++ " spherical harmonics coefficients") \/ (~ within "harmonic" t /\ d = who).

(** [d] describes the dimension [x] for the data type [dt] and the types of the positions
    of receivers and emitters *)
Definition means (dt rt et x d : string) : Prop :=
  (x = "M" /\ d = "measurements") \/ (x = "N" /\ counted dt d) \/ (x = "R" /\ placed "receiver" rt d)
  \/ (x = "E" /\ placed "emitter" et d) \/ (x = "S" /\ d = "maximum string length")
  \/ (x = "C" /\ d = "coordinate dimensions, fixed") \/ (x = "I" /\ d = "single dimension, fixed")
  \/ (~ In x ["M"; "N"; "R"; "E"; "S"; "C"; "I"] /\ d = "custom dimension").

(** the dimensions of [e] use [x] *)
Definition uses (x : string) (e : entry) : Prop := exists d, e_dims e = Some d /\ within (lower x) d.

(** [r] names the first of the entries that uses [x] *)
Definition set_by (entries : list (string * entry)) (x r : string) : Prop :=
  (exists pre k e d post, entries = pre ++ (k, e) :: post /\ e_dims e = Some d /\ within (lower x) d
     /\ (forall j f, In (j, f) pre -> ~ uses x f) /\ r = " (set by " +++ k +++ " of dimension " +++ upper d +++ ")")
  \/ ((forall j f, In (j, f) entries -> ~ uses x f) /\ r = "").

(** the attribute [k] has the text [s] *)
Definition text_at (o : sofa) (k s : string) : Prop := exists b, dget k (pub o) = Some (VStr b s).

(** ** Proofs *)
Lemma update_reset E o o1 e1 u : update_dimensions E o = (o1, e1, Ok u) ->
  exists r, reset_convention E o = (r, [], Ok tt) /\ grow r o1.
Proof.
  intro H1. unfold update_dimensions in H1.
  apply bind_Ok in H1. destruct H1 as [o2 [e5 [iss [e6 [H1 [H2 _]]]]]].
  apply bind_Ok in H2. destruct H2 as [o2' [e7 [u' [e8 [H2 [H3 _]]]]]]. inversion H2; subst. clear H2. rename u' into o2.
  assert (o2 = o1) as ->.
  { destruct iss as [i|]; [|inversion H3; auto]. destruct (_ || _); [discriminate|]. inversion H3; auto. }
  destruct (reset_none_or E o) as [[x R]|[r R]].
  { unfold verify in H1. rewrite verify_gen_eq in H1. rewrite (bind_fails _ _ _ _ _ _ R) in H1. discriminate. }
  exists r. split; [exact R|]. unfold verify in H1.
  destruct (verify_gen_obj (normative_keys E) E HReturn VWrite o) as [[_ H]|[o3 [K1 [_ [_ K2]]]]].
  - destruct H as [x [H _]]. rewrite H1 in H. discriminate H.
  - rewrite R in K1. injection K1 as <-. rewrite H1 in K2. exact K2.
Qed.

Lemma dupdate_apart {A} (cu : dict A) : forall cv : dict A, NoDup (dkeys cu) -> (forall k, In k (dkeys cu) -> ~ In k (dkeys cv)) ->
  dupdate cv cu = cv ++ cu.
Proof.
  unfold dupdate. induction cu as [|[k x] cu IH]; intros cv ND D; cbn [fold_left fst snd]; [rewrite app_nil_r; reflexivity|].
  inversion ND; subst. rewrite dset_new by (apply D; left; reflexivity). rewrite IH, <- app_assoc; [reflexivity|assumption|].
  intros j J. unfold dkeys. rewrite map_app. cbn. intro X. apply in_app_or in X. destruct X as [X|[->|[]]]; [|contradiction].
  apply (D j); [right; exact J|exact X].
Qed.

Lemma within_iff t s : contains t s = true <-> within t s.
Proof. apply contains_iff. Qed.
Lemma within_not t s : contains t s = false -> ~ within t s.
Proof. intros H W. apply within_iff in W. congruence. Qed.

(** the entries after reading the convention *)
Lemma reset_entries E o r cv : db_ok E -> dicts_ok o -> convention_of E o cv -> reset_convention E o = (r, [], Ok tt) ->
  conv r = cv ++ own_custom cv o.
Proof.
  intros DB [_ DO] CV R.
  destruct (reset_convention_cases E o) as [[e H]|[c [b [v [cv' [H1 [H2 [H3 [H4 H]]]]]]]]]; [rewrite H in R; discriminate|].
  assert (cv' = cv) as ->.
  { destruct (load_has_file E c _ cv' DB (verify_cv_number E c _ H3 DB) H4) as [content [HF ->]].
    apply (convention_unique E o _ _ DB CV). exists b, c, v, content. auto. }
  rewrite H in R. injection R as <-. unfold own_custom. destruct (custom o) as [cu|]; cbn [conv with_conv with_custom].
  - apply dupdate_apart; [apply (NoDup_filter_keys _ _ DO)|]. intros k I. unfold keep_custom, dkeys in I.
    apply in_map_iff in I. destruct I as [[j e] [<- I]]. apply filter_In in I. destruct I as [_ I]. cbn [fst] in *.
    apply negb_true_iff in I. apply dmem_false in I. exact I.
  - rewrite app_nil_r. reflexivity.
Qed.

Lemma find_set_by x entries :
  set_by entries x match find (fun ke : string * entry => match e_dims (snd ke) with
                                  | Some d => contains (lower x) d
                                  | None => false
                                  end) entries with
            | Some (k2, e2) => " (set by " +++ k2 +++ " of dimension "
                +++ upper (match e_dims e2 with Some d => d | None => "" end) +++ ")"
            | None => ""
            end.
Proof.
  assert (NU : forall f, match e_dims f with Some d => contains (lower x) d | None => false end = false -> ~ uses x f).
  { intros f H [d [Q W]]. rewrite Q in H. exact (within_not _ _ H W). }
  induction entries as [|[k e] l IH]; [right; split; [intros j f []|reflexivity]|]. cbn [find snd].
  destruct (match e_dims e with Some d => contains (lower x) d | None => false end) eqn:M.
  - left. destruct (e_dims e) as [d|] eqn:Q; [|discriminate]. exists [], k, e, d, l. split; [reflexivity|]. split; [exact Q|].
    split; [apply within_iff; exact M|]. split; [intros j f []|reflexivity].
  - apply NU in M. destruct IH as [[pre [k1 [e1 [d [post [-> [Q [W [N R]]]]]]]]]|[N R]].
    + left. exists ((k, e) :: pre), k1, e1, d, post. split; [reflexivity|]. split; [exact Q|]. split; [exact W|]. split; [|exact R].
      intros j f [I|I]; [injection I as <- <-; exact M|exact (N j f I)].
    + right. split; [|exact R]. intros j f [I|I]; [injection I as <- <-; exact M|exact (N j f I)].
Qed.

Lemma counted_iff dt n : (if startswith "FIR" dt then Some "samples"
                   else if startswith "TF" dt then Some "frequencies"
                   else if startswith "SOS" dt then Some "SOS coefficients" else None) = Some n -> counted dt n.
Proof.
  intro H. unfold counted.
  destruct (startswith "FIR" dt) eqn:F; [left; apply startswith_iff in F; split; [exact F|congruence]|].
  destruct (startswith "TF" dt) eqn:T; [right; left; apply startswith_iff in T; split; [exact T|congruence]|].
  destruct (startswith "SOS" dt) eqn:Q; [right; right; apply startswith_iff in Q; split; [exact Q|congruence]|discriminate].
Qed.

Lemma placed_if who t : placed who t (if contains "harmonic" t then who +++ " spherical harmonics coefficients" else who).
Proof.
  unfold placed. destruct (contains "harmonic" t) eqn:C; [left|right]; (split; [|reflexivity]).
  - apply within_iff. exact C.
  - apply within_not. exact C.
Qed.

Lemma names_mean dt rt et n x : counted dt n ->
  means dt rt et x
    match dget x [("M", "measurements"); ("N", n);
      ("R", if contains "harmonic" rt then "receiver spherical harmonics coefficients" else "receiver");
      ("E", if contains "harmonic" et then "emitter spherical harmonics coefficients" else "emitter");
      ("S", "maximum string length"); ("C", "coordinate dimensions, fixed");
      ("I", "single dimension, fixed")] with Some d => d | None => "custom dimension" end.
Proof.
  intro C. unfold means. cbn [dget].
  destruct (String.eqb_spec x "M") as [->|N1]; [left; auto|right].
  destruct (String.eqb_spec x "N") as [->|N2]; [left; auto|right].
  destruct (String.eqb_spec x "R") as [->|N3]; [left; split; [reflexivity|exact (placed_if "receiver" rt)]|right].
  destruct (String.eqb_spec x "E") as [->|N4]; [left; split; [reflexivity|exact (placed_if "emitter" et)]|right].
  destruct (String.eqb_spec x "S") as [->|N5]; [left; auto|right].
  destruct (String.eqb_spec x "C") as [->|N6]; [left; auto|right].
  destruct (String.eqb_spec x "I") as [->|N7]; [left; auto|right].
  split; [|reflexivity]. cbn [In]. intros [Q|[Q|[Q|[Q|[Q|[Q|[Q|[]]]]]]]]; congruence.
Qed.

(** ** C107 *)
(** Every printed line has the size, the meaning and the variable that sets the
    dimension. Missing for the full claim: list_dimensions raises for some valid objects
    (C64_refuted), and the named variable need not be contained, see [C107_refuted]. *)
Theorem C107_told_partial : forall E o o' ev, db_ok E -> dicts_ok o ->
  list_dimensions E o = (o', ev, Ok tt) ->
  exists before text cv l dt rt et, ev = before ++ [EvPrint text] /\ convention_of E o cv
    /\ text_at o' "GLOBAL_DataType" dt /\ text_at o' "ReceiverPosition_Type" rt /\ text_at o' "EmitterPosition_Type" et
    /\ (forall x n, In (x, n) l <-> size cv o' x n)
    /\ table text "" l (fun xn r => exists d s, means dt rt et (fst xn) d /\ set_by (cv ++ own_custom cv o) (fst xn) s
         /\ r = fst xn +++ " = " +++ nat_str (snd xn) +++ " " +++ d +++ s +++ nl).
Proof.
  intros E o o' ev DB DO H. unfold list_dimensions in H.
  apply bind_Ok in H. destruct H as [o1 [e1 [u [e2 [H1 [H ->]]]]]]. rewrite bind_get in H.
  destruct (update_dimensions_fresh E o o1 e1 u DB DO H1) as [cv [od [s [C [A [HD [S1 _]]]]]]].
  assert (ND := detect_nodup od s HD).
  destruct (update_reset E o o1 e1 u H1) as [r [R G]].
  assert (CE : conv o1 = cv ++ own_custom cv o) by (rewrite (gr_conv _ _ G); apply (reset_entries E o r cv DB DO C R)).
  rewrite A in H.
  apply bind_Ok in H. destruct H as [q1 [f1 [dt [f2 [L1 [H ->]]]]]]. unfold lift, getattr in L1.
  destruct (dget "GLOBAL_DataType" (pub o1)) as [vd|] eqn:GD; [|discriminate L1]. injection L1 as <- <- <-.
  apply bind_Ok in H. destruct H as [q1 [f3 [dt2 [f4 [L1 [H ->]]]]]].
  destruct vd as [bd ds| | |]; try discriminate L1. injection L1 as <- <- <-.
  apply bind_Ok in H. destruct H as [q1 [f3 [rr [f5 [L1 [H ->]]]]]]. unfold lift, getattr in L1.
  destruct (dget "ReceiverPosition_Type" (pub o1)) as [vr|] eqn:GR; [|discriminate L1]. cbn [rbind] in L1.
  destruct vr as [br rt| | |]; try discriminate L1. injection L1 as <- <- <-.
  apply bind_Ok in H. destruct H as [q1 [f3 [re [f6 [L1 [H ->]]]]]]. unfold lift, getattr in L1.
  destruct (dget "EmitterPosition_Type" (pub o1)) as [ve|] eqn:GE; [|discriminate L1]. cbn [rbind] in L1.
  destruct ve as [be et| | |]; try discriminate L1. injection L1 as <- <- <-.
  apply bind_Ok in H. destruct H as [q1 [f3 [nn [f7 [L1 [H ->]]]]]].
  assert (CN : counted ds nn /\ q1 = o1 /\ f3 = []).
  { destruct (if startswith "FIR" ds then _ else _) as [n|] eqn:Q; [|discriminate L1]. injection L1 as <- <- <-.
    split; [exact (counted_iff ds n Q)|auto]. }
  destruct CN as [CN [-> ->]]. clear L1. unfold emit in H. injection H as <- <-.
  eexists e1, _, cv, (fixed_sizes s), ds, rt, et. split; [reflexivity|]. split; [exact C|].
  split; [exists bd; exact GD|]. split; [exists br; exact GR|]. split; [exists be; exact GE|]. split.
  { intros x n. rewrite <- S1. split; [apply In_dget; exact ND|apply dget_In]. }
  match goal with |- table (sconcat ?g ?a) _ _ _ => exists (map g a); split; [generalize a|] end.
  - clear. intro a. cbn [append]. induction a as [|x a IH]; [reflexivity|]. cbn [sconcat map]. rewrite <- IH. reflexivity.
  - rewrite CE. generalize (fixed_sizes s). intro a. induction a as [|[k n] a IH]; constructor; [|exact IH].
    cbn [fst snd]. eexists _, _. split; [apply (names_mean ds rt et nn k CN)|]. split; [apply find_set_by|]. reflexivity.
Qed.
Print Assumptions C107_told_partial.

(** opened files *)
Theorem C107_stream : forall f text, stream_list_dimensions f = Ok text ->
  exists dt rt et br be bd r e,
    dget "DataType" (nf_attrs f) = Some (VStr bd dt)
    /\ dget "ReceiverPosition" (nf_vars f) = Some r /\ dget "Type" (nv_attrs r) = Some (VStr br rt)
    /\ dget "EmitterPosition" (nf_vars f) = Some e /\ dget "Type" (nv_attrs e) = Some (VStr be et)
    /\ table text "" (nf_dims f) (fun xn l => exists d, means dt rt et (fst xn) d
         /\ l = fst xn +++ " = " +++ nat_str (fst (snd xn)) +++ " " +++ d +++ nl).
Proof.
  intros f text H.
  assert (HB : stream_dimensions_text f = Ok text)
    by (unfold stream_list_dimensions in H; destruct (stream_dimensions_text f) as [u|[[] m]]; try discriminate H; try exact H;
        destruct (_ || _); discriminate H).
  clear H. rename HB into H. unfold stream_dimensions_text, dgetE, getncattr in H.
  destruct (dget "DataType" (nf_attrs f)) as [[bd dt| | |]|] eqn:GD; cbn [rbind] in H; try discriminate H. cbv zeta in H.
  destruct (dget "ReceiverPosition" (nf_vars f)) as [r|] eqn:GR; cbn [rbind] in H; [|discriminate H].
  destruct (dget "Type" (nv_attrs r)) as [[br rt| | |]|] eqn:GRT; cbn [rbind] in H; try discriminate H.
  destruct (dget "EmitterPosition" (nf_vars f)) as [e|] eqn:GE; cbn [rbind] in H; [|discriminate H].
  destruct (dget "Type" (nv_attrs e)) as [[be et| | |]|] eqn:GET; cbn [rbind] in H; try discriminate H.
  destruct (if startswith "FIR" dt then _ else _) as [n|] eqn:Q; cbn [rbind] in H; [|discriminate H].
  apply counted_iff in Q. injection H as <-.
  exists dt, rt, et, br, be, bd, r, e. repeat (split; [first [reflexivity|assumption]|]).
  match goal with |- table (sconcat ?g ?a) _ _ _ => exists (map g a); split; [rewrite sconcat_map; reflexivity|] end.
  clear - Q. induction (nf_dims f) as [|[k [m u]] l IH]; constructor; [|exact IH]. cbn [fst snd].
  eexists. split; [apply (names_mean dt rt et n k Q)|reflexivity].
Qed.
Print Assumptions C107_stream.

Example C107_case :
  m_out (list_dimensions demo trip) = [EvPrint (
    "R = 2 receiver (set by ReceiverPosition of dimension RCI, RCM)" +++ nl +++
    "E = 1 emitter (set by EmitterPosition of dimension ECI, ECM)" +++ nl +++
    "M = 2 measurements (set by Data_IR of dimension MRN)" +++ nl +++
    "N = 3 samples (set by Data_IR of dimension MRN)" +++ nl +++
    "C = 3 coordinate dimensions, fixed" +++ nl +++ "I = 1 single dimension, fixed" +++ nl +++
    "S = 6 maximum string length" +++ nl)]
  /\ dicts_ok trip
  /\ is_ok (stream_list_dimensions trip_file) = true.
Proof. split; [vm_compute; reflexivity|]. split; [exact trip_dicts|]. vm_compute. reflexivity. Qed.

(** an optional variable that is declared first *)
Definition extra_conv : convention :=
  List.concat (map (fun ke => if String.eqb (fst ke) "Data.IR" then [("Extra", var None "m" (VScal (EInt 0%Z))); ke] else [ke]) (hrir "1.0")).
Definition extra : env :=
  Env [("SimpleFreeFieldHRIR_1.0.json", extra_conv)] [] demo_aliases [] [] (fun _ => "?") (fun _ => "") "now" "sofar" "3".
Definition extra_sofa : sofa :=
  match sofa_init extra "SimpleFreeFieldHRIR" true "latest" VAuto with (_, Ok o) => o | _ => empty_sofa end.
(** The number of measurements is said to be set by a variable that the object does not
    have. *)
Theorem C107_refuted :
  m_res (verify extra HRaise VWrite extra_sofa) = Ok None /\ ~ contained extra_sofa "Extra"
  /\ exists before after, m_out (list_dimensions extra extra_sofa)
       = [EvPrint (before +++ "M = 1 measurements (set by Extra of dimension M)" +++ nl +++ after)].
Proof.
  split; [vm_compute; reflexivity|]. split.
  - assert (X : smem "Extra" (dkeys (pub extra_sofa)) = false) by (vm_compute; reflexivity). apply smem_false in X. exact X.
  - exists ("R = 2 receiver (set by ReceiverPosition of dimension RCI, RCM)" +++ nl +++
      "E = 1 emitter (set by EmitterPosition of dimension ECI, ECM)" +++ nl).
    eexists. vm_compute. reflexivity.
Qed.
Print Assumptions C107_refuted.
