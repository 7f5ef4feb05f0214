(** C98: the reference form of unit strings. *)
From Verif Require Import Base PyStr PyNum NdArray Sofa Verify RefUnit Demo
  SpecAttr SpecInit SpecVerify BaseFacts StrFacts RuleFacts VerifyFacts PropVerify.
From Coq Require Import Lia.
Open Scope string_scope.
Open Scope list_scope.

(** [listed l s]: the text [s] lists the units [l]; a comma, a comma and a space, or a
    space separates two units *)
Inductive listed : list string -> string -> Prop :=
| listed_one u : has_char "," u = false -> has_char " " u = false -> listed [u] u
| listed_both u l s : has_char "," u = false -> has_char " " u = false -> listed l s -> listed (u :: l) (u +++ ", " +++ s)
| listed_comma u l s : has_char "," u = false -> has_char " " u = false -> listed l s ->
    startswith " " s = false -> listed (u :: l) (u +++ "," +++ s)
| listed_space u l s : has_char "," u = false -> has_char " " u = false -> listed l s -> listed (u :: l) (u +++ " " +++ s).

Lemma cut u t c : has_char "," u = false -> has_char " " u = false ->
  re_split_comma_space (u +++ String c t) =
  match re_split_comma_space (String c t) with h :: r => (u +++ h) :: r | [] => [u] end.
Proof.
  unfold re_split_comma_space. intros H1 H2. induction u as [|x u IH].
  - cbn [String.append]. destruct (re_split_comma_space_aux (String c t) false) eqn:D; [|reflexivity].
    cbn in D. destruct (Ascii.eqb c ","), (Ascii.eqb c " "); try discriminate.
    destruct (re_split_comma_space_aux t false); discriminate.
  - cbn [has_char] in H1, H2. apply orb_false_iff in H1, H2. destruct H1 as [H1 H1'], H2 as [H2 H2'].
    change (String x u +++ String c t) with (String x (u +++ String c t)).
    cbn [re_split_comma_space_aux]. rewrite (Ascii.eqb_sym x ","), H1, (Ascii.eqb_sym x " "), H2, IH by assumption.
    cbn [re_split_comma_space_aux]. destruct (Ascii.eqb c ","), (Ascii.eqb c " ").
    1-3: reflexivity. destruct (re_split_comma_space_aux t false); reflexivity.
Qed.

Lemma cut_one u : has_char "," u = false -> has_char " " u = false -> re_split_comma_space u = [u].
Proof.
  unfold re_split_comma_space. induction u as [|x u IH]; intros H1 H2; [reflexivity|].
  cbn [has_char] in H1, H2. apply orb_false_iff in H1, H2. destruct H1 as [H1 H1'], H2 as [H2 H2'].
  cbn [re_split_comma_space_aux]. rewrite (Ascii.eqb_sym x ","), H1, (Ascii.eqb_sym x " "), H2, IH by assumption. reflexivity.
Qed.

Lemma listed_split l s : listed l s -> re_split_comma_space s = l.
Proof.
  intro H. induction H as [u H1 H2|u l s H1 H2 U IH|u l s H1 H2 U IH N|u l s H1 H2 U IH].
  - apply cut_one; assumption.
  - change (", " +++ s) with (String "," (String " " s)). rewrite cut by assumption.
    replace (re_split_comma_space (String "," (String " " s))) with ("" :: re_split_comma_space s).
    + rewrite sapp_nil_r, IH. reflexivity.
    + unfold re_split_comma_space. cbn [re_split_comma_space_aux Ascii.eqb Bool.eqb].
      replace (String.prefix " " (String " " s)) with true by (cbn; destruct s; reflexivity). reflexivity.
  - change ("," +++ s) with (String "," s). rewrite cut by assumption.
    replace (re_split_comma_space (String "," s)) with ("" :: re_split_comma_space s).
    + rewrite sapp_nil_r, IH. reflexivity.
    + unfold re_split_comma_space. cbn [re_split_comma_space_aux Ascii.eqb Bool.eqb].
      unfold startswith in N. rewrite N. reflexivity.
  - change (" " +++ s) with (String " " s). rewrite cut by assumption.
    replace (re_split_comma_space (String " " s)) with ("" :: re_split_comma_space s).
    + rewrite sapp_nil_r, IH. reflexivity.
    + reflexivity.
Qed.

Lemma aliased al us rs : Forall2 (fun u r => dget u al = Some r) us rs -> rmap (fun u => @dgetE string u al) us = Ok rs.
Proof.
  induction 1 as [|u r us rs H F IH]; [reflexivity|]. cbn [rmap]. unfold dgetE at 1. rewrite H. cbn [rbind]. rewrite IH. reflexivity.
Qed.

(** The reference form of a list of units consists of the reference units, separated by a
    comma and a space, in whatever way they were separated before; cubic units are
    separated by a space. *)
Theorem C98_reference :
  forall al s us r rs, listed us (lower s) -> Forall2 (fun u r => dget u al = Some r) us (r :: rs) ->
  get_reference_unit s al = Ok (join (if String.eqb r "cubic" then " " else ", ") (r :: rs)).
Proof.
  intros al s us r rs U F. unfold get_reference_unit. rewrite (listed_split _ _ U), (aliased _ _ _ F). cbn [rbind].
  destruct (String.eqb r "cubic"); reflexivity.
Qed.
Print Assumptions C98_reference.

Example C98_reference_case :
  listed ["degrees"; "degrees"; "meter"] (lower "Degrees degrees,meter")
  /\ get_reference_unit "Degrees degrees,meter" demo_aliases = Ok "degree, degree, metre".
Proof.
  split; [|vm_compute; reflexivity].
  apply (listed_space "degrees" ["degrees"; "meter"] "degrees,meter"); [reflexivity|reflexivity|].
  apply (listed_comma "degrees" ["meter"] "meter"); [reflexivity|reflexivity| |reflexivity].
  apply listed_one; reflexivity.
Qed.

Lemma units_listed us s : units us s -> Forall (fun u => has_char " " u = false) us -> listed us s.
Proof.
  induction 1 as [u H|u l s H U IH|u l s H U IH N]; intro F; inversion F as [|? ? F1 F2]; subst.
  - constructor; assumption.
  - apply listed_both; auto.
  - apply listed_comma; auto.
Qed.

Lemma joined_units rs : rs <> [] -> Forall (fun u => has_char "," u = false) rs -> units rs (join ", " rs).
Proof.
  induction rs as [|u [|u' rs] IH]; intros N F; [congruence| |]; inversion F as [|? ? F1 F2]; subst.
  - constructor. exact F1.
  - apply (units_space u (u' :: rs) (join ", " (u' :: rs))); [exact F1|]. apply IH; [discriminate|exact F2].
Qed.

(** Every unit string that verify accepts has the reference form that the rules demand,
    which verify accepts again.
    Missing: aliases that contain spaces ([C98_refuted]) and references with cubic units. *)
Theorem C98_accepted_partial :
  forall E key b s r rs, endswith "Units" key = true ->
  r :: rs <> [] -> r <> "cubic" ->
  Forall (fun u => has_char "," u = false) (r :: rs) ->
  Forall (fun u => dget u (aliases E) = Some u) (r :: rs) ->
  (forall u, In u (dkeys (aliases E)) -> has_char " " u = false) ->
  lower (join ", " (r :: rs)) = join ", " (r :: rs) ->
  verify_value (VStr b s) (Some [join ", " (r :: rs)]) (aliases E) key = Ok true ->
  get_reference_unit s (aliases E) = Ok (join ", " (r :: rs))
  /\ verify_value (VStr b (join ", " (r :: rs))) (Some [join ", " (r :: rs)]) (aliases E) key = Ok true.
Proof.
  intros E key b s r rs KU NE NC F1 F2 NS LO V. set (l := r :: rs) in *.
  split; [|apply C20_unit_strings_partial; auto].
  apply C20_unit_strings_partial in V; [|exact KU].
  assert (G : forall us, units us (lower s) -> Forall2 (fun u r => dget u (aliases E) = Some r) us l ->
    get_reference_unit s (aliases E) = Ok (join ", " l)).
  { intros us U F. rewrite (C98_reference (aliases E) s us r rs); [| |exact F].
    - apply String.eqb_neq in NC. rewrite NC. reflexivity.
    - apply units_listed; [exact U|]. apply Forall_forall. intros u I. apply NS.
      clear - F I. induction F as [|x y us l H F IH]; [destruct I|]. destruct I as [->|I]; [|auto].
      apply dget_Some_In. eauto. }
  assert (SELF : Forall2 (fun u r => dget u (aliases E) = Some r) l l) by (clear - F2; induction F2; constructor; auto).
  destruct V as [->|[V|[us [rs' [U [R F]]]]]].
  - apply (G l); [rewrite LO; apply joined_units; assumption|exact SELF].
  - apply (G l); [rewrite V; apply joined_units; assumption|exact SELF].
  - apply (G us); [exact U|]. pose proof (units_split _ _ R) as Q.
    rewrite (units_split _ _ (joined_units l NE F1)) in Q. subst rs'. exact F.
Qed.
Print Assumptions C98_accepted_partial.

Example C98_case :
  verify_value (VStr false "Degrees,degree, METERS") (Some ["degree, degree, metre"]) (aliases demo) "ListenerPosition_Units" = Ok true
  /\ join ", " ["degree"; "degree"; "metre"] = "degree, degree, metre"
  /\ forallb (fun u => negb (has_char " " u)) (dkeys (aliases demo)) = true
  /\ get_reference_unit "Degrees,degree, METERS" (aliases demo) = Ok "degree, degree, metre".
Proof. vm_compute. auto. Qed.

(** An accepted unit that consists of two words has no reference form, and the string in
    the documentation of the function is not accepted. *)
Theorem C98_refuted :
  (exists al s r, verify_value (VStr false s) (Some [r]) al "RoomVolume_Units" = Ok true
     /\ get_reference_unit s al = Err (Exn EKeyError "cubic"))
  /\ verify_value (VStr false "degrees degrees,meter") (Some ["degree, degree, metre"]) (aliases demo) "ListenerPosition_Units" = Ok false
  /\ get_reference_unit "degrees degrees,meter" (aliases demo) = Ok "degree, degree, metre".
Proof.
  split.
  - exists [("cubic metre", "cubic metre"); ("cubic meter", "cubic metre")], "Cubic meter", "cubic metre". vm_compute. auto.
  - vm_compute. auto.
Qed.
Print Assumptions C98_refuted.
