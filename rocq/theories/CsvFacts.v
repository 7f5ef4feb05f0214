(** Lemmas about reading csv files. *)
From Verif Require Import Base PyStr PyNum NdArray Sofa UpdateConv SpecUpdate
  BaseFacts StrFacts WriteFacts RoundFacts StreamFacts UpdateFacts.
From Coq Require Import Lia ZArith NArith DecimalN DecimalPos.
Open Scope string_scope.
Open Scope list_scope.
Open Scope nat_scope.

(** ** Order of the keys *)
Lemma dkeys_dset {A} k (v : A) d : dkeys (dset k v d) = if smem k (dkeys d) then dkeys d else dkeys d ++ [k].
Proof.
  destruct (smem k (dkeys d)) eqn:M.
  - apply smem_In in M. apply dkeys_dset_mem, M.
  - apply smem_false in M. rewrite (dset_new k v d M). unfold dkeys. rewrite map_app. reflexivity.
Qed.

Lemma ddel_keys {A} k (d : dict A) : NoDup (dkeys d) -> dkeys (ddel k d) = filter (fun y => negb (String.eqb y k)) (dkeys d).
Proof.
  induction d as [|[j v] d IH]; intro ND; [reflexivity|]. inversion ND as [|? ? NI ND']; subst.
  cbn [ddel dkeys map fst filter]. rewrite (String.eqb_sym j k). destruct (String.eqb_spec k j) as [->|NE]; cbn [negb].
  - change (map fst d) with (dkeys d). symmetry. clear IH ND ND'.
    assert (G : forall l, ~ In j l -> filter (fun y => negb (String.eqb y j)) l = l).
    { induction l as [|x l IH]; intro N; [reflexivity|]. cbn [filter]. rewrite eqb_neq_s; [|intros ->; apply N; left; reflexivity].
      cbn [negb]. f_equal. apply IH. intro I. apply N. right. exact I. }
    apply G, NI.
  - cbn [dkeys map fst]. f_equal. apply IH, ND'.
Qed.

Lemma to_end_keys {A} k (d : dict A) : NoDup (dkeys d) -> In k (dkeys d) ->
  dkeys (to_end k d) = filter (fun y => negb (String.eqb y k)) (dkeys d) ++ [k].
Proof.
  intros ND I. unfold to_end. apply dget_Some_In in I. destruct I as [v G]. rewrite G, dkeys_dset, (ddel_keys k d ND).
  destruct (smem k _) eqn:M; [|reflexivity]. exfalso. apply smem_In, filter_In in M. destruct M as [_ M].
  rewrite String.eqb_refl in M. discriminate M.
Qed.
Lemma to_end_NoDup {A} k (d : dict A) : NoDup (dkeys d) -> NoDup (dkeys (to_end k d)).
Proof. intro ND. unfold to_end. destruct (dget k d); [apply NoDup_dset, NoDup_ddel, ND|exact ND]. Qed.
Lemma to_end_get {A} k (d : dict A) q : NoDup (dkeys d) -> dget q (to_end k d) = dget q d.
Proof.
  intro ND. unfold to_end. destruct (dget k d) as [v|] eqn:G; [|reflexivity]. rewrite dget_dset.
  destruct (String.eqb_spec q k) as [->|NE]; [symmetry; exact G|apply dget_ddel_other, NE].
Qed.

Lemma filter_filter {A} (f g : A -> bool) l : filter f (filter g l) = filter (fun x => g x && f x) l.
Proof.
  induction l as [|x l IH]; [reflexivity|]. cbn [filter]. destruct (g x); cbn [filter andb]; [|exact IH].
  destruct (f x); [f_equal|]; exact IH.
Qed.
Lemma filter_all {A} (f : A -> bool) l : (forall x, In x l -> f x = true) -> filter f l = l.
Proof.
  induction l as [|x l IH]; intro H; [reflexivity|]. cbn [filter]. rewrite (H x (or_introl eq_refl)). f_equal.
  apply IH. intros y I. apply H. right. exact I.
Qed.

Lemma move_keys_keys {A} cond ks : forall d : dict A, NoDup (dkeys d) -> NoDup ks -> incl ks (dkeys d) ->
  dkeys (move_keys cond ks d) = filter (fun y => negb (smem y (filter cond ks))) (dkeys d) ++ filter cond ks /\
  NoDup (dkeys (move_keys cond ks d)).
Proof.
  unfold move_keys. induction ks as [|k ks IH]; intros d ND NK IN; cbn [fold_left filter].
  - split; [|exact ND]. rewrite app_nil_r. symmetry. apply filter_all. reflexivity.
  - inversion NK as [|? ? NI NK']; subst. destruct (cond k) eqn:C.
    + assert (IK : In k (dkeys d)) by (apply IN; left; reflexivity).
      destruct (IH (to_end k d)) as [E N]; [apply to_end_NoDup, ND|exact NK'| |].
      { intros y I. rewrite (to_end_keys k d ND IK). apply in_or_app. left. apply filter_In. split; [apply IN; right; exact I|].
        rewrite eqb_neq_s; [reflexivity|]. intros ->. apply NI, I. }
      split; [|exact N]. rewrite E, (to_end_keys k d ND IK), filter_app, filter_filter. cbn [filter].
      assert (NF : smem k (filter cond ks) = false) by (apply smem_false; intro I; apply filter_In in I; apply NI, I).
      rewrite NF. cbn [negb]. rewrite <- app_assoc. cbn [app]. f_equal. apply filter_ext. intro y. cbn [smem existsb].
      rewrite negb_orb. reflexivity.
    + destruct (IH d ND NK') as [E N]; [intros y I; apply IN; right; exact I|]. split; [exact E|exact N].
Qed.

Lemma move_keys_get {A} cond ks : forall (d : dict A) q, NoDup (dkeys d) -> dget q (move_keys cond ks d) = dget q d.
Proof.
  unfold move_keys. induction ks as [|k ks IH]; intros d q ND; cbn [fold_left]; [reflexivity|].
  destruct (cond k); [|apply IH, ND]. rewrite IH; [apply to_end_get, ND|apply to_end_NoDup, ND].
Qed.

Lemma filter_not_in {f} (l : list string) : filter (fun y => negb (smem y (filter f l))) l = filter (fun y => negb (f y)) l.
Proof.
  apply filter_ext_in. intros y I. f_equal. destruct (f y) eqn:E.
  - apply smem_In, filter_In. auto.
  - apply smem_false. intro X. apply filter_In in X. destruct X as [_ X]. congruence.
Qed.

Lemma filter_not_in2 {f} (l m : list string) : (forall y, In y l -> In y m) ->
  filter (fun y => negb (smem y (filter f m))) l = filter (fun y => negb (f y)) l.
Proof.
  intro H. apply filter_ext_in. intros y I. f_equal. destruct (f y) eqn:E.
  - apply smem_In, filter_In. auto.
  - apply smem_false. intro X. apply filter_In in X. destruct X as [_ X]. congruence.
Qed.

Lemma reorder_keys {A} (d : dict A) : NoDup (dkeys d) ->
  NoDup (dkeys (reorder d)) /\
  dkeys (reorder d) =
    filter (fun n => is_global n && negb (is_data n)) (dkeys d) ++
    filter (fun n => negb (is_global n) && negb (is_data n)) (dkeys d) ++
    filter is_data (dkeys d).
Proof.
  intro ND. unfold reorder.
  destruct (move_keys_keys (fun k => negb (contains "GLOBAL" k)) (dkeys d) d ND ND (incl_refl _)) as [E N].
  rewrite filter_not_in in E.
  assert (IN : incl (dkeys d) (dkeys (move_keys (fun k => negb (contains "GLOBAL" k)) (dkeys d) d))).
  { intros y I. rewrite E. apply in_or_app. destruct (contains "GLOBAL" y) eqn:C; [left|right]; apply filter_In; rewrite C; auto. }
  destruct (move_keys_keys (startswith "Data") (dkeys d) _ N ND IN) as [E2 N2].
  split; [exact N2|]. rewrite E2, E.
  rewrite (filter_not_in2 _ (dkeys d)).
  - rewrite filter_app, !filter_filter, <- app_assoc. f_equal.
    apply filter_ext. intro y. rewrite negb_involutive. reflexivity.
  - intros y I. apply in_app_or in I. destruct I as [I|I]; apply filter_In in I; apply I.
Qed.

Lemma reorder_get {A} (d : dict A) q : NoDup (dkeys d) -> dget q (reorder d) = dget q d.
Proof.
  intro ND. unfold reorder.
  destruct (move_keys_keys (fun k => negb (contains "GLOBAL" k)) (dkeys d) d ND ND (incl_refl _)) as [_ N].
  rewrite move_keys_get; [apply move_keys_get, ND|exact N].
Qed.

(** ** Rows *)
Lemma omap_nth {A B} (f : A -> option B) l : forall r, omap f l = Some r ->
  List.length r = List.length l /\
  forall i x, nth_error l i = Some x -> exists y, f x = Some y /\ nth_error r i = Some y.
Proof.
  induction l as [|x l IH]; intros r H; cbn [omap] in H.
  - injection H as <-. split; [reflexivity|]. intros [|i] x; discriminate.
  - destruct (f x) as [y|] eqn:FX; [|discriminate H]. destruct (omap f l) as [r'|]; [|discriminate H].
    injection H as <-. destruct (IH r' eq_refl) as [L N]. split; [cbn; now rewrite L|].
    intros [|i] z G; cbn in G; [injection G as <-; exists y; auto|]. apply (N i z G).
Qed.

Lemma number_not_str F s b n : number_of F s <> Some (VStr b n).
Proof. unfold number_of. destruct (has_char "." s); [destruct (float_of F s)|destruct (int_of s)]; discriminate. Qed.

Lemma parse_cell_name F s b n : parse_cell F s = Some (Some (VStr b n)) -> n = strip s.
Proof.
  unfold parse_cell. destruct (String.eqb (replace " " "" s) ""); [discriminate|].
  destruct (strip s) as [|c t]; [discriminate|]. destruct (negb (Ascii.eqb c "[")).
  - destruct (number_of F (String c t)) as [v|] eqn:NO; intro H.
    + injection H as H. subst v. destruct (number_not_str _ _ _ _ NO).
    + injection H as _ <-. reflexivity.
  - destruct (negb (has_char ";" (drop_end 1 t))).
    + unfold row_of. destruct (omap (number_of F) _); discriminate.
    + destruct (omap (row_of F) _); discriminate.
Qed.

Lemma parse_row_name F fields cells n e : parse_row F fields cells = Some (n, e) ->
  exists b, nth_error cells 0 = Some (Some (VStr b n)).
Proof.
  unfold parse_row. intro H.
  assert (X : exists b, nth_error (if (List.length cells =? 5) then cells ++ [Some (VStr false "")] else cells) 0 = Some (Some (VStr b n)) /\ 1 < List.length (if (List.length cells =? 5) then cells ++ [Some (VStr false "")] else cells)).
  { destruct (if (List.length cells =? 5) then _ else cells) as [|[v|] [|def rest]]; try discriminate H; destruct v as [b m| | |]; try discriminate H.
    destruct (if contains "Version" m then _ else _) as [def'|]; [|discriminate H].
    destruct (fill_fields fields (def' :: rest) []) as [e'|]; [|discriminate H]. injection H as <- <-.
    exists b. split; [reflexivity|]. cbn. lia. }
  destruct X as [b [X L]]. exists b. destruct (List.length cells =? 5) eqn:C; [|exact X].
  destruct cells; [discriminate C|exact X].
Qed.

Lemma line_row_name F fields l cells n e : parse_line F l = Some cells -> parse_row F fields cells = Some (n, e) -> n = line_name l.
Proof.
  intros P R. destruct (parse_row_name _ _ _ _ _ R) as [b N]. unfold parse_line in P. unfold line_name.
  destruct (split (str1 TAB) (strip l)) as [|c cs] eqn:SP.
  - cbn in P. injection P as <-. discriminate N.
  - cbn [omap] in P. destruct (parse_cell F c) as [y|] eqn:PC; [|discriminate P].
    destruct (omap (parse_cell F) cs) as [r|]; [|discriminate P]. injection P as <-. cbn in N. injection N as ->.
    cbn [hd]. apply (parse_cell_name F c b n PC).
Qed.

Lemma first_seen_filter g l : first_seen (filter g l) = filter g (first_seen l).
Proof.
  induction l as [|x l IH]; [reflexivity|]. cbn [filter first_seen]. destruct (g x) eqn:G.
  - cbn [first_seen]. f_equal. rewrite IH, !filter_filter. apply filter_ext. intro y. apply andb_comm.
  - rewrite IH, filter_filter. apply filter_ext_in. intros y I. destruct (String.eqb_spec y x) as [->|NE]; cbn [negb andb]; [exact G|reflexivity].
Qed.

Lemma add_rows_Ok F fields lines : forall conv conv', add_rows F fields lines conv = Ok conv' ->
  dkeys conv' = dkeys conv ++ filter (fun y => negb (smem y (dkeys conv))) (first_seen (map line_name lines)).
Proof.
  induction lines as [|l lines IH]; intros conv conv' H; cbn [add_rows] in H.
  - injection H as <-. cbn. now rewrite app_nil_r.
  - destruct (parse_line F l) as [cells|] eqn:P; [|discriminate H].
    destruct (parse_row F fields cells) as [[n e]|] eqn:R; [|discriminate H].
    rewrite (IH _ _ H), dkeys_dset. rewrite (line_row_name _ _ _ _ _ _ P R). cbn [map first_seen filter].
    destruct (smem (line_name l) (dkeys conv)) eqn:M; cbn [negb].
    + f_equal. rewrite filter_filter. apply filter_ext. intro y.
      destruct (String.eqb_spec y (line_name l)) as [->|NE]; [rewrite M|]; reflexivity.
    + rewrite <- app_assoc. cbn [app]. f_equal. f_equal. rewrite filter_filter. apply filter_ext. intro y.
      unfold smem at 1. rewrite existsb_app. cbn [existsb]. rewrite orb_false_r, negb_orb. apply andb_comm.
Qed.

Lemma add_rows_get F fields lines : forall conv conv' q, add_rows F fields lines conv = Ok conv' ->
  ~ In q (map line_name lines) -> dget q conv' = dget q conv.
Proof.
  induction lines as [|l lines IH]; intros conv conv' q H NI; cbn [add_rows] in H.
  - injection H as <-. reflexivity.
  - destruct (parse_line F l) as [cells|] eqn:P; [|discriminate H].
    destruct (parse_row F fields cells) as [[n e]|] eqn:R; [|discriminate H].
    rewrite (IH _ _ q H); [|intro I; apply NI; right; exact I].
    apply dget_dset_other. intros ->. apply NI. left. symmetry. apply (line_row_name _ _ _ _ _ _ P R).
Qed.

Lemma add_rows_last F fields pre l post : forall conv conv', add_rows F fields (pre ++ l :: post) conv = Ok conv' ->
  ~ In (line_name l) (map line_name post) ->
  exists cells e, parse_line F l = Some cells /\ parse_row F fields cells = Some (line_name l, e) /\
    dget (line_name l) conv' = Some e.
Proof.
  induction pre as [|x pre IH]; intros conv conv' H NI; cbn [app add_rows] in H.
  - destruct (parse_line F l) as [cells|] eqn:P; [|discriminate H].
    destruct (parse_row F fields cells) as [[n e]|] eqn:R; [|discriminate H].
    exists cells, e. split; [reflexivity|]. rewrite <- (line_row_name _ _ _ _ _ _ P R). split; [exact R|].
    rewrite (add_rows_get _ _ _ _ _ _ H); [apply dget_dset_same|]. rewrite (line_row_name _ _ _ _ _ _ P R). exact NI.
  - destruct (parse_line F x) as [cells|]; [|discriminate H].
    destruct (parse_row F fields cells) as [[n e]|]; [|discriminate H]. apply (IH _ _ H NI).
Qed.

Lemma fill_skip fields : forall cells acc e q, fill_fields fields cells acc = Some e ->
  (forall b f, In (Some (VStr b f)) fields -> lower f <> q) -> dget q e = dget q acc.
Proof.
  induction fields as [|[[b f|x1|x2|x3]|] fields IH]; intros cells acc e q H N; cbn [fill_fields] in H; try discriminate H.
  - injection H as <-. reflexivity.
  - destruct cells as [|c cells]; [discriminate H|]. rewrite (IH _ _ _ q H); [|intros b' f' I; apply (N b' f'); right; exact I].
    apply dget_dset_other. intros ->. apply (N b f (or_introl eq_refl)). reflexivity.
Qed.

Definition field_names (fields : list cell) : list string :=
  map (fun c => match c with Some (VStr _ f) => lower f | _ => "" end) fields.

Lemma fill_field fields : forall cells acc e j b f c, NoDup (field_names fields) -> fill_fields fields cells acc = Some e ->
  nth_error fields j = Some (Some (VStr b f)) -> nth_error cells j = Some c -> dget (lower f) e = Some c.
Proof.
  induction fields as [|[[b0 f0|x1|x2|x3]|] fields IH]; intros cells acc e j b f c ND H NF NC; cbn [fill_fields] in H; try discriminate H.
  - destruct j; discriminate NF.
  - destruct cells as [|c0 cells]; [discriminate H|]. cbn [field_names map] in ND. inversion ND as [|? ? NI ND']; subst.
    destruct j as [|j]; cbn in NF, NC.
    + injection NF as -> ->. injection NC as ->. rewrite (fill_skip _ _ _ _ (lower f) H); [apply dget_dset_same|].
      intros b' f' I E. apply NI. unfold field_names. apply in_map_iff. exists (Some (VStr b' f')). split; [exact E|exact I].
    + apply (IH _ _ _ j b f c ND' H NF NC).
Qed.

Lemma row_field F fields cells n e j b f c : NoDup (field_names fields) -> parse_row F fields cells = Some (n, e) ->
  nth_error fields (S j) = Some (Some (VStr b f)) -> nth_error cells (S (S j)) = Some c -> dget (lower f) e = Some c.
Proof.
  intros ND H NF NC. unfold parse_row in H.
  assert (NC' : nth_error (if (List.length cells =? 5) then cells ++ [Some (VStr false "")] else cells) (S (S j)) = Some c).
  { destruct (List.length cells =? 5); [|exact NC]. rewrite nth_error_app1; [exact NC|]. apply nth_error_Some. congruence. }
  destruct (if (List.length cells =? 5) then _ else cells) as [|[v|] [|def rest]]; try discriminate H; destruct v as [b' m| | |]; try discriminate H.
  destruct (if contains "Version" m then _ else _) as [def'|]; [|discriminate H].
  destruct (fill_fields fields (def' :: rest) []) as [e'|] eqn:FF; [|discriminate H]. injection H as <- <-.
  apply (fill_field _ _ _ _ (S j) b f c ND FF NF). exact NC'.
Qed.

(** ** Numbers *)
Fixpoint dval (d : Decimal.uint) (acc : N) : N :=
  match d with
  | Decimal.Nil => acc
  | Decimal.D0 d => dval d (acc * 10)
  | Decimal.D1 d => dval d (acc * 10 + 1)
  | Decimal.D2 d => dval d (acc * 10 + 2)
  | Decimal.D3 d => dval d (acc * 10 + 3)
  | Decimal.D4 d => dval d (acc * 10 + 4)
  | Decimal.D5 d => dval d (acc * 10 + 5)
  | Decimal.D6 d => dval d (acc * 10 + 6)
  | Decimal.D7 d => dval d (acc * 10 + 7)
  | Decimal.D8 d => dval d (acc * 10 + 8)
  | Decimal.D9 d => dval d (acc * 10 + 9)
  end%N.

Lemma dval_acc d : forall p, dval d (Npos p) = Npos (Pos.of_uint_acc d p).
Proof.
  induction d; intro p; cbn [dval Pos.of_uint_acc]; try reflexivity; rewrite <- IHd; f_equal; lia.
Qed.
Lemma dval_0 d : dval d 0 = Pos.of_uint d.
Proof.
  induction d; cbn [dval Pos.of_uint]; try reflexivity; [exact IHd|..];
    match goal with |- dval _ ?a = N.pos (Pos.of_uint_acc _ ?q) => change a with (Npos q); apply dval_acc end.
Qed.

Lemma int_digits_uint d : forall acc, d <> Decimal.Nil \/ True -> int_digits (uint_str d) acc true = Some (dval d acc).
Proof.
  induction d; intros acc _; cbn [uint_str int_digits]; try reflexivity;
    (match goal with |- context [is_digit ?c] => change (is_digit c) with true end; cbv iota;
     rewrite IHd by (right; exact I); cbn [dval];
     match goal with |- context [digit_val ?c] => let v := eval vm_compute in (digit_val c) in change (digit_val c) with v end;
     rewrite ?N.add_0_r; reflexivity).
Qed.

Lemma int_digits_first s acc : s <> "" -> (forall c t, s = String c t -> is_digit c = true) ->
  int_digits s acc false = int_digits s acc true.
Proof.
  intros NE H. destruct s as [|c t]; [destruct (NE eq_refl)|]. cbn [int_digits]. rewrite (H c t eq_refl). reflexivity.
Qed.

Lemma uint_digits d : forall c, has_char c (uint_str d) = true -> is_digit c = true.
Proof.
  induction d; intros c H; cbn [uint_str has_char] in H; [discriminate H|..];
    (apply orb_true_iff in H; destruct H as [H|H]; [apply Ascii.eqb_eq in H; subst c; reflexivity|apply IHd, H]).
Qed.

Lemma N_str_digits n : forall c, has_char c (N_str n) = true -> is_digit c = true.
Proof.
  destruct n as [|p]; intros c H; cbn [N_str] in H.
  - cbn in H. rewrite orb_false_r in H. apply Ascii.eqb_eq in H. subst c. reflexivity.
  - apply (uint_digits _ c H).
Qed.
Lemma N_str_not_nil n : N_str n <> "".
Proof.
  destruct n as [|p]; [discriminate|]. cbn [N_str]. intro E.
  assert (X : N.to_uint (Npos p) = Decimal.Nil) by (destruct (N.to_uint (N.pos p)); [reflexivity|discriminate E..]).
  assert (Y := DecimalN.Unsigned.of_to (Npos p)). rewrite X in Y. discriminate Y.
Qed.
Lemma int_digits_N n : int_digits (N_str n) 0 false = Some n.
Proof.
  rewrite int_digits_first; [|apply N_str_not_nil|].
  - destruct n as [|p]; [reflexivity|]. cbn [N_str]. rewrite int_digits_uint by (right; exact I). f_equal.
    rewrite dval_0. apply (DecimalN.Unsigned.of_to (Npos p)).
  - intros c t E. apply (N_str_digits n c). rewrite E. cbn. rewrite Ascii.eqb_refl. reflexivity.
Qed.

(** ** White space *)
Definition solid (s : string) : Prop := s <> "" /\ lstrip s = s /\ lstrip (srev s) = srev s.

Lemma solid_strip s : solid s -> strip s = s.
Proof. intros [_ [H1 H2]]. unfold strip. rewrite H1, H2. apply srev_srev. Qed.

Lemma lstrip_app a b : a <> "" -> lstrip a = a -> lstrip (a +++ b) = a +++ b.
Proof.
  intros NE H. destruct a as [|c a]; [destruct (NE eq_refl)|]. cbn [append lstrip] in *.
  destruct (is_space c); [|reflexivity]. exfalso.
  assert (L : forall s, String.length (lstrip s) <= String.length s).
  { induction s as [|x s IH]; [cbn; lia|]. cbn [lstrip]. destruct (is_space x); cbn [String.length]; lia. }
  assert (X := f_equal String.length H). cbn [String.length] in X. specialize (L a). lia.
Qed.
Lemma srev_nil s : srev s = "" -> s = "".
Proof. intro E. rewrite <- (srev_srev s), E. reflexivity. Qed.

Lemma solid_app a x b : solid a -> solid b -> solid (a +++ x +++ b).
Proof.
  intros [A1 [A2 A3]] [B1 [B2 B3]]. split; [destruct a; [destruct (A1 eq_refl)|discriminate]|]. split.
  - apply lstrip_app; assumption.
  - rewrite !srev_append, sapp_assoc. apply lstrip_app; [|exact B3]. intro E. apply B1, srev_nil, E.
Qed.

Lemma lstrip_length s : String.length (lstrip s) <= String.length s.
Proof. induction s as [|x s IH]; [cbn; lia|]. cbn [lstrip]. destruct (is_space x); cbn [String.length]; lia. Qed.
Lemma lstrip_same s : String.length (lstrip s) = String.length s -> lstrip s = s.
Proof.
  destruct s as [|x s]; [reflexivity|]. cbn [lstrip]. destruct (is_space x); [|reflexivity].
  intro L. assert (X := lstrip_length s). cbn [String.length] in L. lia.
Qed.
Lemma srev_length s : String.length (srev s) = String.length s.
Proof.
  unfold srev. assert (G : forall s acc, String.length (srev_app s acc) = String.length s + String.length acc).
  { induction s0 as [|x s0 IH]; intro acc; [reflexivity|]. cbn [srev_app]. rewrite IH. cbn [String.length]. lia. }
  rewrite G. cbn. lia.
Qed.
Lemma strip_solid s : s <> "" -> strip s = s -> solid s.
Proof.
  intros NE H. unfold strip in H. assert (L := f_equal String.length H). rewrite srev_length in L.
  assert (L1 := lstrip_length (srev (lstrip s))). rewrite srev_length in L1. assert (L2 := lstrip_length s).
  assert (E : lstrip s = s) by (apply lstrip_same; lia). rewrite E in H. split; [exact NE|]. split; [exact E|].
  rewrite <- (srev_srev (lstrip (srev s))). now rewrite H.
Qed.

Lemma lstrip_blanks n s : lstrip (blanks n +++ s) = lstrip s.
Proof. induction n as [|n IH]; [reflexivity|]. cbn [blanks append lstrip]. exact IH. Qed.
Lemma blanks_snoc n : blanks n +++ " " = " " +++ blanks n.
Proof. induction n as [|n IH]; [reflexivity|]. cbn [blanks append] in *. now rewrite IH. Qed.
Lemma srev_blanks n : srev (blanks n) = blanks n.
Proof.
  induction n as [|n IH]; [reflexivity|]. change (blanks (S n)) with (" " +++ blanks n).
  rewrite srev_append, IH. apply blanks_snoc.
Qed.
Lemma strip_padded s t : solid s -> padded s t -> strip t = s.
Proof.
  intros [H1 [H2 H3]] [a [b ->]]. unfold strip. rewrite lstrip_blanks, (lstrip_app s (blanks b) H1 H2).
  rewrite srev_append, srev_blanks, lstrip_blanks, H3. apply srev_srev.
Qed.

Lemma solid_no_space s : s <> "" -> (forall c, has_char c s = true -> is_space c = false) -> solid s.
Proof.
  intros NE H. assert (G : forall u, (forall c, has_char c u = true -> is_space c = false) -> lstrip u = u).
  { intros [|x u] HU; [reflexivity|]. cbn [lstrip]. rewrite HU; [reflexivity|]. cbn. rewrite Ascii.eqb_refl. reflexivity. }
  split; [exact NE|]. split; [apply G, H|]. apply G. intros c HC. apply H.
  rewrite <- HC. clear. unfold srev.
  assert (X : forall s acc, has_char c (srev_app s acc) = has_char c s || has_char c acc).
  { induction s0 as [|y s0 IH]; intro acc; [reflexivity|]. cbn [srev_app has_char]. rewrite IH. cbn [has_char].
    rewrite orb_assoc, (orb_comm (has_char c s0)), <- orb_assoc. reflexivity. }
  rewrite X. cbn. now rewrite orb_false_r.
Qed.

Lemma digit_no_space c : is_digit c = true -> is_space c = false.
Proof.
  unfold is_digit, is_space. intro H. apply andb_true_iff in H. destruct H as [H1 H2].
  apply Nat.leb_le in H1, H2.
  replace (nat_of_ascii c <=? 13) with false by (symmetry; apply Nat.leb_gt; lia).
  replace (nat_of_ascii c <=? 32) with false by (symmetry; apply Nat.leb_gt; lia). rewrite !andb_false_r. reflexivity.
Qed.

Lemma Z_str_chars z c : has_char c (Z_str z) = true -> is_digit c = true \/ c = "-"%char.
Proof.
  destruct z as [|p|p]; cbn [Z_str]; intro H; [left; apply (N_str_digits _ _ H)..|].
  rewrite has_char_app in H. apply orb_true_iff in H. destruct H as [H|H]; [|left; apply (N_str_digits _ _ H)].
  cbn in H. rewrite orb_false_r in H. apply Ascii.eqb_eq in H. right. exact H.
Qed.
Lemma Z_str_without z c : is_digit c = false -> c <> "-"%char -> has_char c (Z_str z) = false.
Proof.
  intros D N. destruct (has_char c (Z_str z)) eqn:H; [|reflexivity]. apply Z_str_chars in H. destruct H; congruence.
Qed.
Lemma Z_str_not_nil z : Z_str z <> "".
Proof. destruct z as [|p|p]; cbn [Z_str]; try apply N_str_not_nil. discriminate. Qed.
Lemma Z_str_solid z : solid (Z_str z).
Proof.
  apply solid_no_space; [apply Z_str_not_nil|]. intros c H. apply Z_str_chars in H. destruct H as [H| ->]; [apply digit_no_space, H|reflexivity].
Qed.
Lemma int_of_N n : int_of (N_str n) = Some (Z.of_N n).
Proof.
  unfold int_of. assert (SD : strip (N_str n) = N_str n).
  { apply solid_strip, solid_no_space; [apply N_str_not_nil|]. intros c H. apply digit_no_space, (N_str_digits _ _ H). }
  rewrite SD. destruct (N_str n) as [|c t] eqn:E; [destruct (N_str_not_nil n E)|].
  assert (D : is_digit c = true) by (apply (N_str_digits n); rewrite E; cbn; rewrite Ascii.eqb_refl; reflexivity).
  assert (C1 : Ascii.eqb c "-" = false) by (destruct (Ascii.eqb_spec c "-") as [->|]; [discriminate D|reflexivity]).
  assert (C2 : Ascii.eqb c "+" = false) by (destruct (Ascii.eqb_spec c "+") as [->|]; [discriminate D|reflexivity]).
  rewrite C1, C2, <- E, int_digits_N. reflexivity.
Qed.
Lemma int_of_Z z : int_of (Z_str z) = Some z.
Proof.
  destruct z as [|p|p]; cbn [Z_str]; [apply int_of_N..|].
  unfold int_of. replace (strip ("-" +++ N_str (N.pos p))) with ("-" +++ N_str (N.pos p)) by (symmetry; apply (solid_strip _ (Z_str_solid (Zneg p)))).
  cbn [append]. change (Ascii.eqb "-" "-") with true. cbv iota. rewrite int_digits_N. reflexivity.
Qed.

(** ** Bracketed lists *)
Lemma numeral_facts F s e : numeral F s e ->
  solid s /\ has_char " " s = false /\ has_char "," s = false /\ has_char ";" s = false /\ number_of F s = Some (VScal e).
Proof.
  intros [z|s' x D G B C SC ST].
  - split; [apply Z_str_solid|]. rewrite !Z_str_without by (try reflexivity; discriminate).
    repeat (split; [reflexivity|]). unfold number_of. rewrite Z_str_without by (try reflexivity; discriminate).
    rewrite int_of_Z. reflexivity.
  - split; [apply strip_solid; [intros ->; discriminate D|exact ST]|]. repeat (split; [assumption|]).
    unfold number_of. rewrite D, G. reflexivity.
Qed.

Lemma replace_single c new s : forall d, new = str1 d -> replace (str1 c) new s = replace_char c d s.
Proof.
  intros d ->. unfold replace. induction s as [|x s IH]; [reflexivity|]. cbn [replace_aux replace_char str1 String.prefix].
  destruct (ascii_dec c x) as [->|NE].
  - rewrite Ascii.eqb_refl. assert (P : String.prefix "" s = true) by (destruct s; reflexivity). rewrite P.
    cbn [append String.length Nat.sub str1]. f_equal. exact IH.
  - rewrite (proj2 (Ascii.eqb_neq c x) NE). f_equal. exact IH.
Qed.
Lemma replace_char_app c d a b : replace_char c d (a +++ b) = replace_char c d a +++ replace_char c d b.
Proof. induction a as [|x a IH]; [reflexivity|]. cbn [append replace_char]. now rewrite IH. Qed.

Lemma row_text_facts F s l : row_text F s l -> solid s /\ has_char ";" s = false /\
  omap (number_of F) (split "," (replace_char " " "," s)) = Some (map VScal l).
Proof.
  induction 1 as [s e N|s e sep t l N SP R [IH1 [IH2 IH3]]]; destruct (numeral_facts F s e N) as [S1 [S2 [S3 [S4 S5]]]].
  - split; [exact S1|]. split; [exact S4|]. rewrite (replace_char_id _ _ _ S2).
    change "," with (str1 ","). rewrite (split_no_char _ _ S3). cbn [omap map]. rewrite S5. reflexivity.
  - split; [apply solid_app; assumption|]. split.
    + rewrite !has_char_app, S4, IH2. destruct SP as [->| ->]; reflexivity.
    + rewrite !replace_char_app, (replace_char_id _ _ _ S2).
      assert (E : replace_char " " "," sep = ",") by (destruct SP as [->| ->]; reflexivity). rewrite E.
      change (s +++ "," +++ replace_char " " "," t) with (s +++ String "," (replace_char " " "," t)).
      change "," with (str1 ",") at 1. rewrite (split_app _ _ _ S3). cbn [omap map]. rewrite S5.
      change (str1 ",") with ",". rewrite IH3. reflexivity.
Qed.

Lemma row_of_text F s t l : row_text F s l -> padded s t -> row_of F t = Some (elts l).
Proof.
  intros R P. destruct (row_text_facts F s l R) as [S1 [_ S3]]. unfold row_of. rewrite (strip_padded s t S1 P).
  change (replace " " "," s) with (replace (str1 " ") "," s). rewrite (replace_single " " "," s ","%char eq_refl).
  change (replace " " "" ?x) with (replace ("" +++ str1 " ") "" x).
  rewrite (replace_absent " " "" "") by (apply replace_char_has; discriminate). rewrite S3. reflexivity.
Qed.

Lemma blanks_without c n : c <> " "%char -> has_char c (blanks n) = false.
Proof.
  intro N. induction n as [|n IH]; [reflexivity|]. cbn [blanks has_char]. rewrite IH, orb_false_r. apply Ascii.eqb_neq, N.
Qed.
Lemma padded_without c s t : c <> " "%char -> has_char c s = false -> padded s t -> has_char c t = false.
Proof. intros N H [a [b ->]]. rewrite !has_char_app, H, !blanks_without by exact N. reflexivity. Qed.

Lemma rows_text_split F t ls : rows_text F t ls -> omap (row_of F) (split ";" t) = Some (map elts ls) /\
  has_char ";" t = negb (List.length ls <=? 1).
Proof.
  induction 1 as [s t l R P|s t l u ls R P RS [IH1 IH2]].
  - assert (NS : has_char ";" t = false) by (apply (padded_without _ s); [discriminate|apply (row_text_facts F s l R)|exact P]).
    split; [|exact NS]. change ";" with (str1 ";"). rewrite (split_no_char _ _ NS). cbn [omap map]. rewrite (row_of_text F s t l R P). reflexivity.
  - assert (NS : has_char ";" t = false) by (apply (padded_without _ s); [discriminate|apply (row_text_facts F s l R)|exact P]).
    split.
    + change (t +++ ";" +++ u) with (t +++ String ";" u). change ";" with (str1 ";") at 1. rewrite (split_app _ _ _ NS). cbn [omap map].
      rewrite (row_of_text F s t l R P). change (str1 ";") with ";". rewrite IH1. reflexivity.
    + rewrite !has_char_app. cbn. rewrite orb_true_r. destruct ls; [inversion RS|reflexivity].
Qed.

Lemma not_blank c s : c <> " "%char -> has_char c s = true -> String.eqb (replace " " "" s) "" = false.
Proof.
  intros N H. apply eqb_neq_s. revert H. unfold replace. induction s as [|x s IH]; [discriminate|].
  intro H. cbn [has_char] in H. cbn [replace_aux String.prefix String.length Nat.sub]. destruct (ascii_dec " " x) as [<-|NX].
  - destruct s as [|y s]; cbn [String.prefix].
    + cbn in H. rewrite orb_false_r in H. apply Ascii.eqb_eq in H. destruct (N H).
    + cbn [append]. apply IH. destruct (Ascii.eqb_spec c " ") as [E|_]; [destruct (N E)|exact H].
  - discriminate.
Qed.

Lemma parse_bracket F t ls u : rows_text F t ls -> padded ("[" +++ t +++ "]") u ->
  parse_cell F u = Some (Some (match ls with [l] => elts l | _ => VList (map elts ls) end)).
Proof.
  intros R P. assert (SD : solid ("[" +++ t +++ "]")) by (apply solid_app; (split; [discriminate|split; reflexivity])).
  unfold parse_cell. rewrite (not_blank "[" u).
  - rewrite (strip_padded _ u SD P). cbn [append].
    change (negb (Ascii.eqb "[" "[")) with false. cbv iota. change 1 with (String.length "]"). rewrite drop_end_app.
    destruct (rows_text_split F t ls R) as [R1 R2]. rewrite R2, negb_involutive.
    destruct R as [s t l RT PD|s t l u' ls RT PD RS].
    + cbn [List.length Nat.leb]. rewrite (row_of_text F s t l RT PD). reflexivity.
    + destruct ls as [|l' ls]; [inversion RS|]. cbn [List.length Nat.leb]. rewrite R1. reflexivity.
  - discriminate.
  - destruct P as [a [b ->]]. rewrite !has_char_app. cbn [has_char]. rewrite Ascii.eqb_refl. cbn. apply orb_true_r.
Qed.
