(** C99: what inspect shows of an entry. *)
From Verif Require Import Base PyStr PyNum NdArray Sofa Verify Demo SpecInit SpecValue SpecVerify SpecAttr SpecUpgrade SpecInfo
  BaseFacts StrFacts CoreFacts AttrFacts OpFacts InitFacts ValidFacts DictFacts VerifyFacts IssueFacts DimFacts RoundFacts DemoFacts
  PropVerify PropRound PropInfo.
From Coq Require Import ZArith Lia.
Open Scope string_scope.
Open Scope list_scope.
Open Scope nat_scope.

(** ** What has to be shown *)

(** "M=2" *)
Definition axis_text (x : ascii * nat) : string := str1 (fst x) +++ "=" +++ nat_str (snd x).

(** the text of an array without its single dimensions, each line indented by two
    blanks *)
Definition values_text (E : env) (a : arr) : string :=
  "  " +++ replace nl (nl +++ "  ") (str_of E (VArr (Arr (a_kind a) (filter (fun n => negb (Nat.eqb n 1)) (a_shape a)) (a_data a) (a_mask a)))) +++ nl.

(** single values: numpy texts, numbers, and arrays with one element *)
Inductive single : value -> Prop :=
| single_text s : single (VStr true s)
| single_number x : x <> EObj -> single (VScal x)
| single_array a : List.length (a_data a) = 1 -> single (VArr a).

(** [row] shows the entry [k] with the value [v]: attributes and variables with a single
    element by their value, other variables by the letters and sizes of their dimensions,
    followed by the values if there are at most six *)
Inductive row_shows (E : env) (attribute : bool) (k : string) (v : value) (axes : list (ascii * nat)) (row : string) : Prop :=
| shows_value : attribute = true \/ single v ->
    row = k +++ " : " +++ py_str E v +++ nl -> row_shows E attribute k v axes row
| shows_array a : attribute = false -> v = VArr a -> List.length (a_data a) <> 1 -> axes <> [] ->
    row = k +++ " : (" +++ join ", " (map axis_text axes) +++ ")" +++ nl
          +++ (if List.length (a_data a) <=? 6 then values_text E a else "") ->
    row_shows E attribute k v axes row.

(** the arrays of a variable have as many axes as sofar gives them when it reads a file:
    one if the convention declares one dimension, otherwise two or more *)
Definition usual_axes (cv : convention) (o : sofa) : Prop :=
  forall k e a, declared cv o k = Some e -> e_type e <> "attribute" -> dget k (pub o) = Some (VArr a) ->
  exists d, e_dims e = Some d /\ ~ In "" (alternatives d)
  /\ List.length (a_data a) = prod (a_shape a)
  /\ (e_type e = "double" ->
      if String.length (hd "" (split "," d)) <=? 1 then List.length (a_shape a) = 1 else 2 <= List.length (a_shape a)).

(** ** Proof *)
Lemma axes_join l : l <> [] ->
  drop_end 2 ("(" +++ sconcat (fun p : nat * ascii => str1 (snd p) +++ "=" +++ nat_str (fst p) +++ ", ") l)
  = "(" +++ join ", " (map axis_text (map (fun p => (snd p, fst p)) l)).
Proof.
  intro N.
  assert (H : sconcat (fun p : nat * ascii => str1 (snd p) +++ "=" +++ nat_str (fst p) +++ ", ") l
              = join ", " (map axis_text (map (fun p => (snd p, fst p)) l)) +++ ", ").
  { induction l as [|p [|q l] IH]; [congruence| |].
    - cbn [sconcat map join]. rewrite sapp_nil_r. unfold axis_text. cbn [fst snd]. rewrite !sapp_assoc. reflexivity.
    - change (sconcat ?f (p :: q :: l)) with (f p +++ sconcat f (q :: l)). cbv beta.
      rewrite (IH ltac:(discriminate)). cbn [map join]. unfold axis_text at 3. cbn [fst snd]. rewrite !sapp_assoc. reflexivity. }
  rewrite H. rewrite <- (sapp_assoc "("). exact (drop_end_app _ ", ").
Qed.

Lemma get_dimension_valid E o o1 ev r cv a ds x n : db_ok E -> dicts_ok o ->
  verify E HRaise VWrite o = (o1, ev, Ok r) -> verified E o o1 cv a ds -> size cv o x n ->
  m_res (get_dimension E x o) = Ok n.
Proof.
  intros DB DO H V S.
  destruct (raise_ok_core _ _ _ _ _ _ H) as [o0 [_ [_ [_ [_ [R [M _]]]]]]].
  assert (C := complete_dec E o o0 DB DO R M).
  destruct (verify_complete E VWrite o DB DO C) as [t [HT _]].
  assert (HR := HT HRaise). rewrite H in HR. specialize (HR ltac:(discriminate)).
  assert (VH : exists ev, verify E HReturn VWrite o = (o1, ev, Ok None)).
  { rewrite (HT HReturn ltac:(discriminate)). destruct t as [[o' e'] [[e w]|y]]; cbn [outcome] in HR |- *; [|discriminate HR].
    unfold answer in HR. destruct (String.eqb_spec e "") as [->|N].
    - injection HR as -> _ _. exists (e' ++ told HReturn w ""). unfold answer. rewrite String.eqb_refl. reflexivity.
    - discriminate HR. }
  destruct VH as [ev' VH]. apply (vd_size _ _ _ _ _ _ V) in S.
  assert (UD : exists ev2, update_dimensions E o = (o1, ev2, Ok tt)).
  { unfold update_dimensions. rewrite (bind_does _ _ _ _ _ _ VH), bind_get. eexists. reflexivity. }
  destruct UD as [ev2 UD]. unfold get_dimension. rewrite (bind_does _ _ _ _ _ _ UD), bind_get, (vd_api _ _ _ _ _ _ V), S. reflexivity.
Qed.

Lemma nth_pad1 m s i : nth i (pad1 m s) 1 = nth i s 1.
Proof.
  unfold pad1. destruct (Nat.lt_ge_cases i (List.length s)) as [L|L].
  - apply app_nth1. exact L.
  - rewrite app_nth2 by exact L. rewrite (nth_overflow s) by exact L.
    destruct (Nat.lt_ge_cases (i - List.length s) (m - List.length s)) as [L2|L2].
    + apply nth_repeat.
    + apply nth_overflow. rewrite repeat_length. exact L2.
Qed.

(** For a valid object inspect prints one row for each entry, in the order of the data,
    that shows the value or the axes and values as documented. The sizes are the ones of
    get_dimension.
    Missing: the size of S, and arrays with other than the usual numbers of axes
    ([C99_refuted]). *)
Theorem C99_shown_partial : forall E h o o' ev cv, db_ok E -> dicts_ok o -> h <> HIgnore ->
  is_ok (m_res (verify E HRaise VWrite o)) = true -> convention_of E o cv -> usual_axes cv o ->
  inspect E h o = (o', ev, Ok tt) ->
  exists before text head rows, ev = before ++ [EvPrint text] /\ text = head +++ sconcat (fun r => r) rows
  /\ Forall2 (fun kv row => exists e axes, declared cv o (fst kv) = Some e
       /\ row_shows E (String.eqb (e_type e) "attribute") (fst kv) (snd kv) axes row
       /\ forall x n, In (x, n) axes -> x <> "S"%char -> m_res (get_dimension E (str1 x) o) = Ok n)
     (pub o) rows.
Proof.
  intros E h o o' ev cv DB DO NI OKV CO UA HI.
  destruct (verify E HRaise VWrite o) as [[o1 ev1] [r|x]] eqn:H; [|discriminate OKV]. clear OKV.
  destruct (verify_verified E VWrite o o1 ev1 r DB DO H) as [cv' [a [ds V]]].
  assert (cv' = cv) by (eapply convention_unique; [exact DB|exact CO|apply (vd_cv _ _ _ _ _ _ V)]). subst cv'.
  assert (GD : forall x n, size cv o x n -> m_res (get_dimension E x o) = Ok n).
  { intros x n S. exact (get_dimension_valid E o o1 ev1 r cv a ds x n DB DO H V S). }
  destruct (raise_ok_core _ _ _ _ _ _ H) as [o0 [_ [_ [_ [_ [R [M _]]]]]]].
  assert (C := complete_dec E o o0 DB DO R M).
  destruct (verify_complete E VWrite o DB DO C) as [t [HT _]].
  assert (HR := HT HRaise). rewrite H in HR. specialize (HR ltac:(discriminate)).
  assert (VH : exists ev r', verify E h VWrite o = (o1, ev, Ok r')).
  { rewrite (HT h NI). destruct t as [[o2 e'] [[e w]|y]]; cbn [outcome] in HR |- *; [|discriminate HR].
    unfold answer in HR. destruct (String.eqb_spec e "") as [->|N].
    - injection HR as -> _ _. exists (e' ++ told h w ""), None. unfold answer. rewrite String.eqb_refl. destruct h; reflexivity.
    - discriminate HR. }
  destruct VH as [ev2 [r' VH]]. unfold inspect in HI. rewrite (bind_does _ _ _ _ _ _ VH), bind_get in HI.
  clear HR HT.
  destruct (header E o1) as [hdr|x]; [|discriminate HI]. rewrite bind_lift in HI.
  destruct (rconcat (inspect_entry E o1) (pub o1)) as [txt|x] eqn:RC; [|discriminate HI]. rewrite bind_lift in HI.
  unfold emit in HI. injection HI as _ <-.
  destruct (rconcat_rows _ _ _ RC) as [rows [-> RW]].
  exists ev2. eexists. exists (hdr +++ sconcat (fun _ => "-") (chars hdr) +++ nl), rows.
  split; [reflexivity|]. split; [rewrite !sapp_assoc; reflexivity|].
  rewrite (vd_pub _ _ _ _ _ _ V) in RW.
  assert (INC : forall kv, In kv (pub o) -> dget (fst kv) (pub o) = Some (snd kv)).
  { intros [k v] I. apply In_dget; [apply (vd_nodup _ _ _ _ _ _ V)|exact I]. }
  clear RC. revert RW INC. generalize (pub o) at 1 2 4 as l. intros l RW INC.
  induction RW as [|[k v] row l rows RE RW IH]; [constructor|]. constructor; [|apply IH; intros; apply INC; right; assumption].
  clear IH RW. assert (GP := INC (k, v) (or_introl eq_refl)). cbn [fst snd] in GP |- *. clear INC.
  destruct (vd_type _ _ _ _ _ _ V k v GP) as [e [D T]]. exists e.
  unfold inspect_entry in RE. unfold dgetE at 1 in RE. rewrite (vd_conv _ _ _ _ _ _ V k), D in RE. cbn [rbind] in RE.
  destruct (String.eqb_spec (e_type e) "attribute") as [EA|NA]; cbn [rbind] in RE.
  { injection RE as <-. exists []. split; [exact D|]. split; [apply shows_value; [left; reflexivity|reflexivity]|intros x n []]. }
  destruct (value_size v) as [n|] eqn:VS; [|discriminate RE]. cbn [rbind] in RE.
  destruct (Nat.eqb_spec n 1) as [->|N1].
  { injection RE as <-. exists []. split; [exact D|]. split; [apply shows_value; [right|reflexivity]|intros x n []].
    destruct v as [[] ?|?|b|?]; try discriminate VS.
    - constructor.
    - constructor. intros ->. discriminate VS.
    - constructor. destruct (UA k e b D NA GP) as [d [_ [_ [LN _]]]]. rewrite LN. injection VS as VS. exact VS. }
  destruct v as [| |b|]; try discriminate RE. rewrite (vd_dims _ _ _ _ _ _ V) in RE.
  destruct (dget k ds) as [dd|] eqn:DK; unfold dgetE in RE; rewrite DK in RE; [|discriminate RE]. cbn [rbind] in RE.
  injection RE as <-. cbn [value_size] in VS. injection VS as <-.
  assert (KI : In k (dkeys (pub o))) by (apply dget_Some_In; eauto).
  destruct (UA k e b D NA GP) as [d [ED [NE [LN US]]]].
  destruct (vd_shape _ _ _ _ _ _ V k (in_variables cv o k e d KI D ED)) as [e' [d' [v' [s [alt [D' [ED' [GP' [CS [IA [DS FT]]]]]]]]]]].
  assert (e' = e) by congruence. subst e'. assert (d' = d) by congruence. subst d'. assert (v' = VArr b) by congruence. subst v'.
  assert (dd = upper alt) by congruence. subst dd.
  set (l2 := combine (pad1 (String.length (upper alt)) (a_shape b)) (chars (upper alt))).
  exists (map (fun p => (snd p, fst p)) l2). split; [exact D|].
  assert (L2 : l2 <> []).
  { unfold l2. destruct alt as [|c alt]; [contradiction|].
    intro Q. apply (f_equal (@List.length _)) in Q. rewrite combine_length, InitFacts.pad1_length in Q. rewrite upper_chars, map_length, chars_length, upper_length in Q.
    cbn [String.length List.length] in Q. lia. }
  split.
  - apply (shows_array _ _ _ _ _ _ b); [reflexivity|reflexivity| | |].
    + rewrite LN. unfold a_size in N1. exact N1.
    + intro Q. apply L2. destruct l2; [reflexivity|discriminate Q].
    + unfold shape_verbose. fold l2. rewrite (axes_join l2 L2). rewrite !sapp_assoc. unfold values_text, a_size. rewrite LN.
      replace (prod (a_shape b) <? 7) with (prod (a_shape b) <=? 6)
        by (destruct (Nat.leb_spec (prod (a_shape b)) 6), (Nat.ltb_spec (prod (a_shape b)) 7); try reflexivity; lia).
      reflexivity.
  - intros x n I NS. apply GD. apply in_map_iff in I. destruct I as [[n' x'] [Q I]]. injection Q as -> ->.
    apply In_nth_error in I. destruct I as [i I]. unfold l2 in I.
    assert (I1 : nth_error (chars (upper alt)) i = Some x /\ nth i (pad1 (String.length (upper alt)) (a_shape b)) 1 = n).
    { clear - I. revert i I. generalize (pad1 (String.length (upper alt)) (a_shape b)) as p. generalize (chars (upper alt)) as q.
      induction q as [|y q IH]; intros [|m p] [|i] I; try discriminate I.
      - cbn in I |- *. injection I as -> ->. auto.
      - cbn [combine nth_error nth] in I |- *. auto. }
    destruct I1 as [I1 I2]. rewrite nth_pad1 in I2. rewrite upper_chars in I1. rewrite nth_error_map in I1.
    destruct (nth_error (chars alt) i) as [c|] eqn:NC; [|discriminate I1]. cbn in I1. injection I1 as <-.
    assert (X := FT i c NC). unfold extent in X. destruct (Ascii.eqb_spec c "S") as [->|NC2]; [contradiction NS; reflexivity|].
    replace n with (nth i s 1); [exact X|]. rewrite <- I2.
    inversion CS as [s0 ls TY ST|T1 T2 L|T1 T2 L]; subst.
    + inversion ST as [|? ? ? ? SH]; subst. rewrite SH. reflexivity.
    + assert (TD : e_type e = "double") by (destruct T as [[Q _]|[[Q _]|[Q _]]]; congruence).
      specialize (US TD). destruct (Nat.leb_spec (String.length (hd "" (split "," d))) 1) as [Q|_]; [lia|].
      cbn [shape_of]. destruct (a_shape b) as [|p1 [|p2 [|p3 [|p4 rest]]]]; cbn in US; try lia; cbn [shape4];
        try reflexivity; destruct i as [|[|[|[|i]]]]; try reflexivity; destruct i; reflexivity.
    + assert (TD : e_type e = "double") by (destruct T as [[Q _]|[[Q _]|[Q _]]]; congruence).
      specialize (US TD). destruct (Nat.leb_spec (String.length (hd "" (split "," d))) 1) as [_|Q]; [|lia].
      cbn [shape_of]. destruct (a_shape b) as [|p1 [|p2 rest]]; cbn in US; try lia. cbn [prod]. rewrite Nat.mul_1_r. reflexivity.
Qed.
Print Assumptions C99_shown_partial.

(** ** Examples *)
Definition row_in (k : string) (ev : list event) : list string :=
  List.concat (map (fun e => match e with
    | EvPrint t => filter (startswith (k +++ " : ")) (split nl t)
    | _ => [] end) ev).

(** an object with a custom variable of the frequencies, assigned as a list, and its
    twin with the array as it is read from a file *)
Definition with_bands (v : value) : sofa := m_obj (add_variable "Bands" v "double" (Some "N") demo_sofa).
Definition as_list : value := VList [VScal (EInt 1%Z); VScal (EInt 2%Z)].
Definition as_read : value := VArr (Arr KI [2] [EInt 1%Z; EInt 2%Z] false).

Definition usual_check (cv : convention) (o : sofa) : bool :=
  forallb (fun kv => match snd kv with
    | VArr a => match declared cv o (fst kv) with
        | Some e => String.eqb (e_type e) "attribute"
            || match e_dims e with
               | Some d => negb (smem "" (alternatives d)) && Nat.eqb (List.length (a_data a)) (prod (a_shape a))
                   && (if String.length (hd "" (split "," d)) <=? 1 then Nat.eqb (List.length (a_shape a)) 1
                       else 2 <=? List.length (a_shape a))
               | None => false
               end
        | None => false
        end
    | _ => true
    end) (pub o).

Lemma usual_ok cv o : usual_check cv o = true -> usual_axes cv o.
Proof.
  intros H k e a D NA G. unfold usual_check in H. rewrite forallb_forall in H. specialize (H _ (dget_In _ _ _ G)).
  cbn [fst snd] in H. rewrite D in H. rewrite (eqb_neq_s _ _ NA) in H. cbn [orb] in H.
  destruct (e_dims e) as [d|]; [|discriminate H]. exists d. split; [reflexivity|].
  apply andb_true_iff in H. destruct H as [H H3]. apply andb_true_iff in H. destruct H as [H1 H2].
  split; [apply smem_false; destruct (smem "" (alternatives d)); [discriminate H1|reflexivity]|].
  split; [apply Nat.eqb_eq; exact H2|]. intros _. destruct (_ <=? 1); [apply Nat.eqb_eq; exact H3|apply Nat.leb_le; exact H3].
Qed.

Example C99_case :
  db_ok demo /\ dicts_ok (with_bands as_read)
  /\ is_ok (m_res (verify demo HRaise VWrite (with_bands as_read))) = true
  /\ convention_of demo (with_bands as_read) cv10 /\ usual_axes cv10 (with_bands as_read)
  /\ m_res (inspect demo HPrint (with_bands as_read)) = Ok tt
  /\ row_in "Bands" (m_out (inspect demo HPrint (with_bands as_read))) = ["Bands : (N=2)"]
  /\ row_in "Data_IR" (m_out (inspect demo HPrint (with_bands as_read))) = ["Data_IR : (M=1, R=2, N=2)"]
  /\ row_in "GLOBAL_DataType" (m_out (inspect demo HPrint (with_bands as_read))) = ["GLOBAL_DataType : FIR"].
Proof.
  split; [exact demo_db_ok|]. split; [apply dicts_check; vm_compute; reflexivity|].
  split; [vm_compute; reflexivity|]. split; [apply in_hrir_ok; vm_compute; reflexivity|].
  split; [apply usual_ok; vm_compute; reflexivity|].
  split; [vm_compute; reflexivity|]. split; [vm_compute; reflexivity|]. split; vm_compute; reflexivity.
Qed.

(** The frequencies of the transfer function are assigned as a list of two numbers, which
    sofar stores as an array of shape (1, 2): inspect shows N=1, get_dimension gives 2.
    Two descriptions with at most three characters are shown with S=1. *)
Theorem C99_refuted :
  (let o := with_bands as_list in
   m_res (verify demo HRaise VWrite o) = Ok None
   /\ row_in "Bands" (m_out (inspect demo HPrint o)) = ["Bands : (N=1)"]
   /\ m_res (get_dimension demo "N" o) = Ok 2)
  /\ (let o := m_obj (add_variable "Names" (VArr (Arr KU [2; 1] [EStr "abc"; EStr "de"] false)) "string" (Some "RS") demo_sofa) in
      m_res (verify demo HRaise VWrite o) = Ok None
      /\ row_in "Names" (m_out (inspect demo HPrint o)) = ["Names : (R=2, S=1)"]
      /\ m_res (get_dimension demo "S" o) = Ok 3).
Proof.
  split; [split; [vm_compute; reflexivity|]; split; vm_compute; reflexivity|].
  split; [vm_compute; reflexivity|]. split; vm_compute; reflexivity.
Qed.
Print Assumptions C99_refuted.
