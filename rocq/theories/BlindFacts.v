(** Lemmas about objects that differ in what the last verification left behind:
    no call but inspect can tell them apart. *)
From Verif Require Import Base PyStr PyNum NdArray Sofa Verify Upgrade Utils Io
  SpecAttr SpecInit SpecVerify
  BaseFacts StrFacts AttrFacts OpFacts InitFacts CoreFacts DimFacts.
Open Scope string_scope.
Open Scope list_scope.

(** all but the dimensions found by the last verification *)
Record twins (o p : sofa) : Prop := {
  tw_pub : pub p = pub o; tw_conv : conv p = conv o; tw_custom : custom p = custom o;
  tw_ro : ro p = ro o; tw_prot : prot p = prot o }.

Lemma twins_refl o : twins o o. Proof. split; reflexivity. Qed.
Lemma twins_sym o p : twins o p -> twins p o. Proof. intros []. split; congruence. Qed.
Lemma twins_trans o p q : twins o p -> twins p q -> twins o q. Proof. intros [] []. split; congruence. Qed.
Lemma twins_eq o p : twins o p -> p = Sofa (pub o) (conv o) (custom o) (ro o) (prot o) (dims p) (api p).
Proof. intros [A B C D F]. destruct p. cbn in *. subst. reflexivity. Qed.

(** the same output and result, and twins again *)
Definition same_end {A} (x y : sofa * list event * res A) : Prop :=
  twins (m_obj x) (m_obj y) /\ m_out y = m_out x /\ m_res y = m_res x.
Lemma same_end_refl {A} (x : sofa * list event * res A) : same_end x x.
Proof. split; [apply twins_refl|split; reflexivity]. Qed.
Lemma same_end_const {A} o p ev (r : res A) : twins o p -> same_end (o, ev, r) (p, ev, r).
Proof. intro H. split; [exact H|split; reflexivity]. Qed.

Definition sim {A} (f g : M A) : Prop := forall o p, twins o p -> same_end (f o) (g p).
Definition blind {A} (f : M A) : Prop := sim f f.

Lemma sim_at_bind {A B} (f g : M A) (k k' : A -> M B) o p :
  same_end (f o) (g p) -> (forall a, sim (k a) (k' a)) -> same_end (bind f k o) (bind g k' p).
Proof.
  intros [T [X Y]] K. unfold bind. destruct (f o) as [[o1 e1] r1]. destruct (g p) as [[p1 e2] r2].
  unfold m_obj, m_out, m_res in *. cbn [fst snd] in *. subst e2 r2. destruct r1 as [a|e]; [|split; [exact T|split; reflexivity]].
  destruct (K a _ _ T) as [T2 [X2 Y2]]. destruct (k a o1) as [[o2 e3] r3]. destruct (k' a p1) as [[p2 e4] r4].
  unfold m_obj, m_out, m_res in *. cbn [fst snd] in *. subst. split; [exact T2|split; reflexivity].
Qed.
Lemma blind_bind {A B} (f : M A) (k : A -> M B) : blind f -> (forall a, blind (k a)) -> blind (bind f k).
Proof. intros F K o p T. apply sim_at_bind; [apply F; exact T|exact K]. Qed.
Lemma blind_const {A} ev (r : res A) : blind (fun o => (o, ev, r)).
Proof. intros o p T. apply same_end_const. exact T. Qed.
Lemma blind_ret {A} (a : A) : blind (ret a). Proof. apply blind_const. Qed.
Lemma blind_raise {A} e : blind (@raise A e). Proof. apply blind_const. Qed.
Lemma blind_lift {A} (r : res A) : blind (lift r). Proof. apply blind_const. Qed.
Lemma blind_emit e : blind (emit e). Proof. apply blind_const. Qed.
Lemma blind_when b m : blind m -> blind (when b m).
Proof. intro H. destruct b; [exact H|apply blind_ret]. Qed.
Lemma blind_mfor {A} (l : list A) f : (forall x, blind (f x)) -> blind (mfor l f).
Proof. intro H. induction l as [|x l IH]; cbn [mfor]; [apply blind_ret|]. apply blind_bind; [apply H|intros _; exact IH]. Qed.
Lemma blind_modify f : (forall o p, twins o p -> twins (f o) (f p)) -> blind (modify f).
Proof. intros H o p T. split; [apply H; exact T|split; reflexivity]. Qed.
(** looking at the object, as long as twins look alike *)
Lemma blind_get {A} (k : sofa -> M A) : (forall o p, twins o p -> k p = k o) -> (forall o, blind (k o)) -> blind (bind get k).
Proof. intros Q K o p T. unfold bind, get. rewrite (Q o p T). destruct (K o o p T) as [T2 [X Y]].
  destruct (k o o) as [[o2 e3] r3]. destruct (k o p) as [[p2 e4] r4]. unfold m_obj, m_out, m_res in *. cbn [fst snd] in *. subst.
  split; [exact T2|split; reflexivity]. Qed.
Lemma blind_protected b : blind (set_protected b).
Proof. apply blind_modify. intros o p []. split; cbn; congruence. Qed.

Ltac twin T := rewrite (twins_eq _ _ T).

Lemma blind_set n v : blind (set_attr n v).
Proof.
  intros o p T. twin T. unfold set_attr.
  change (hasattr (Sofa (pub o) (conv o) (custom o) (ro o) (prot o) (dims p) (api p)) n) with (hasattr o n). cbn [prot ro pub].
  destruct (_ || _); [apply same_end_const; twin T; split; reflexivity|].
  destruct (prot o && negb (hasattr o n)); [apply same_end_const; split; reflexivity|].
  destruct (in_ro n (ro o) && prot o); [apply same_end_const; split; reflexivity|].
  destruct (String.eqb n "protected").
  - destruct v as [b s|x|a|l]; try (apply same_end_const; split; reflexivity). destruct x; apply same_end_const; split; reflexivity.
  - destruct (normalize v); apply same_end_const; split; reflexivity.
Qed.

Lemma blind_del n : blind (del_attr n).
Proof.
  intros o p T. twin T. unfold del_attr.
  change (hasattr (Sofa (pub o) (conv o) (custom o) (ro o) (prot o) (dims p) (api p)) n) with (hasattr o n). cbn [prot ro pub conv custom].
  destruct (is_private n); [apply same_end_const; split; reflexivity|].
  destruct (negb (hasattr o n)); [apply same_end_const; split; reflexivity|].
  destruct (if prot o then _ else _) as [[]|e]; try (apply same_end_const; split; reflexivity).
  destruct (dmem n (pub o)); apply same_end_const; split; reflexivity.
Qed.

Lemma blind_add_custom k v d t : blind (add_custom_api_entry k v d t).
Proof.
  unfold add_custom_api_entry. apply blind_bind; [apply blind_protected|intros _].
  apply blind_bind; [|intros _; apply blind_bind; [apply blind_set|intros _; apply blind_protected]].
  apply blind_modify. intros o p T. twin T. cbn [conv custom]. destruct (dmem k (conv o)); split; reflexivity.
Qed.

Lemma blind_add_entry n v t d : blind (add_entry n v t d).
Proof.
  unfold add_entry. apply blind_get.
  - intros o p T. twin T. reflexivity.
  - intro o. repeat match goal with |- blind (if ?b then _ else _) => destruct b end; try apply blind_raise.
    apply blind_bind; [|intros _; apply blind_add_custom]. destruct (option_map upper d) as [x|]; [|apply blind_ret].
    apply blind_mfor. intros _. apply blind_emit.
Qed.

Lemma blind_reset E : blind (reset_convention E).
Proof.
  intros o p T. twin T. unfold reset_convention.
  change (getattr (Sofa (pub o) (conv o) (custom o) (ro o) (prot o) (dims p) (api p))) with (getattr o). cbn [custom].
  destruct (getattr o "GLOBAL_SOFAConventions") as [x|e]; [|apply same_end_const; split; reflexivity].
  destruct (getattr o "GLOBAL_SOFAConventionsVersion") as [v|e]; [|apply same_end_const; split; reflexivity].
  destruct (as_str x) as [n|]; [|apply same_end_const; split; reflexivity].
  destruct (let? _ := _ in _) as [cv|e]; [|apply same_end_const; split; reflexivity].
  destruct (custom o) eqn:CU; apply same_end_const; split; try reflexivity. cbn [with_conv custom]. symmetry. exact CU.
Qed.

Lemma blind_add_missing E m p b : blind (add_missing E m p b).
Proof.
  unfold add_missing. apply blind_bind; [apply blind_reset|intros _]. apply blind_get.
  - intros o q T. twin T. reflexivity.
  - intro o. apply blind_bind; [apply blind_protected|intros _]. apply blind_bind; [apply blind_mfor; intro; apply blind_set|intros _].
    apply blind_bind; [apply blind_protected|intros _]. apply blind_when. destruct (has_char _ _); apply blind_emit.
Qed.

(** after the dimensions are searched, twins are identical *)
Lemma verify_dims_twins o p : twins o p -> verify_dims p = verify_dims o.
Proof. intro T. twin T. reflexivity. Qed.

Lemma verify_dims_bind {A} (k : string -> M A) o p : twins o p -> bind verify_dims k p = bind verify_dims k o.
Proof. intro T. unfold bind. rewrite (verify_dims_twins o p T). reflexivity. Qed.

Lemma blind_dims {A} (k : string -> M A) : blind (bind verify_dims k).
Proof. intros o p T. rewrite (verify_dims_bind k o p T). apply same_end_refl. Qed.

Lemma blind_add_defaults l : blind (add_defaults l).
Proof.
  unfold add_defaults. apply blind_mfor. intro x. apply blind_bind; [apply blind_protected|intros _].
  apply blind_bind; [apply blind_set|intros _; apply blind_protected].
Qed.
Lemma blind_issues w e h : blind (handle_issues w e h).
Proof.
  unfold handle_issues. repeat first [apply blind_raise|apply blind_ret|apply blind_lift|apply blind_emit|apply blind_when
      |apply blind_bind; [|intros ?]|match goal with |- blind (match ?x with _ => _ end) => destruct x end].
Qed.

Lemma blind_verify_gen norm E h m : blind (verify_gen norm E h m).
Proof.
  unfold verify_gen. apply blind_bind; [apply blind_reset|intros _]. apply blind_get; [intros o p T; twin T; reflexivity|]. intro o. cbv zeta.
  apply blind_bind; [apply blind_when, blind_add_defaults|intros _].
  apply blind_get; [intros o1 p T; twin T; reflexivity|]. intro o1.
  apply blind_bind; [apply blind_lift|]. intro terr.
  match goal with |- blind (if ?b then _ else _) => destruct b end.
  { apply blind_bind; [apply blind_issues|intros ?; apply blind_ret]. }
  apply blind_get; [intros o2 p T; twin T; reflexivity|]. intro o2.
  apply blind_bind; [apply blind_lift|]. intro nerr.
  apply blind_bind.
  { destruct (custom o2); [|apply blind_ret]. apply blind_bind; [apply blind_lift|]. intro c. apply blind_bind; [apply blind_lift|]. intro v.
    destruct (norm c v) as [ev r]. apply blind_bind; [apply blind_mfor; intro; apply blind_emit|]. intros _.
    apply blind_bind; [apply blind_lift|]. intro nk. apply blind_ret. }
  intro cerr. apply blind_dims.
Qed.
Lemma blind_verify E h m : blind (verify E h m).
Proof. exact (blind_verify_gen (normative_keys E) E h m). Qed.

(** ** Calls after which twins are identical, unless they end with [Q] *)
Definition firm {A} (Q : res A -> Prop) (f : M A) : Prop := forall o p, twins o p ->
  f p = f o \/ (same_end (f o) (f p) /\ Q (m_res (f o))).

Lemma firm_bind {A B} (Q : res B -> Prop) (f : M A) (k : A -> M B) : blind f -> (forall a, firm Q (k a)) -> (forall e, Q (Err e)) ->
  firm Q (bind f k).
Proof.
  intros F K QE o p T. destruct (F o p T) as [T1 [X Y]]. unfold bind. destruct (f o) as [[o1 e1] r1]. destruct (f p) as [[p1 e2] r2].
  unfold m_obj, m_out, m_res in *. cbn [fst snd] in *. subst e2 r2. destruct r1 as [a|e].
  - destruct (K a _ _ T1) as [->|[[T2 [X2 Y2]] Y]]; [left; reflexivity|right].
    destruct (k a o1) as [[o2 e3] r3]. destruct (k a p1) as [[p2 e4] r4]. unfold m_obj, m_out, m_res in *. cbn [fst snd] in *. subst.
    split; [split; [exact T2|split; reflexivity]|exact Y].
  - right. split; [split; [exact T1|split; reflexivity]|apply QE].
Qed.
Lemma firm_then {A B} (Q : res A -> Prop) (Q' : res B -> Prop) (f : M A) (k : A -> M B) : firm Q f ->
  (forall e, Q' (Err e)) -> (forall a, Q (Ok a) -> forall o p, twins o p -> k a p = k a o \/ (same_end (k a o) (k a p) /\ Q' (m_res (k a o)))) ->
  firm Q' (bind f k).
Proof.
  intros F QE K o p T. unfold bind. destruct (F o p T) as [->|[[T1 [X Y]] q]]; [left; reflexivity|].
  destruct (f o) as [[o1 e1] r1]. destruct (f p) as [[p1 e2] r2].
  unfold m_obj, m_out, m_res in *. cbn [fst snd] in *. subst e2 r2. destruct r1 as [a|e].
  - destruct (K a q _ _ T1) as [->|[[T2 [X2 Y2]] Y]]; [left; reflexivity|right].
    destruct (k a o1) as [[o2 e3] r3]. destruct (k a p1) as [[p2 e4] r4]. unfold m_obj, m_out, m_res in *. cbn [fst snd] in *. subst.
    split; [split; [exact T2|split; reflexivity]|exact Y].
  - right. split; [split; [exact T1|split; reflexivity]|apply QE].
Qed.
Lemma firm_get {A} (Q : res A -> Prop) (k : sofa -> M A) : (forall o p, twins o p -> k p = k o) -> (forall o, firm Q (k o)) -> firm Q (bind get k).
Proof.
  intros H K o p T. unfold bind, get. rewrite (H o p T). destruct (K o o p T) as [->|[[T2 [X Y]] q]]; [left; reflexivity|right].
  destruct (k o o) as [[o2 e3] r3]. destruct (k o p) as [[p2 e4] r4]. unfold m_obj, m_out, m_res in *. cbn [fst snd] in *. subst.
  split; [split; [exact T2|split; reflexivity]|exact q].
Qed.
Lemma firm_dims {A} (Q : res A -> Prop) (k : string -> M A) : firm Q (bind verify_dims k).
Proof. intros o p T. left. apply (verify_dims_bind k o p T). Qed.
Lemma firm_blind {A} (Q : res A -> Prop) (f : M A) : firm Q f -> blind f.
Proof. intros F o p T. destruct (F o p T) as [->|[H _]]; [apply same_end_refl|exact H]. Qed.

(** the verification stops because of data of the wrong type *)
Definition stopped (h : handling) (r : res (option string)) : Prop :=
  match r with
  | Err _ => True
  | Ok r => h <> HRaise /\ h <> HIgnore
            /\ (h <> HPrint -> exists i, r = Some i /\ contains "data of wrong type" i = true)
  end.

Lemma stopped_issues h msg o : negb (String.eqb msg err_head) = true -> h <> HIgnore ->
  (h <> HRaise -> contains "data of wrong type" msg = true) ->
  stopped h (m_res (bind (handle_issues warn_head msg h) (fun r => ret (if h_print h then None else snd r)) o)).
Proof.
  intros N NI C. unfold handle_issues. rewrite N. replace (String.eqb warn_head warn_head) with true by (symmetry; apply String.eqb_refl).
  destruct h; cbn; try exact I; try (destruct (NI eq_refl)); (split; [discriminate|split; [discriminate|]]); intro H.
  - destruct (H eq_refl).
  - exists msg. split; [reflexivity|apply C; discriminate].
  - exists msg. split; [reflexivity|apply C; discriminate].
Qed.

Lemma firm_verify E h m : firm (stopped h) (verify E h m).
Proof.
  assert (QE : forall e, stopped h (Err e)) by (intro; exact I).
  unfold verify, verify_gen. apply firm_bind; [apply blind_reset|intros _|exact QE].
  apply firm_get; [intros o p T; twin T; reflexivity|]. intro o. cbv zeta.
  apply firm_bind; [apply blind_when, blind_add_defaults|intros _|exact QE].
  apply firm_get; [intros o1 p T; twin T; reflexivity|]. intro o1.
  apply firm_bind; [apply blind_lift| |exact QE]. intro terr.
  match goal with |- firm _ (if ?b then _ else _) => destruct b eqn:B end.
  { apply andb_true_iff in B. destruct B as [B1 B2]. intros o2 p2 T. right.
    split; [apply blind_bind; [apply blind_issues|intros ?; apply blind_ret|exact T]|].
    apply stopped_issues; [exact B1|intros ->; discriminate B2|]. intro NR. apply contains_app.
    assert (HR : h_raise h = false) by (destruct h; [destruct (NR eq_refl)|reflexivity..]). rewrite HR in B1 |- *.
    change ("" +++ section msg_type terr) with (section msg_type terr) in *.
    destruct (String.eqb_spec terr "") as [->|NE].
    { change (section msg_type "") with "" in B1. rewrite sapp_nil_r in B1. rewrite String.eqb_refl in B1. discriminate B1. }
    unfold section. rewrite (eqb_neq_s _ _ NE).
    replace msg_type with ("Detected " +++ ("data of wrong type" +++ ":" +++ nl)) by reflexivity.
    rewrite (sapp_assoc "Detected "). apply contains_app. rewrite (sapp_assoc "data of wrong type"). apply contains_prefix. }
  apply firm_get; [intros o2 p T; twin T; reflexivity|]. intro o2.
  apply firm_bind; [apply blind_lift| |exact QE]. intro nerr.
  apply firm_bind; [| |exact QE].
  { destruct (custom o2); [|apply blind_ret]. apply blind_bind; [apply blind_lift|]. intro c. apply blind_bind; [apply blind_lift|]. intro v.
    destruct (normative_keys E c v) as [ev r]. apply blind_bind; [apply blind_mfor; intro; apply blind_emit|]. intros _.
    apply blind_bind; [apply blind_lift|]. intro nk. apply blind_ret. }
  intro cerr. apply firm_dims.
Qed.

(** the call raises *)
Definition raised {A} (r : res A) : Prop := exists e, r = Err e.

Lemma firm_update E : firm raised (update_dimensions E).
Proof.
  unfold update_dimensions. apply (firm_then (stopped HReturn)); [apply firm_verify|intro e; exists e; reflexivity|].
  intros r [_ [_ R]] o p T. destruct R as [i [-> C]]; [discriminate|]. unfold bind, get. rewrite C. cbn [orb].
  right. split; [apply same_end_const; exact T|]. eexists; reflexivity.
Qed.
Lemma firm_after {A B} (f : M A) (k : A -> M B) : firm raised f -> firm raised (bind f k).
Proof. intro F. apply (firm_then raised); [exact F|intro e; exists e; reflexivity|]. intros a [e H]. discriminate H. Qed.
Lemma firm_get_dimension E d : firm raised (get_dimension E d).
Proof. apply firm_after, firm_update. Qed.
Lemma firm_list_dimensions E : firm raised (list_dimensions E).
Proof. apply firm_after, firm_update. Qed.
Lemma firm_inspect E h : h = HRaise \/ h = HIgnore -> firm raised (inspect E h).
Proof.
  intro H. unfold inspect. apply (firm_then (stopped h)); [apply firm_verify|intro e; exists e; reflexivity|].
  intros r [N1 [N2 _]]. destruct H; contradiction.
Qed.

Lemma blind_info E w : blind (info E w).
Proof.
  unfold info. apply blind_bind; [apply blind_emit|intros _]. apply blind_get; [intros o p T; twin T; reflexivity|]. intro o.
  apply blind_bind; [apply blind_lift|]. intro hd. cbv zeta.
  destruct (smem w _); [|destruct (smem w _); [|apply blind_raise]]; (apply blind_bind; [apply blind_lift|intro; apply blind_emit]).
Qed.
Lemma blind_ask E vo : blind (upgrade_convention E None vo).
Proof.
  unfold upgrade_convention. apply blind_bind; [apply blind_reset|intros _]. apply blind_get; [intros o p T; twin T; reflexivity|]. intro o.
  apply blind_bind; [apply blind_lift|]. intro c. apply blind_bind; [apply blind_lift|]. intro v. apply blind_bind; [apply blind_lift|]. intro sv.
  cbv zeta. destruct (decide E (py_str E c) v None).
  all: repeat first [apply blind_raise|apply blind_ret|apply blind_lift|apply blind_emit|apply blind_bind; [|intros ?]].
Qed.

(** operations that do not show what an earlier verification left behind *)
Definition forgetful (p : op) : Prop :=
  match p with OInspect h => h = HRaise \/ h = HIgnore | _ => True end.

Lemma blind_op E p : forgetful p -> blind (run_op E p).
Proof.
  intro F. destruct p; cbn [run_op].
  - apply blind_set.
  - apply blind_del.
  - apply blind_add_entry.
  - apply blind_add_entry.
  - apply blind_add_missing.
  - apply blind_bind; [apply blind_verify|intro; apply blind_ret].
  - apply blind_bind; [exact (firm_blind _ _ (firm_get_dimension E d))|intro; apply blind_ret].
  - exact (firm_blind _ _ (firm_list_dimensions E)).
  - exact (firm_blind _ _ (firm_inspect E h F)).
  - apply blind_info.
  - apply blind_bind; [apply blind_ask|intro; apply blind_ret].
Qed.
