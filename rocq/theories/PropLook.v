(** C89: calls that only look at an object do not influence later calls. *)
From Verif Require Import Base PyStr PyNum NdArray Sofa Verify Upgrade Utils Io Demo
  SpecAttr SpecInit SpecVerify
  BaseFacts StrFacts AttrFacts OpFacts InitFacts ProtFacts MissingFacts CoreFacts DimFacts DemoFacts BlindFacts LookFacts.
From Coq Require Import ZArith.
Open Scope string_scope.
Open Scope list_scope.

(** ** What a user sees *)

(** the value a call returns *)
Inductive reply := RNothing | RText (t : option string) | RSize (n : nat) | RTargets (l : option (list string)).

(** the calls of [op] with the values they return *)
Definition talk (E : env) (p : op) : M reply :=
  match p with
  | OVerify h m => do t <- verify E h m; ret (RText t)
  | OGetDim d => do n <- get_dimension E d; ret (RSize n)
  | OAskUpgrade => do l <- upgrade_convention E None VAuto; ret (RTargets l)
  | p => do_ run_op E p; ret RNothing
  end.

(** calls of methods and of write_sofa *)
Inductive call := Method (p : op) | Write (name : string).

(** messages and result of a call *)
Definition answer : Type := list event * res reply.

Definition perform (E : env) (c : call) (x : sofa * fs) : (sofa * fs) * answer :=
  match c with
  | Method p => let r := talk E p (fst x) in ((m_obj r, snd x), (m_out r, m_res r))
  | Write n => let '(s, (o, ev, r)) := write_sofa E n (fst x) (snd x) in ((o, s), (ev, let? _ := r in Ok RNothing))
  end.

(** a session: the calls that are marked by [true] can be left out. The result
    are the final object and files and the answers to the other calls. *)
Fixpoint session (E : env) (l : list (bool * call)) (x : sofa * fs) : (sofa * fs) * list answer :=
  match l with
  | [] => (x, [])
  | (extra, c) :: l =>
      let '(x1, a) := perform E c x in
      let '(x2, r) := session E l x1 in
      (x2, if extra : bool then r else a :: r)
  end.
(** the session without the marked calls *)
Definition without (l : list (bool * call)) : list (bool * call) := filter (fun c => negb (fst c)) l.

(** the marked calls only look *)
Definition only_look (c : call) : Prop := match c with Method p => look p | Write _ => False end.
(** the other calls neither switch the protection off nor delete custom data
    nor store what can not be stored, and do not inspect without raising *)
Definition harmless (cv : convention) (c : call) : Prop :=
  match c with Method p => safe_op p /\ forgetful p /\ keeps_custom cv p | Write _ => True end.

(** ** Proofs *)
Lemma talk_step E p o : m_obj (talk E p o) = step E o p.
Proof.
  unfold step. destruct p; cbn [talk]; rewrite m_obj_bind; cbn [run_op]; rewrite ?m_obj_bind;
    match goal with |- match ?x with _ => _ end = _ => destruct x as [[? ?] [?|?]] end; reflexivity.
Qed.
Lemma blind_talk E p : forgetful p -> blind (talk E p).
Proof.
  intro F. destruct p; cbn [talk]; try (apply blind_bind; [apply (blind_op E); exact F|intros; apply blind_ret]); apply blind_bind; try (intros; apply blind_ret).
  - apply blind_verify.
  - exact (firm_blind _ _ (firm_get_dimension E d)).
  - apply blind_ask.
Qed.

Lemma blind_warn E : blind (warn_version E).
Proof.
  unfold warn_version. apply blind_get; [intros o p T; twin T; reflexivity|]. intro o.
  apply blind_bind; [apply blind_lift|]. intro c. destruct c; try apply blind_raise. destruct (String.eqb s "invalid-value"); [apply blind_ret|].
  destruct (sofa_init E s false "latest" VAuto) as [ev r]. apply blind_bind; [apply blind_mfor; intro; apply blind_emit|intros _].
  apply blind_bind; [apply blind_lift|intro l]. apply blind_bind; [apply blind_lift|intro la]. apply blind_bind; [apply blind_lift|intro cu].
  destruct cu; try apply blind_raise. destruct la; try apply blind_raise. apply blind_bind; [apply blind_lift|intro old]. apply blind_when, blind_emit.
Qed.
Lemma firm_prepare E n : firm raised (prepare_write E n).
Proof.
  unfold prepare_write. apply firm_bind; [apply blind_lift| |intro e; exists e; reflexivity]. intro q.
  apply firm_bind; [apply blind_warn| |intro e; exists e; reflexivity]. intros _.
  apply (firm_then (stopped HRaise)); [apply firm_verify|intro e; exists e; reflexivity|]. intros r [H _]. destruct H. reflexivity.
Qed.
Lemma blind_write E n o p s : twins o p ->
  fst (write_sofa E n p s) = fst (write_sofa E n o s) /\ same_end (snd (write_sofa E n o s)) (snd (write_sofa E n p s)).
Proof.
  intro T. unfold write_sofa. destruct (firm_prepare E n o p T) as [->|[[T1 [X Y]] [e R]]].
  - split; [reflexivity|apply same_end_refl].
  - destruct (prepare_write E n o) as [[o1 e1] r1]. destruct (prepare_write E n p) as [[p1 e2] r2].
    unfold m_obj, m_out, m_res in *. cbn [fst snd] in *. subst. split; [reflexivity|apply same_end_const; exact T1].
Qed.
Lemma rests_warn E o : rests (warn_version E) o.
Proof.
  unfold warn_version. apply rests_get. apply rests_bind; [apply rests_lift|]. intros c ? _. destruct c; try apply rests_raise.
  destruct (String.eqb s "invalid-value"); [apply rests_ret|]. destruct (sofa_init E s false "latest" VAuto) as [ev r].
  apply rests_bind; [apply rests_mfor; intros; apply rests_emit|intros _ ? _]. apply rests_bind; [apply rests_lift|intros l ? _].
  apply rests_bind; [apply rests_lift|intros la ? _]. apply rests_bind; [apply rests_lift|intros cu ? _].
  destruct cu; try apply rests_raise. destruct la; try apply rests_raise. apply rests_bind; [apply rests_lift|intros old ? _]. apply rests_when, rests_emit.
Qed.
Lemma rests_write E cv n o s : db_ok E -> settled E cv o -> twins o (fst (fst (snd (write_sofa E n o s)))).
Proof.
  intros DB S. assert (H : rests (prepare_write E n) o).
  { unfold prepare_write. apply rests_bind; [apply rests_lift|intros q p T]. assert (SP := twins_settled E cv o p T S).
    apply rests_bind; [apply rests_warn|intros _ p1 T1]. assert (S1 := twins_settled E cv p p1 T1 SP).
    apply rests_bind; [exact (rests_verify E cv _ _ p1 DB S1)|intros; apply rests_ret]. }
  unfold rests in H. unfold write_sofa. destruct (prepare_write E n o) as [[o1 e1] [q|e]]; cbn [m_obj fst snd] in *; [|exact H].
  destruct (fs_writable s q); [|exact H]. destruct (write_content E o1 empty_file). exact H.
Qed.

Lemma session_looks E cv l : db_ok E -> db_tidy E -> forall o p s, twins o p -> settled E cv o ->
  (forall c, In (true, c) l -> only_look c) -> (forall c, In (false, c) l -> harmless cv c) ->
  snd (session E l (p, s)) = snd (session E (without l) (o, s))
  /\ snd (fst (session E l (p, s))) = snd (fst (session E (without l) (o, s)))
  /\ twins (fst (fst (session E (without l) (o, s)))) (fst (fst (session E l (p, s)))).
Proof.
  intros DB DT. induction l as [|[extra c] l IH]; intros o p s T S HT HF; [split; [reflexivity|split; [reflexivity|exact T]]|].
  assert (HT' : forall c, In (true, c) l -> only_look c) by (intros; apply HT; right; assumption).
  assert (HF' : forall c, In (false, c) l -> harmless cv c) by (intros; apply HF; right; assumption).
  destruct extra; cbn [session without filter fst negb].
  - specialize (HT c (or_introl eq_refl)). destruct c as [q|n]; [|destruct HT]. cbn [only_look] in HT. cbn [perform fst snd].
    assert (SP := twins_settled E cv o p T S). assert (R : twins p (m_obj (talk E q p))).
    { rewrite talk_step. exact (rests_look E cv q p DB SP HT). }
    specialize (IH o (m_obj (talk E q p)) s (twins_trans _ _ _ T R) S HT' HF'). fold (without l).
    destruct (session E l (m_obj (talk E q p), s)) as [x r]. exact IH.
  - specialize (HF c (or_introl eq_refl)). fold (without l). destruct c as [q|n]; cbn [perform fst snd].
    + destruct HF as [SO [FO KC]]. destruct (blind_talk E q FO o p T) as [T1 [X Y]].
      assert (S1 : settled E cv (m_obj (talk E q o))) by (rewrite talk_step; exact (settled_step E cv o q DB DT S SO KC)).
      destruct (IH _ _ s T1 S1 HT' HF') as [I1 [I2 I3]].
      destruct (session E l (m_obj (talk E q p), s)) as [x r]. destruct (session E (without l) (m_obj (talk E q o), s)) as [x' r'].
      cbn [fst snd] in *. rewrite X, Y, I1. split; [reflexivity|split; [exact I2|exact I3]].
    + destruct (blind_write E n o p s T) as [F [T1 [X Y]]]. assert (R := rests_write E cv n o s DB S).
      destruct (write_sofa E n o s) as [s1 [[o1 e1] r1]]. destruct (write_sofa E n p s) as [s2 [[p1 e2] r2]].
      unfold m_obj, m_out, m_res in *. cbn [fst snd] in *. subst s2 e2 r2.
      destruct (IH o1 p1 s1 T1 (twins_settled E cv o o1 R S) HT' HF') as [I1 [I2 I3]].
      destruct (session E l (p1, s1)) as [x r]. destruct (session E (without l) (o1, s1)) as [x' r'].
      cbn [fst snd] in *. rewrite I1. split; [reflexivity|split; [exact I2|exact I3]].
Qed.

(** ** C89 *)

(** Calls of verify, get_dimension, list_dimensions, inspect, info and
    upgrade_convention() that are inserted anywhere into a session with a new
    object change neither the messages and results of the other calls nor the
    files that are written nor the data of the object. Missing: the other calls
    delete no custom data and inspect raises or ignores issues,
    [C89_refuted], [C89_refuted_custom]. *)
Theorem C89_looks_partial :
  forall E c mandatory version vo ev o s l, db_ok E -> db_tidy E ->
  sofa_init E c mandatory version vo = (ev, Ok o) ->
  (forall q, In (true, q) l -> only_look q) -> (forall q, In (false, q) l -> harmless (conv o) q) ->
  let '((o1, s1), answers1) := session E l (o, s) in
  let '((o2, s2), answers2) := session E (without l) (o, s) in
  answers1 = answers2 /\ s1 = s2 /\ pub o1 = pub o2.
Proof.
  intros E c mandatory version vo ev o s l DB DT SI HT HF.
  destruct (session_looks E (conv o) l DB DT o o s (twins_refl o) (settled_init E c mandatory version vo ev o DB SI) HT HF) as [H1 [H2 H3]].
  destruct (session E l (o, s)) as [[o1 s1] a1]. destruct (session E (without l) (o, s)) as [[o2 s2] a2]. cbn [fst snd] in *.
  split; [exact H1|split; [exact H2|exact (tw_pub _ _ H3)]].
Qed.
Print Assumptions C89_looks_partial.

(** a session with an addition, a change, two files and looks in between *)
Definition shown : list (bool * call) :=
  [(true, Method (OVerify HPrint VRead)); (false, Method (OAddVar "Temp" (VScal (EInt 25)) "double" (Some "mi")));
   (true, Method (OInspect HPrint)); (true, Method (OGetDim "M")); (false, Write "a.sofa");
   (true, Method OListDims); (false, Method (OSet "Data_IR" (VStr false "none"))); (true, Method (OInspect HReturn));
   (false, Method (OVerify HReturn VWrite)); (true, Method OAskUpgrade); (false, Write "b.sofa"); (true, Method (OInfo "all"));
   (false, Method (OGetDim "N"))].
Definition no_files : fs := Fs [] (fun _ => true).

Example C89_case :
  (forall q, In (true, q) shown -> only_look q) /\ (forall q, In (false, q) shown -> harmless (conv demo_sofa) q)
  /\ let '((o, s), a) := session demo shown (demo_sofa, no_files) in
     map (fun x => is_ok (snd x)) a = [true; true; true; true; false; false]
     /\ dkeys (fs_files s) = ["a.sofa"] /\ dmem "Temp" (pub o) = true.
Proof.
  assert (H : let '((o, s), a) := session demo shown (demo_sofa, no_files) in
     map (fun x => is_ok (snd x)) a = [true; true; true; true; false; false]
     /\ dkeys (fs_files s) = ["a.sofa"] /\ dmem "Temp" (pub o) = true) by (vm_compute; auto).
  split; [|split; [|exact H]].
  - intros q I. cbn in I. repeat (destruct I as [I|I]; [try discriminate I; injection I as <-; exact Logic.I|]). destruct I.
  - intros q I. cbn in I. repeat (destruct I as [I|I]; [try discriminate I; injection I as <-|]); [..|destruct I].
    all: try exact Logic.I; (split; [|split; [exact Logic.I|intros n Q; discriminate Q]]).
    all: try exact Logic.I.
    + split; reflexivity.
    + left. discriminate.
Qed.

(** inspect that only prints issues stops early if an entry has a wrong type, and
    shows the dimensions found by an earlier verification. It fails if there was none. *)
Theorem C89_refuted :
  ~ (forall o s l, sofa_init demo "SimpleFreeFieldHRIR" false "1.0" VNo = ([], Ok o) ->
     (forall q, In (true, q) l -> only_look q) ->
     (forall q, In (false, q) l -> match q with Method p => safe_op p | Write _ => True end) ->
     snd (session demo l (o, s)) = snd (session demo (without l) (o, s))).
Proof.
  intro H. destruct (sofa_init demo "SimpleFreeFieldHRIR" false "1.0" VNo) as [ev [o|e]] eqn:SI;
    assert (SI' := SI); vm_compute in SI'; [|discriminate SI'].
  injection SI' as <- <-.
  match type of SI with _ = (_, Ok ?x) => set (o := x) in SI end.
  specialize (H o no_files [(true, Method (OVerify HRaise VWrite)); (false, Method (OSet "GLOBAL_Title" (VScal (EInt 1)))); (false, Method (OInspect HPrint))] SI).
  assert (X := H ltac:(intros q [Q|[Q|[Q|[]]]]; try discriminate Q; injection Q as <-; exact I)
    ltac:(intros q [Q|[Q|[Q|[]]]]; try discriminate Q; injection Q as <-; [left; discriminate|exact I])).
  assert (Y : map (fun a : answer => is_ok (snd a)) (snd (session demo
     [(true, Method (OVerify HRaise VWrite)); (false, Method (OSet "GLOBAL_Title" (VScal (EInt 1)))); (false, Method (OInspect HPrint))] (o, no_files))) = [true; true])
    by (vm_compute; reflexivity).
  rewrite X in Y. vm_compute in Y. discriminate Y.
Qed.
Print Assumptions C89_refuted.

(** custom data that are deleted and added again: verify fails with a KeyError
    unless the object was verified in between *)
Definition retyped : list (bool * call) :=
  [(false, Method (OAddVar "Temp" (VScal (EInt 25)) "double" (Some "mi"))); (false, Method (ODel "Temp"));
   (true, Method (OVerify HRaise VWrite)); (false, Method (OAddVar "Temp" (VStr false "hot") "string" (Some "mi")));
   (false, Method (OVerify HRaise VWrite))].
Theorem C89_refuted_custom :
  ~ (forall s l, (forall q, In (true, q) l -> only_look q) ->
     (forall q, In (false, q) l -> match q with Method p => safe_op p /\ forgetful p | Write _ => True end) ->
     snd (session demo l (demo_sofa, s)) = snd (session demo (without l) (demo_sofa, s))).
Proof.
  intro H. specialize (H no_files retyped).
  assert (X := H ltac:(intros q [Q|[Q|[Q|[Q|[Q|[]]]]]]; try discriminate Q; injection Q as <-; exact I)
    ltac:(intros q [Q|[Q|[Q|[Q|[Q|[]]]]]]; try discriminate Q; injection Q as <-; repeat split)).
  assert (Y : map (fun a : answer => is_ok (snd a)) (snd (session demo retyped (demo_sofa, no_files))) = [true; true; true; true])
    by (vm_compute; reflexivity).
  rewrite X in Y. vm_compute in Y. discriminate Y.
Qed.
Print Assumptions C89_refuted_custom.
