(** Theorems about the life cycle of streams (C76). *)
From Verif Require Import Base PyStr PyNum NdArray Sofa Verify Io Stream Session Demo
  BaseFacts DemoFacts PropVerify PropIo PropRound PropStream.
From Coq Require Import Lia.
Open Scope string_scope.
Open Scope list_scope.
Open Scope nat_scope.

(** ** C76 *)

(** a stream is not entered again inside of its own [with] block *)
Fixpoint entered_once (inside : list nat) (p : prog) : Prop :=
  match p with
  | PSkip | PNew _ | PAccess _ _ | PRaise => True
  | PSeq p q | PTry p q => entered_once inside p /\ entered_once inside q
  | PWith i p => ~ In i inside /\ entered_once (i :: inside) p
  end.

Definition all_closed (e : session) : Prop := forall d, In d (se_data e) -> ds_open d = false.

Lemma nth_set_same {A} n (x : A) l : n < List.length l -> nth_error (set_at n x l) n = Some x.
Proof. revert n. induction l as [|y l IH]; intros [|n] H; cbn in *; try lia; [reflexivity|]. apply IH. lia. Qed.
Lemma nth_set_other {A} n m (x : A) l : n <> m -> nth_error (set_at n x l) m = nth_error l m.
Proof. revert n m. induction l as [|y l IH]; intros [|n] [|m] H; cbn; try congruence; try reflexivity. apply IH. lia. Qed.
Lemma set_at_length {A} n (x : A) l : List.length (set_at n x l) = List.length l.
Proof. revert n. induction l as [|y l IH]; intros [|n]; cbn; auto. Qed.

(** What a program does: datasets that were open before are unchanged; no new
    ones stay open; streams that were entered before still refer to their
    file. *)
Record kept (inside : list nat) (e e' : session) : Prop := {
  ke_streams : forall i t, In i inside -> nth_error (se_streams e) i = Some t -> nth_error (se_streams e') i = Some t;
  ke_names : forall i t, nth_error (se_streams e) i = Some t ->
    exists t', nth_error (se_streams e') i = Some t' /\ st_name t' = st_name t;
  ke_old : forall h d, nth_error (se_data e) h = Some d -> nth_error (se_data e') h = Some d;
  ke_new : forall h d, nth_error (se_data e') h = Some d -> List.length (se_data e) <= h -> ds_open d = false }.

Lemma kept_refl l e : kept l e e.
Proof.
  split; [auto|eauto|auto|]. intros h d G L. assert (X := nth_error_Some (se_data e) h). rewrite G in X.
  assert (h < List.length (se_data e)) by (apply X; discriminate). lia.
Qed.

Lemma kept_trans l a b c : kept l a b -> kept l b c -> kept l a c.
Proof.
  intros [A1 A2 A3 A4] [B1 B2 B3 B4]. split.
  - intros i t I G. apply B1; [exact I|]. apply A1; assumption.
  - intros i t G. destruct (A2 i t G) as [t1 [G1 N1]]. destruct (B2 i t1 G1) as [t2 [G2 N2]]. exists t2. split; [exact G2|congruence].
  - intros h d G. apply B3, A3, G.
  - intros h d G L. destruct (nth_error (se_data b) h) as [d'|] eqn:Q.
    + assert (X := B3 h d' Q). rewrite G in X. injection X as ->. apply (A4 h d' Q L).
    + apply nth_error_None in Q. apply (B4 h d G Q).
Qed.

Section Programs.
Variable E : env.
Variable s : fs.

Lemma open_of_kept l i e e' h f : kept l e e' -> In i l -> file_of_stream i e = inl (h, f) -> file_of_stream i e' = inl (h, f).
Proof.
  intros [K1 _ K3 _] I H. unfold file_of_stream in *. destruct (nth_error (se_streams e) i) as [t|] eqn:T; [|discriminate H].
  rewrite (K1 i t I T). destruct (st_file t) as [h'|]; [|discriminate H].
  destruct (nth_error (se_data e) h') as [d|] eqn:D; [|discriminate H]. rewrite (K3 h' d D). exact H.
Qed.

Lemma enter_file i e e1 : enter s i e = (e1, None) ->
  exists t f, nth_error (se_streams e) i = Some t /\ stream_open s (st_name t) = Ok f
    /\ file_of_stream i e1 = inl (List.length (se_data e), f)
    /\ se_streams e1 = set_at i (Stream (st_name t) (Some (List.length (se_data e)))) (se_streams e)
    /\ se_data e1 = se_data e ++ [Dataset f true].
Proof.
  unfold enter. destruct (nth_error (se_streams e) i) as [t|] eqn:T; [|discriminate].
  destruct (stream_open s (st_name t)) as [f|x] eqn:F; [|discriminate]. intro H. injection H as <-.
  exists t, f. split; [reflexivity|]. split; [exact F|]. split; [|split; reflexivity].
  assert (L : i < List.length (se_streams e)) by (apply nth_error_Some; rewrite T; discriminate).
  unfold file_of_stream. cbn [se_streams se_data]. rewrite (nth_set_same i _ _ L). cbn [st_file].
  rewrite nth_error_app2, Nat.sub_diag by lia. reflexivity.
Qed.

Lemma exec_kept p : forall l e e' t r, entered_once l p -> exec E s p e = (e', t, r) -> kept l e e'.
Proof.
  induction p as [|p IHp q IHq|name|i a| |p IHp q IHq|i p IHp]; intros l e e' t r EO H; cbn [exec entered_once] in *.
  - injection H as <- _ _. apply kept_refl.
  - destruct EO as [E1 E2]. destruct (exec E s p e) as [[e1 t1] [x|]] eqn:H1.
    + injection H as <- _ _. apply (IHp l e e1 t1 (Some x) E1 H1).
    + destruct (exec E s q e1) as [[e2 t2] r2] eqn:H2. injection H as <- _ _.
      apply (kept_trans l e e1 e2); [apply (IHp _ _ _ _ _ E1 H1)|apply (IHq _ _ _ _ _ E2 H2)].
  - injection H as <- _ _. assert (A : forall i u, nth_error (se_streams e) i = Some u ->
      nth_error (se_streams e ++ [Stream name None]) i = Some u).
    { intros i u G. rewrite nth_error_app1; [exact G|]. apply nth_error_Some. rewrite G. discriminate. }
    destruct (kept_refl l e) as [K1 K2 K3 K4]. split; cbn [new_stream se_streams se_data]; auto.
    intros i u G. exists u. split; [apply A; exact G|reflexivity].
  - destruct (file_of_stream i e) as [[h f]|x]; [destruct (answer_of E f a)|]; injection H as <- _ _; apply kept_refl.
  - injection H as <- _ _. apply kept_refl.
  - destruct EO as [E1 E2]. destruct (exec E s p e) as [[e1 t1] [x|]] eqn:H1.
    + destruct (exec E s q e1) as [[e2 t2] r2] eqn:H2. injection H as <- _ _.
      apply (kept_trans l e e1 e2); [apply (IHp _ _ _ _ _ E1 H1)|apply (IHq _ _ _ _ _ E2 H2)].
    + injection H as <- _ _. apply (IHp l e e1 t1 None E1 H1).
  - destruct EO as [NI EO]. destruct (enter s i e) as [e1 [x|]] eqn:EN.
    { injection H as <- _ _. unfold enter in EN. destruct (nth_error (se_streams e) i) as [u|]; [|injection EN as <- _; apply kept_refl].
      destruct (stream_open s (st_name u)); [discriminate EN|]. injection EN as <- _. apply kept_refl. }
    destruct (enter_file i e e1 EN) as [u [f [T [_ [OF [SS SD]]]]]].
    destruct (exec E s p e1) as [[e2 t2] r2] eqn:H1. assert (K := IHp (i :: l) e1 e2 t2 r2 EO H1).
    assert (OF2 := open_of_kept (i :: l) i e1 e2 _ _ K (or_introl eq_refl) OF).
    unfold leave in H. rewrite OF2 in H. injection H as <- _ _.
    destruct K as [K1 K2 K3 K4]. rewrite SD in *. rewrite app_length in K4. cbn [List.length] in K4.
    assert (LI : i < List.length (se_streams e)) by (apply nth_error_Some; rewrite T; discriminate).
    split; cbn [se_streams se_data].
    + intros j v J G. assert (N : i <> j) by (intros ->; contradiction).
      apply K1; [right; exact J|]. rewrite SS, nth_set_other by exact N. exact G.
    + intros j v G. destruct (Nat.eq_dec i j) as [<-|N].
      * assert (X : nth_error (se_streams e1) i = Some (Stream (st_name u) (Some (List.length (se_data e)))))
          by (rewrite SS; apply nth_set_same; exact LI).
        destruct (K2 i _ X) as [t' [G' N']]. exists t'. split; [exact G'|]. rewrite N'. cbn. congruence.
      * apply K2. rewrite SS, nth_set_other by exact N. exact G.
    + intros h d G. assert (h < List.length (se_data e)) by (apply nth_error_Some; rewrite G; discriminate).
      rewrite nth_set_other by lia. apply K3. rewrite nth_error_app1 by assumption. exact G.
    + intros h d G L. destruct (Nat.eq_dec (List.length (se_data e)) h) as [<-|N].
      * rewrite nth_set_same in G; [injection G as <-; reflexivity|].
        assert (X : nth_error (se_data e2) (List.length (se_data e)) = Some (Dataset f true))
          by (apply K3; rewrite nth_error_app2, Nat.sub_diag by lia; reflexivity).
        apply nth_error_Some. rewrite X. discriminate.
      * rewrite nth_set_other in G by exact N. apply (K4 h d G). lia.
Qed.

(** Every file a program opens is closed when the program ends, whether or not it
    raises, if no stream is entered inside of its own [with] block. Missing to
    the full statement: see [C76_refuted]. *)
Theorem C76_files_closed_partial :
  forall p e e' t r, entered_once [] p -> all_closed e -> exec E s p e = (e', t, r) -> all_closed e'.
Proof.
  intros p e e' t r EO AC H d I. destruct (exec_kept p [] e e' t r EO H) as [_ _ K3 K4].
  apply In_nth_error in I. destruct I as [h G]. destruct (Nat.lt_ge_cases h (List.length (se_data e))) as [L|L].
  - apply nth_error_Some in L. destruct (nth_error (se_data e) h) as [d'|] eqn:Q; [|congruence].
    assert (X := K3 h d' Q). rewrite G in X. injection X as ->. apply AC. apply (nth_error_In _ _ Q).
  - apply (K4 h d G L).
Qed.

(** what an access to the content [f] of a file answers: the result of the function of the stream
    (C41, C42), or its exception *)
Definition replies (f : ncfile) (a : access) (r : res answer) : Prop :=
  match a with
  | AGet n => (exists x, stream_get f n = Ok x /\ r = Ok (RItem x)) \/ (exists e, stream_get f n = Err e /\ r = Err e)
  | ADimension d =>
      (exists k, stream_get_dimension f d = Ok k /\ r = Ok (RSize k)) \/ (exists e, stream_get_dimension f d = Err e /\ r = Err e)
  | AList => (exists t, stream_list_dimensions f = Ok t /\ r = Ok (RText t)) \/ (exists e, stream_list_dimensions f = Err e /\ r = Err e)
  | AInspect => (exists t, stream_inspect E f = Ok t /\ r = Ok (RText t)) \/ (exists e, stream_inspect E f = Err e /\ r = Err e)
  end.
Lemma answer_replies f a : replies f a (answer_of E f a).
Proof.
  destruct a as [n|d| |]; unfold replies, answer_of, rbind.
  - destruct (stream_get f n); eauto.
  - destruct (stream_get_dimension f d); eauto.
  - destruct (stream_list_dimensions f); eauto.
  - destruct (stream_inspect E f); eauto.
Qed.

(** Inside the [with] block every access answers from the file under the name of
    the stream, until the block ends. *)
Definition shows (i : nat) (name : string) (e : session) : Prop :=
  exists t h f, nth_error (se_streams e) i = Some t /\ st_name t = name /\ stream_open s name = Ok f
    /\ file_of_stream i e = inl (h, f).

Theorem C76_inside_partial :
  forall i t p e e1 e2 t2 r2, nth_error (se_streams e) i = Some t -> enter s i e = (e1, None) ->
  entered_once [i] p -> exec E s p e1 = (e2, t2, r2) ->
  shows i (st_name t) e1 /\ shows i (st_name t) e2
  /\ forall a, exists f r, stream_open s (st_name t) = Ok f /\ replies f a r
       /\ exec E s (PAccess i a) e2 = match r with
                                      | Ok r => (e2, [(i, a, r)], None)
                                      | Err x => (e2, [], Some (FOther x))
                                      end.
Proof.
  intros i t p e e1 e2 t2 r2 T EN EO H. destruct (enter_file i e e1 EN) as [u [f [T' [F [OF [SS _]]]]]].
  rewrite T in T'. injection T' as <-. assert (K := exec_kept p [i] e1 e2 t2 r2 EO H).
  assert (OF2 := open_of_kept [i] i e1 e2 _ _ K (or_introl eq_refl) OF).
  assert (LI : i < List.length (se_streams e)) by (apply nth_error_Some; rewrite T; discriminate).
  assert (G1 : nth_error (se_streams e1) i = Some (Stream (st_name t) (Some (List.length (se_data e)))))
    by (rewrite SS; apply nth_set_same; exact LI).
  split; [eexists; exists (List.length (se_data e)), f; split; [exact G1|repeat (split; [reflexivity || exact F|]); exact OF]|].
  split.
  - assert (G2 := ke_streams _ _ _ K i _ (or_introl eq_refl) G1).
    eexists; exists (List.length (se_data e)), f; split; [exact G2|repeat (split; [reflexivity || exact F|]); exact OF2].
  - intro a. exists f, (answer_of E f a). split; [exact F|]. split; [apply answer_replies|]. cbn [exec]. rewrite OF2. reflexivity.
Qed.

(** All answers of any program, whatever its structure, are those of the file
    under the name of the stream. *)
Definition session_ok (e : session) : Prop := forall i t h d, nth_error (se_streams e) i = Some t ->
  st_file t = Some h -> nth_error (se_data e) h = Some d -> stream_open s (st_name t) = Ok (ds_content d).
Definition session_linked (e : session) : Prop := forall i t h, nth_error (se_streams e) i = Some t ->
  st_file t = Some h -> h < List.length (se_data e).

Lemma exec_ok p : forall e e' t r, session_ok e -> session_linked e -> exec E s p e = (e', t, r) ->
  session_ok e' /\ session_linked e'
  /\ (forall i v, nth_error (se_streams e) i = Some v -> exists v', nth_error (se_streams e') i = Some v' /\ st_name v' = st_name v)
  /\ forall i a x, In (i, a, x) t -> exists v f, nth_error (se_streams e') i = Some v
       /\ stream_open s (st_name v) = Ok f /\ answer_of E f a = Ok x.
Proof.
  assert (ID : forall e, session_ok e -> session_linked e -> session_ok e /\ session_linked e
    /\ (forall i v, nth_error (se_streams e) i = Some v -> exists v', nth_error (se_streams e) i = Some v' /\ st_name v' = st_name v)
    /\ forall i a x, In (i, a, x) [] -> exists v f, nth_error (se_streams e) i = Some v
       /\ stream_open s (st_name v) = Ok f /\ answer_of E f a = Ok x).
  { intros e H1 H2. split; [exact H1|]. split; [exact H2|]. split; [eauto|]. intros i a x []. }
  assert (TWO : forall p q : prog, (forall e e' t r, session_ok e -> session_linked e -> exec E s p e = (e', t, r) ->
      session_ok e' /\ session_linked e'
      /\ (forall i v, nth_error (se_streams e) i = Some v -> exists v', nth_error (se_streams e') i = Some v' /\ st_name v' = st_name v)
      /\ forall i a x, In (i, a, x) t -> exists v f, nth_error (se_streams e') i = Some v
         /\ stream_open s (st_name v) = Ok f /\ answer_of E f a = Ok x) ->
    (forall e e' t r, session_ok e -> session_linked e -> exec E s q e = (e', t, r) ->
      session_ok e' /\ session_linked e'
      /\ (forall i v, nth_error (se_streams e) i = Some v -> exists v', nth_error (se_streams e') i = Some v' /\ st_name v' = st_name v)
      /\ forall i a x, In (i, a, x) t -> exists v f, nth_error (se_streams e') i = Some v
         /\ stream_open s (st_name v) = Ok f /\ answer_of E f a = Ok x) ->
    forall e e1 e2 t1 t2 r1 r2, session_ok e -> session_linked e -> exec E s p e = (e1, t1, r1) -> exec E s q e1 = (e2, t2, r2) ->
      session_ok e2 /\ session_linked e2
      /\ (forall i v, nth_error (se_streams e) i = Some v -> exists v', nth_error (se_streams e2) i = Some v' /\ st_name v' = st_name v)
      /\ forall i a x, In (i, a, x) (t1 ++ t2) -> exists v f, nth_error (se_streams e2) i = Some v
         /\ stream_open s (st_name v) = Ok f /\ answer_of E f a = Ok x).
  { intros p0 q0 IHp IHq e e1 e2 t1 t2 r1 r2 OK LK H1 H2. destruct (IHp _ _ _ _ OK LK H1) as [A1 [A2 [A3 A4]]].
    destruct (IHq _ _ _ _ A1 A2 H2) as [B1 [B2 [B3 B4]]]. split; [exact B1|]. split; [exact B2|]. split.
    - intros i v G. destruct (A3 i v G) as [v1 [G1 N1]]. destruct (B3 i v1 G1) as [v2 [G2 N2]]. exists v2. split; [exact G2|congruence].
    - intros i a x I. apply in_app_or in I. destruct I as [I|I]; [|apply B4; exact I].
      destruct (A4 i a x I) as [v [f [G [F X]]]]. destruct (B3 i v G) as [v' [G' N']]. exists v', f. rewrite N'. auto. }
  induction p as [|p IHp q IHq|name|i a| |p IHp q IHq|i p IHp]; intros e e' t r OK LK H; cbn [exec] in *.
  - injection H as <- <- _. apply ID; assumption.
  - destruct (exec E s p e) as [[e1 t1] [x|]] eqn:H1.
    + injection H as <- <- _. apply (IHp e e1 t1 (Some x) OK LK H1).
    + destruct (exec E s q e1) as [[e2 t2] r2] eqn:H2. injection H as <- <- _.
      apply (TWO p q IHp IHq e e1 e2 t1 t2 None r2 OK LK H1 H2).
  - injection H as <- <- _.
    assert (A : forall i v, nth_error (se_streams e ++ [Stream name None]) i = Some v ->
      nth_error (se_streams e) i = Some v \/ v = Stream name None).
    { intros i v G. destruct (Nat.lt_ge_cases i (List.length (se_streams e))) as [L|L].
      - rewrite nth_error_app1 in G by exact L. left. exact G.
      - rewrite nth_error_app2 in G by exact L. right. destruct (i - List.length (se_streams e)) as [|[|k]]; cbn in G; congruence. }
    split; [|split; [|split]]; cbn [new_stream se_streams se_data].
    + intros i v h d G F D. destruct (A i v G) as [G'| ->]; [apply (OK i v h d G' F D)|discriminate F].
    + intros i v h G F. destruct (A i v G) as [G'| ->]; [apply (LK i v h G' F)|discriminate F].
    + intros i v G. exists v. split; [|reflexivity]. cbn. rewrite nth_error_app1; [exact G|]. apply nth_error_Some. rewrite G. discriminate.
    + intros i a x [].
  - unfold file_of_stream in H. destruct (nth_error (se_streams e) i) as [v|] eqn:V; [|injection H as <- <- _; apply ID; assumption].
    destruct (st_file v) as [h|] eqn:F; [|injection H as <- <- _; apply ID; assumption].
    destruct (nth_error (se_data e) h) as [d|] eqn:D; [|injection H as <- <- _; apply ID; assumption].
    destruct (ds_open d); [|injection H as <- <- _; apply ID; assumption].
    destruct (answer_of E (ds_content d) a) as [x|x] eqn:AN; injection H as <- <- _; [|apply ID; assumption].
    split; [exact OK|]. split; [exact LK|]. split; [eauto|].
    intros j b y [I|[]]. injection I as <- <- <-. exists v, (ds_content d). split; [exact V|]. split; [apply (OK i v h d V F D)|exact AN].
  - injection H as <- <- _. apply ID; assumption.
  - destruct (exec E s p e) as [[e1 t1] [x|]] eqn:H1.
    + destruct (exec E s q e1) as [[e2 t2] r2] eqn:H2. injection H as <- <- _.
      apply (TWO p q IHp IHq e e1 e2 t1 t2 (Some x) r2 OK LK H1 H2).
    + injection H as <- <- _. apply (IHp e e1 t1 None OK LK H1).
  - destruct (enter s i e) as [e1 [x|]] eqn:EN.
    { injection H as <- <- _. unfold enter in EN. destruct (nth_error (se_streams e) i) as [u|]; [|injection EN as <- _; apply ID; assumption].
      destruct (stream_open s (st_name u)); [discriminate EN|]. injection EN as <- _. apply ID; assumption. }
    destruct (enter_file i e e1 EN) as [u [f [T [FO [_ [SS SD]]]]]].
    assert (LI : i < List.length (se_streams e)) by (apply nth_error_Some; rewrite T; discriminate).
    assert (OK1 : session_ok e1).
    { intros j v h d G F D. rewrite SS in G. rewrite SD in D. destruct (Nat.eq_dec i j) as [<-|N].
      - rewrite nth_set_same in G by exact LI. injection G as <-. cbn in F. injection F as <-.
        rewrite nth_error_app2, Nat.sub_diag in D by lia. injection D as <-. exact FO.
      - rewrite nth_set_other in G by exact N. assert (L := LK j v h G F). rewrite nth_error_app1 in D by exact L. apply (OK j v h d G F D). }
    assert (LK1 : session_linked e1).
    { intros j v h G F. rewrite SS in G. rewrite SD, app_length. cbn. destruct (Nat.eq_dec i j) as [<-|N].
      - rewrite nth_set_same in G by exact LI. injection G as <-. cbn in F. injection F as <-. lia.
      - rewrite nth_set_other in G by exact N. assert (L := LK j v h G F). lia. }
    assert (NA : forall j v, nth_error (se_streams e) j = Some v -> exists v', nth_error (se_streams e1) j = Some v' /\ st_name v' = st_name v).
    { intros j v G. rewrite SS. destruct (Nat.eq_dec i j) as [<-|N].
      - rewrite nth_set_same by exact LI. eexists. split; [reflexivity|]. cbn. congruence.
      - rewrite nth_set_other by exact N. eauto. }
    destruct (exec E s p e1) as [[e2 t2] r2] eqn:H1. destruct (IHp e1 e2 t2 r2 OK1 LK1 H1) as [A1 [A2 [A3 A4]]].
    assert (LV : exists e3, fst (leave i e2) = e3 /\ session_ok e3 /\ session_linked e3 /\ se_streams e3 = se_streams e2).
    { unfold leave. destruct (file_of_stream i e2) as [[h g]|x] eqn:FS; cbn [fst]; [|exists e2; auto].
      eexists. split; [reflexivity|]. split; [|split; [|reflexivity]].
      - intros j v k d G F D. cbn [se_streams se_data] in *. destruct (Nat.eq_dec h k) as [<-|N].
        + assert (L := A2 j v h G F). rewrite nth_set_same in D by exact L. injection D as <-. cbn.
          unfold file_of_stream in FS. destruct (nth_error (se_streams e2) i) as [w|]; [|discriminate FS].
          destruct (st_file w) as [h'|]; [|discriminate FS]. destruct (nth_error (se_data e2) h') as [d'|] eqn:D'; [|discriminate FS].
          destruct (ds_open d'); [|discriminate FS]. injection FS as -> <-. apply (A1 j v h d' G F D').
        + rewrite nth_set_other in D by exact N. apply (A1 j v k d G F D).
      - intros j v k G F. cbn [se_streams se_data] in *. rewrite set_at_length. apply (A2 j v k G F). }
    destruct LV as [e3 [LE [B1 [B2 B3]]]]. destruct (leave i e2) as [e4 [x|]]; cbn [fst] in LE; subst e4; injection H as <- <- _.
    + split; [exact B1|]. split; [exact B2|]. rewrite B3. split; [|exact A4].
      intros j v G. destruct (NA j v G) as [v1 [G1 N1]]. destruct (A3 j v1 G1) as [v2 [G2 N2]]. exists v2. split; [exact G2|congruence].
    + split; [exact B1|]. split; [exact B2|]. rewrite B3. split; [|exact A4].
      intros j v G. destruct (NA j v G) as [v1 [G1 N1]]. destruct (A3 j v1 G1) as [v2 [G2 N2]]. exists v2. split; [exact G2|congruence].
Qed.

Theorem C76_answers :
  forall p e' t r, exec E s p (Session [] []) = (e', t, r) ->
  forall i a x, In (i, a, x) t -> exists v f, nth_error (se_streams e') i = Some v
    /\ stream_open s (st_name v) = Ok f /\ replies f a (Ok x).
Proof.
  intros p e' t r H i a x I. assert (X : exists v f, nth_error (se_streams e') i = Some v
    /\ stream_open s (st_name v) = Ok f /\ answer_of E f a = Ok x).
  2:{ destruct X as [v [f [G [O Q]]]]. exists v, f. split; [exact G|]. split; [exact O|]. rewrite <- Q. apply answer_replies. }
  revert i a x I. assert (N : forall A i (v : A), nth_error [] i = Some v -> False) by (intros A [|i] v G; discriminate G).
  apply (exec_ok p (Session [] []) e' t r); [| |exact H].
  - intros i v h d G. exfalso. apply (N _ _ _ G).
  - intros i v h G. exfalso. apply (N _ _ _ G).
Qed.

(** Before entering and after leaving there are no data: every access raises. *)
Theorem C76_outside :
  (forall i a e t, nth_error (se_streams e) i = Some t -> st_file t = None ->
     exec E s (PAccess i a) e = (e, [], Some FRecursion))
  /\ (forall i e e' , leave i e = (e', None) -> forall a, exec E s (PAccess i a) e' = (e', [], Some FClosed)).
Proof.
  split.
  - intros i a e t G F. cbn [exec]. unfold file_of_stream. rewrite G, F. reflexivity.
  - intros i e e' H a. unfold leave in H. destruct (file_of_stream i e) as [[h f]|x] eqn:FS; [|discriminate H]. injection H as <-.
    cbn [exec]. unfold file_of_stream in *. cbn [se_streams se_data]. destruct (nth_error (se_streams e) i) as [t|]; [|discriminate FS].
    destruct (st_file t) as [h'|]; [|discriminate FS]. destruct (nth_error (se_data e) h') as [d|] eqn:D; [|discriminate FS].
    destruct (ds_open d); [|discriminate FS]. injection FS as -> _.
    rewrite nth_set_same by (apply nth_error_Some; rewrite D; discriminate). reflexivity.
Qed.
End Programs.
Print Assumptions C76_files_closed_partial.
Print Assumptions C76_inside_partial.
Print Assumptions C76_answers.
Print Assumptions C76_outside.

(** A stream that is entered inside of its own [with] block leaves a file open,
    and the end of the outer block raises. *)
Theorem C76_refuted :
  ~ (forall E s p e e' t r, all_closed e -> exec E s p e = (e', t, r) -> all_closed e').
Proof.
  intro H. set (p := PSeq (PNew "old.sofa") (PWith 0 (PWith 0 PSkip))).
  destruct (exec demo disk p (Session [] [])) as [[e' t] r] eqn:X.
  specialize (H demo disk p (Session [] []) e' t r). assert (AC : all_closed (Session [] [])) by (intros d []).
  specialize (H AC X). vm_compute in X. injection X as <- _ _.
  assert (Q : true = false); [|discriminate Q]. refine (H (Dataset _ true) (or_introl eq_refl)).
Qed.
Print Assumptions C76_refuted.

(** two streams, nested; a missing name raises and is caught; everything is
    closed and the answers are given *)
Example C76_case :
  let s := fst (write_sofa demo "a" demo_sofa disk) in
  let p := PSeq (PNew "a.sofa") (PSeq (PNew "a.sofa")
             (PTry (PWith 0 (PSeq (PAccess 0 (ADimension "M")) (PWith 1 (PSeq (PAccess 1 (AGet "GLOBAL_Title")) (PAccess 0 (AGet "Nothing"))))))
                   (PSeq (PWith 0 (PAccess 0 (ADimension "N"))) (PTry (PAccess 0 (ADimension "N")) PSkip)))) in
  entered_once [] p
  /\ match exec demo s p (Session [] []) with
     | (e', t, r) => r = None /\ List.length t = 3 /\ List.length (se_data e') = 3 /\ forallb (fun d => negb (ds_open d)) (se_data e') = true
                     /\ In (0, ADimension "N", RSize 2) t
     end.
Proof.
  cbv zeta. split; [cbn; intuition congruence|]. vm_compute. repeat split. right. right. left. reflexivity.
Qed.
