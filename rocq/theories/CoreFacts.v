(** verify split into resetting the convention, type check, the remaining
    checks and the handling of issues. *)
From Verif Require Import Base PyStr PyNum NdArray Sofa Verify SpecAttr SpecInit SpecVerify
  BaseFacts StrFacts AttrFacts OpFacts InitFacts ProtFacts AddDelFacts MissingFacts.
From Coq Require Import NArith.
Open Scope string_scope.
Open Scope list_scope.

(** ** Simple steps *)
Lemma bind_silent {A B} (m : M A) (f : A -> M B) o o1 a :
  m o = (o1, [], Ok a) -> bind m f o = f a o1.
Proof. intro H. unfold bind. rewrite H. destruct (f a o1) as [[o2 e2] r]. reflexivity. Qed.
Lemma bind_fails {A B} (m : M A) (f : A -> M B) o o1 ev e :
  m o = (o1, ev, Err e) -> bind m f o = (o1, ev, Err e).
Proof. intro H. unfold bind. rewrite H. reflexivity. Qed.
Lemma bind_does {A B} (m : M A) (f : A -> M B) o o1 ev a :
  m o = (o1, ev, Ok a) ->
  bind m f o = (m_obj (f a o1), ev ++ m_out (f a o1), m_res (f a o1)).
Proof. intro H. unfold bind. rewrite H. destruct (f a o1) as [[o2 e2] r]. reflexivity. Qed.
Lemma bind_get {B} (f : sofa -> M B) o : bind get f o = f o o.
Proof. apply bind_silent. reflexivity. Qed.
Lemma bind_ret {A B} (a : A) (f : A -> M B) o : bind (ret a) f o = f a o.
Proof. apply bind_silent. reflexivity. Qed.
Lemma bind_lift {A B} (a : A) (f : A -> M B) o : bind (lift (Ok a)) f o = f a o.
Proof. apply bind_silent. reflexivity. Qed.
Lemma bind_lift_err {A B} e (f : A -> M B) o : bind (lift (Err e)) f o = (o, [], Err e).
Proof. reflexivity. Qed.
Lemma bind_modify {B} g (f : unit -> M B) o : bind (modify g) f o = f tt (g o).
Proof. apply bind_silent. reflexivity. Qed.
Lemma bind_ext {A B} (m : M A) (f g : A -> M B) o :
  (forall o1 ev a, m o = (o1, ev, Ok a) -> f a o1 = g a o1) -> bind m f o = bind m g o.
Proof.
  intro H. unfold bind. destruct (m o) as [[o1 ev] [a|e]]; [|reflexivity].
  rewrite (H o1 ev a eq_refl). reflexivity.
Qed.
Lemma triple {A} (r : sofa * list event * res A) : (m_obj r, m_out r, m_res r) = r.
Proof. destruct r as [[o e] r]. reflexivity. Qed.

(** ** Sizes and shapes without the object *)
Definition dims_pure (o : sofa) : dict nat * dict string * res string :=
  let '(s, r) := detect o in
  match r with
  | Err e => (fst s, [], Err e)
  | Ok _ => let a := fixed_sizes s in
            let '(d, r) := check_shapes o a (dim_keys o) [] "" in (a, d, r)
  end.

Definition set_dims (o : sofa) (a : dict nat) (d : dict string) : sofa :=
  with_prot (with_api (with_dims o (Some d)) (Some a)) true.

Lemma check_shapes_irrel p c cu r1 r2 b1 b2 d1 d2 a1 a2 api keys : forall d err,
  check_shapes (Sofa p c cu r1 b1 d1 a1) api keys d err
  = check_shapes (Sofa p c cu r2 b2 d2 a2) api keys d err.
Proof.
  induction keys as [|k keys IH]; intros d err; [reflexivity|]. cbn [check_shapes].
  change (check_shape (Sofa p c cu r1 b1 d1 a1) api k)
    with (check_shape (Sofa p c cu r2 b2 d2 a2) api k).
  destruct (check_shape _ api k) as [[[dm|] m]|e]; auto.
Qed.

Lemma verify_dims_eq o :
  verify_dims o = let '(a, d, r) := dims_pure o in (set_dims o a d, [], r).
Proof.
  destruct o as [p c cu r b d0 a0]. unfold verify_dims, dims_pure.
  rewrite bind_modify, bind_get. unfold with_prot, with_api, with_dims.
  cbn [pub conv custom ro prot dims api].
  change (detect (Sofa p c cu r true (Some []) (Some []))) with (detect (Sofa p c cu r b d0 a0)).
  destruct (detect (Sofa p c cu r b d0 a0)) as [s [u|e]]; rewrite bind_modify;
    [rewrite bind_lift | rewrite bind_lift_err; reflexivity].
  rewrite bind_modify.
  change (dim_keys (Sofa p c cu r true (Some []) (Some [])))
    with (dim_keys (Sofa p c cu r b d0 a0)).
  rewrite (check_shapes_irrel p c cu r r true b (Some []) d0 (Some []) a0).
  destruct (check_shapes (Sofa p c cu r b d0 a0) _ _ _ _) as [d rr].
  rewrite bind_modify. reflexivity.
Qed.

(** ** The checks after the type check *)
Definition cust_check (norm : value -> value -> list event * res (list string)) (o : sofa)
  : list event * res string :=
  match custom o with
  | None => ([], Ok "")
  | Some _ =>
      match getattr o "GLOBAL_SOFAConventions", getattr o "GLOBAL_SOFAConventionsVersion" with
      | Ok c, Ok v => (fst (norm c v), let? nk := snd (norm c v) in Ok (custom_errors nk o))
      | Err e, _ => ([], Err e)
      | _, Err e => ([], Err e)
      end
  end.

(** messages of the rules: errors and warnings *)
Definition late_check (E : env) (m : vmode) (o : sofa) (a : dict nat)
  : res (string * string) :=
  let? rerr := rconcat (check_rule E o a) (rules E) in
  let? uerr := (if m_write m then check_units o else Ok "") in
  let? dmsg := deprecation_msg E o in
  let? pmsg := preliminary_msg E o in
  Ok (section msg_rules (rerr +++ uerr) +++ (if m_write m then dmsg else ""),
      (if m_write m then "" else dmsg) +++ pmsg).

(** object, output, errors and warnings of the checks after the type check *)
Definition core norm (E : env) (m : vmode) (keys : list string) (o : sofa)
  : sofa * list event * res (string * string) :=
  match name_errors o keys with
  | Err e => (o, [], Err e)
  | Ok nerr =>
      match cust_check norm o with
      | (ev, Err e) => (o, ev, Err e)
      | (ev, Ok cerr) =>
          let '(a, d, r) := dims_pure o in
          (set_dims o a d, ev,
           let? serr := r in
           let? ew := late_check E m (set_dims o a d) a in
           Ok (nerr +++ cerr +++ section msg_shape serr +++ fst ew, snd ew))
      end
  end.

(** text of the type check *)
Definition type_text (h : handling) (miss terr : string) : string :=
  (if h_raise h then section msg_missing miss else "") +++ section msg_type terr.

Definition finish (h : handling) (wrn err : string) : M (option string) :=
  if h_ignore h then ret None
  else do r <- handle_issues (warn_head +++ wrn) (err_head +++ err) h;
       ret (if fst r && h_return h then snd r else None).

Lemma mfor_emit ev o : mfor ev emit o = (o, ev, Ok tt).
Proof.
  induction ev as [|e ev IH]; [reflexivity|]. cbn [mfor]. unfold bind, emit at 1.
  rewrite IH. reflexivity.
Qed.

Definition miss_text (o : sofa) : string := sconcat (fun kv => bullet (fst kv)) (missing o).

Definition early (h : handling) (err : string) : M (option string) :=
  do r <- handle_issues warn_head (err_head +++ err) h;
  ret (if h_print h then None else snd r).

Lemma verify_rest_eq norm E h m o :
  verify_rest norm E h m o =
  (do_ when (negb (h_raise h)) (add_defaults (missing o));
   do o2 <- get;
   do terr <- lift (type_errors E o2 (dkeys (pub o)));
   let err := type_text h (miss_text o) terr in
   if negb (String.eqb err "") && negb (h_ignore h)
   then early h err
   else do ew <- core norm E m (dkeys (pub o));
        finish h ((if h_raise h then "" else section msg_added (miss_text o)) +++ snd ew)
               (err +++ fst ew)) o.
Proof.
  unfold verify_rest. rewrite bind_get. cbv zeta. apply bind_ext. intros o2 e2 u _.
  rewrite !bind_get. destruct (type_errors E o2 (dkeys (pub o))) as [terr|e];
    [rewrite !bind_lift | rewrite !bind_lift_err; reflexivity].
  unfold type_text. fold (miss_text o). rewrite eqb_head.
  set (err := _ +++ section msg_type terr).
  destruct (negb (String.eqb err "") && negb (h_ignore h)); [reflexivity|].
  rewrite bind_get.
  assert (CE : core norm E m (dkeys (pub o)) o2 = core norm E m (dkeys (pub o)) o2) by reflexivity.
  unfold core at 2 in CE.
  destruct (name_errors o2 (dkeys (pub o))) as [nerr|e];
    [rewrite bind_lift | rewrite (bind_fails _ _ _ _ _ _ CE); reflexivity].
  set (cm := match custom o2 with None => _ | Some _ => _ end).
  assert (CM : cm o2 = (o2, fst (cust_check norm o2), snd (cust_check norm o2))).
  { unfold cm, cust_check. destruct (custom o2); [|reflexivity].
    destruct (getattr o2 "GLOBAL_SOFAConventions") as [c|e]; [rewrite bind_lift|reflexivity].
    destruct (getattr o2 "GLOBAL_SOFAConventionsVersion") as [v|e]; [rewrite bind_lift|reflexivity].
    destruct (norm c v) as [ev r]. rewrite (bind_does _ _ _ _ _ _ (mfor_emit ev o2)).
    destruct r as [nk|e]; cbn; rewrite app_nil_r; reflexivity. }
  destruct (cust_check norm o2) as [ev [cerr|e]]; cbn [fst snd] in CM;
    [|rewrite (bind_fails _ _ _ _ _ _ CM), (bind_fails _ _ _ _ _ _ CE); reflexivity].
  rewrite (bind_does _ _ _ _ _ _ CM). clear CM cm.
  assert (D := verify_dims_eq o2). destruct (dims_pure o2) as [[a d] [serr|e]].
  2:{ rewrite (bind_fails _ _ _ _ _ _ D). cbn [rbind] in CE. rewrite (bind_fails _ _ _ _ _ _ CE).
      unfold m_obj, m_out, m_res. cbn [fst snd]. rewrite app_nil_r. reflexivity. }
  rewrite (bind_silent _ _ _ _ _ D). rewrite bind_get.
  set (o3 := set_dims o2 a d) in *. replace (api o3) with (Some a) by reflexivity.
  cbn [rbind] in CE. unfold late_check in CE.
  destruct (rconcat (check_rule E o3 a) (rules E)) as [rerr|e]; cbn [rbind] in CE;
    [rewrite bind_lift|rewrite bind_lift_err, (bind_fails _ _ _ _ _ _ CE);
       unfold m_obj, m_out, m_res; cbn [fst snd]; rewrite app_nil_r; reflexivity].
  destruct (if m_write m then check_units o3 else Ok "") as [uerr|e]; cbn [rbind] in CE;
    [rewrite bind_lift|rewrite bind_lift_err, (bind_fails _ _ _ _ _ _ CE);
       unfold m_obj, m_out, m_res; cbn [fst snd]; rewrite app_nil_r; reflexivity].
  destruct (deprecation_msg E o3) as [dmsg|e]; cbn [rbind] in CE;
    [rewrite bind_lift|rewrite bind_lift_err, (bind_fails _ _ _ _ _ _ CE);
       unfold m_obj, m_out, m_res; cbn [fst snd]; rewrite app_nil_r; reflexivity].
  destruct (preliminary_msg E o3) as [pmsg|e]; cbn [rbind] in CE;
    [rewrite bind_lift|rewrite bind_lift_err, (bind_fails _ _ _ _ _ _ CE);
       unfold m_obj, m_out, m_res; cbn [fst snd]; rewrite app_nil_r; reflexivity].
  rewrite (bind_does _ _ _ _ _ _ CE). cbn [fst snd]. unfold finish.
  destruct (h_ignore h); reflexivity.
Qed.

(** ** Outcome with issue_handling='raise' *)
Lemma section_nil head msg : head <> "" -> section head msg = "" <-> msg = "".
Proof.
  intro N. unfold section. destruct (String.eqb_spec msg "") as [->|H]; [tauto|].
  split; intro C; [|contradiction]. apply sapp_eq_nil in C. tauto.
Qed.

Lemma sconcat_nil {A} (f : A -> string) l :
  sconcat f l = "" <-> forall x, In x l -> f x = "".
Proof.
  induction l as [|x l IH]; cbn [sconcat].
  - split; [intros _ y []|reflexivity].
  - rewrite sapp_eq_nil, IH. split.
    + intros [H1 H2] y [->|Hy]; auto.
    + intro H. split; [apply H; left; reflexivity|]. intros y Hy. apply H. right. exact Hy.
Qed.

Lemma rconcat_nil {A} (f : A -> res string) l :
  rconcat f l = Ok "" <-> forall x, In x l -> f x = Ok "".
Proof.
  induction l as [|x l IH]; cbn [rconcat].
  - split; [intros _ y []|reflexivity].
  - destruct (f x) as [a|e] eqn:F; cbn [rbind].
    2:{ split; [discriminate|]. intro H. specialize (H x (or_introl eq_refl)). congruence. }
    destruct (rconcat f l) as [b|e]; cbn [rbind].
    + split.
      * intros H y Hy. assert (AB : a = "" /\ b = "") by (apply sapp_eq_nil; congruence).
        destruct AB as [-> ->]. destruct Hy as [<-|Hy]; [exact F|].
        apply IH; [reflexivity|exact Hy].
      * intro H. assert (F' := H x (or_introl eq_refl)). rewrite F in F'. inversion F'; subst.
        assert (Q : Ok b = Ok "") by (apply IH; intros y Hy; apply H; right; exact Hy).
        inversion Q; subst. reflexivity.
    + split; [discriminate|]. intro H.
      assert (Q : @Err string e = Ok "") by (apply IH; intros y Hy; apply H; right; exact Hy).
      discriminate.
Qed.

Lemma bullet_not_nil k : bullet k <> "".
Proof. discriminate. Qed.

Lemma miss_text_nil o : miss_text o = "" <-> missing o = [].
Proof.
  unfold miss_text. destruct (missing o) as [|kv l]; cbn [sconcat]; [tauto|].
  split; [|discriminate]. intro H. apply sapp_eq_nil in H. destruct H as [H _].
  destruct (bullet_not_nil _ H).
Qed.

Lemma handle_raise w e o :
  handle_issues (warn_head +++ w) (err_head +++ e) HRaise o
  = (o, if String.eqb w "" then [] else [EvWarn (warn_head +++ w)],
     if String.eqb e "" then Ok (false, if String.eqb w "" then None else Some (warn_head +++ w))
     else Err (Exn EValueError (err_head +++ e))).
Proof.
  unfold handle_issues. rewrite !eqb_head.
  destruct (String.eqb_spec w "") as [->|], (String.eqb_spec e "") as [->|]; reflexivity.
Qed.

Lemma type_text_nil h miss terr :
  type_text h miss terr = "" <-> (h_raise h = true -> miss = "") /\ terr = "".
Proof.
  unfold type_text. rewrite sapp_eq_nil, (section_nil msg_type) by discriminate.
  destruct (h_raise h); [rewrite section_nil by discriminate|]; intuition discriminate.
Qed.

Definition warned (w : string) : list event :=
  if String.eqb w "" then [] else [EvWarn (warn_head +++ w)].

Lemma finish_raise w e o :
  finish HRaise w e o = (o, warned w, if String.eqb e "" then Ok None
                                      else Err (Exn EValueError (err_head +++ e))).
Proof.
  unfold finish. cbn [h_ignore]. unfold warned.
  destruct (String.eqb_spec e "") as [->|N].
  - erewrite bind_does; [|rewrite handle_raise; reflexivity].
    cbn [fst h_return andb]. unfold ret, m_obj, m_out, m_res. cbn [fst snd]. rewrite app_nil_r. reflexivity.
  - erewrite bind_fails; [reflexivity|]. rewrite handle_raise. rewrite (eqb_neq_s e "") by exact N.
    reflexivity.
Qed.

Lemma early_raise e o : e <> "" ->
  early HRaise e o = (o, [], Err (Exn EValueError (err_head +++ e))).
Proof.
  intro N. unfold early. erewrite bind_fails; [reflexivity|].
  change warn_head with (warn_head +++ ""). rewrite handle_raise. rewrite (eqb_neq_s e "") by exact N.
  reflexivity.
Qed.

Lemma rest_raise_ok norm E m o :
  is_ok (m_res (verify_rest norm E HRaise m o)) = true <->
  missing o = [] /\ type_errors E o (dkeys (pub o)) = Ok ""
  /\ exists w, m_res (core norm E m (dkeys (pub o)) o) = Ok ("", w).
Proof.
  rewrite verify_rest_eq. cbn [h_raise negb when]. rewrite bind_ret, bind_get.
  destruct (type_errors E o (dkeys (pub o))) as [terr|e].
  2:{ rewrite bind_lift_err. cbn. split; [discriminate|]. intros [_ [H _]]. discriminate. }
  rewrite bind_lift. cbv zeta. rewrite <- miss_text_nil.
  set (err := type_text HRaise (miss_text o) terr).
  assert (EE : err = "" <-> miss_text o = "" /\ terr = "").
  { unfold err. rewrite type_text_nil. cbn. intuition. }
  destruct (String.eqb_spec err "") as [EQ|NE]; cbn [negb andb h_ignore].
  - apply EE in EQ. destruct EQ as [M ->]. assert (err = "") as -> by (apply EE; auto).
    unfold bind at 1. destruct (core norm E m (dkeys (pub o)) o) as [[o1 ev] [[e w]|x]].
    2:{ cbn. split; [discriminate|]. intros [_ [_ [w H]]]. discriminate. }
    cbn [fst snd]. rewrite finish_raise. cbn [fst snd]. change ("" +++ e) with e.
    unfold m_res. cbn [snd].
    destruct (String.eqb_spec e "") as [->|N]; cbn [is_ok].
    + split; [|reflexivity]. intros _. split; [exact M|]. split; [reflexivity|].
      exists w. reflexivity.
    + split; [discriminate|]. intros [_ [_ [w' H]]]. congruence.
  - rewrite early_raise by exact NE. cbn.
    split; [discriminate|]. intros [H1 [H2 _]]. inversion H2; subst. destruct NE. apply EE. auto.
Qed.
