(** Lemmas about writing files. *)
From Verif Require Import Base PyStr PyNum NdArray Sofa Verify Utils Io
  BaseFacts StrFacts.
From Coq Require Import ZArith Lia.
Open Scope string_scope.
Open Scope list_scope.
Open Scope nat_scope.

(** ** Sequences of operations *)
Lemma wseq_Ok a b f g u : wseq a b f = (g, Ok u) ->
  exists h, a f = (h, Ok tt) /\ b h = (g, Ok u).
Proof.
  unfold wseq. destruct (a f) as [h [[]|e]] eqn:H; [|discriminate]. intro Q. exists h. auto.
Qed.

Lemma wlift_Ok {A} (r : res A) k f g u : wlift r k f = (g, Ok u) ->
  exists a, r = Ok a /\ k a f = (g, Ok u).
Proof. unfold wlift. destruct r as [a|e]; [eauto|discriminate]. Qed.

Lemma wfor_Ok {A} (P : list A -> ncfile -> Prop) (k : A -> W) l f g u :
  wfor l k f = (g, Ok u) -> P [] f ->
  (forall pre x h h', (exists post, l = pre ++ x :: post) -> P pre h -> k x h = (h', Ok tt) -> P (pre ++ [x]) h') ->
  P l g.
Proof.
  intros H P0 ST.
  assert (G : forall post pre h, l = pre ++ post -> P pre h -> wfor post k h = (g, Ok u) -> P l g).
  { induction post as [|x post IH]; intros pre h L PH Q.
    - cbn in Q. inversion Q; subst. rewrite app_nil_r. exact PH.
    - cbn in Q. apply wseq_Ok in Q. destruct Q as [h' [Q1 Q2]].
      apply (IH (pre ++ [x]) h').
      + rewrite <- app_assoc. exact L.
      + apply (ST pre x h h'); [eauto|exact PH|exact Q1].
      + exact Q2. }
  apply (G l [] f); auto.
Qed.

Lemma unit_tt (u : unit) : u = tt.
Proof. destruct u; reflexivity. Qed.

(** ** Strings *)
Lemma sdrop_app a b : sdrop (String.length a) (a +++ b) = b.
Proof. induction a as [|c a IH]; [destruct b; reflexivity|exact IH]. Qed.

Lemma sdrop_prefix p k : startswith p k = true -> k = p +++ sdrop (String.length p) k.
Proof.
  intro H. apply prefix_spec in H. destruct H as [r ->]. rewrite sdrop_app. reflexivity.
Qed.

(** ** Dictionaries *)
Lemma dset_last {A} (pre : dict A) k v w : ~ In k (dkeys pre) ->
  dset k w (pre ++ [(k, v)]) = pre ++ [(k, w)].
Proof.
  induction pre as [|[j x] pre IH]; cbn; intro N.
  - rewrite eqb_refl_s. reflexivity.
  - rewrite (eqb_neq_s k j) by (intro X; apply N; left; auto). rewrite IH by tauto. reflexivity.
Qed.
Lemma dget_last {A} (pre : dict A) k v : ~ In k (dkeys pre) -> dget k (pre ++ [(k, v)]) = Some v.
Proof.
  induction pre as [|[j x] pre IH]; cbn; intro N.
  - rewrite eqb_refl_s. reflexivity.
  - rewrite (eqb_neq_s k j) by (intro X; apply N; left; auto). apply IH. tauto.
Qed.
Lemma dget_app {A} (d e : dict A) k : dget k (d ++ e) = match dget k d with Some v => Some v | None => dget k e end.
Proof. induction d as [|[j x] d IH]; cbn; [reflexivity|]. destruct (String.eqb k j); auto. Qed.
Lemma dkeys_app {A} (d e : dict A) : dkeys (d ++ e) = dkeys d ++ dkeys e.
Proof. unfold dkeys. apply map_app. Qed.

(** ** Dimensions *)
Definition new_dims (a : dict nat) : dict (nat * bool) := map (fun dn => (fst dn, (snd dn, snd dn =? 0))) a.

Lemma create_dims_Ok a f g u : wfor a (fun dn => create_dim (fst dn) (snd dn)) f = (g, Ok u) ->
  nf_dims g = nf_dims f ++ new_dims a /\ nf_attrs g = nf_attrs f /\ nf_vars g = nf_vars f.
Proof.
  intro H. apply (wfor_Ok (fun l h => nf_dims h = nf_dims f ++ new_dims l /\ nf_attrs h = nf_attrs f
                                      /\ nf_vars h = nf_vars f) _ _ _ _ _ H).
  - rewrite app_nil_r. auto.
  - intros pre [d n] h h' _ [P1 [P2 P3]] C. cbn [fst snd] in C. unfold create_dim in C.
    destruct (check_name d); [|discriminate]. destruct (dmem d (nf_dims h)); [discriminate|].
    inversion C; subst h'. cbn. rewrite P1, P2, P3. unfold new_dims. rewrite map_app, app_assoc. auto.
Qed.

(** sizes in the file are those of [a], except for unlimited dimensions *)
Definition dims_for (a : dict nat) (d : dict (nat * bool)) : Prop :=
  dkeys d = dkeys a
  /\ forall x n, dget x a = Some n -> exists m, dget x d = Some (m, n =? 0) /\ (n <> 0 -> m = n).

Lemma new_dims_for a : dims_for a (new_dims a).
Proof.
  split.
  - unfold dkeys, new_dims. rewrite map_map. reflexivity.
  - intros x n G. exists n. split; [|auto]. revert G. induction a as [|[y m] a IH]; cbn; [discriminate|].
    destruct (String.eqb x y); [intro G; inversion G; reflexivity|exact IH].
Qed.

Lemma grow_dims_for a ds s : forall d, dims_for a d -> dims_for a (grow_dims ds s d).
Proof.
  unfold grow_dims. induction (combine ds s) as [|[x k] l IH]; intros d D; [exact D|].
  cbn [fold_left fst snd]. apply IH. destruct (dget x d) as [[m []]|] eqn:G; auto.
  destruct D as [D1 D2]. split.
  - rewrite dkeys_dset_mem; [exact D1|]. apply dget_Some_In. eauto.
  - intros y n A. destruct (D2 y n A) as [m' [M1 M2]]. rewrite dget_dset.
    destruct (String.eqb_spec y x) as [->|N]; [|eauto].
    rewrite G in M1. inversion M1; subst m'. exists (Nat.max m k). split; [congruence|].
    intro NZ. apply Nat.eqb_neq in NZ. congruence.
Qed.

(** shape of a variable with the dimensions [ds] for data of shape [s] *)
Fixpoint shape_in (a : dict nat) (ds : list string) (s : list nat) : option (list nat) :=
  match ds with
  | [] => Some []
  | d :: t =>
      match dget d a, shape_in a t (tl s) with
      | Some n, Some r => if n =? 0 then match s with m :: _ => Some (m :: r) | [] => None end
                          else Some (n :: r)
      | _, _ => None
      end
  end.

Lemma target_shape_in a d ds : dims_for a d -> (forall x, In x ds -> In x (dkeys a)) -> forall l s t,
  rmap (fun x => dgetE x d) ds = Ok l ->
  (target_shape l s = Ok t <-> shape_in a ds s = Some t).
Proof.
  intros D HI. induction ds as [|x ds IH]; intros l s t H; cbn [rmap] in H.
  - inversion H; subst. cbn. split; congruence.
  - apply rbind_Ok in H. destruct H as [[m b] [H1 H]]. apply rbind_Ok in H. destruct H as [l' [H2 H]].
    inversion H; subst l. clear H. cbn [target_shape shape_in].
    assert (IX := HI x (or_introl eq_refl)). apply dget_Some_In in IX. destruct IX as [n G].
    destruct (proj2 D x n G) as [m' [M1 M2]]. unfold dgetE in H1. rewrite M1 in H1. inversion H1; subst m' b.
    assert (IH' := IH (fun y J => HI y (or_intror J)) l' (tl s)). rewrite G.
    destruct (target_shape l' (tl s)) as [r|e] eqn:T.
    + rewrite (proj1 (IH' r H2) eq_refl). cbn [rbind].
      destruct (Nat.eqb_spec n 0) as [EQ|NZ].
      * destruct s; split; congruence.
      * rewrite (M2 NZ). split; congruence.
    + cbn [rbind]. destruct (shape_in a ds (tl s)) as [r|] eqn:Q; [|split; discriminate].
      assert (X := proj2 (IH' r H2) eq_refl). discriminate.
Qed.

(** ** Attributes *)
Definition gattrs (E : env) (o : sofa) : dict value :=
  map (fun kv => (sdrop 7 (fst kv), VStr false (remove_nul (py_str E (snd kv)))))
      (filter (fun kv => startswith "GLOBAL_" (fst kv)) (pub o)).

Lemma gattrs_keys E o : dkeys (gattrs E o) = map (sdrop 7) (filter (startswith "GLOBAL_") (dkeys (pub o))).
Proof.
  unfold gattrs, dkeys. rewrite map_map. cbn [fst]. induction (pub o) as [|[k v] p IH]; [reflexivity|].
  cbn [filter map fst]. destruct (startswith "GLOBAL_" k); cbn [map fst]; rewrite IH; reflexivity.
Qed.

Lemma filter_map_fst {A} (f : string -> bool) (p : dict A) :
  filter f (dkeys p) = map fst (filter (fun kv => f (fst kv)) p).
Proof.
  unfold dkeys. induction p as [|[k v] p IH]; [reflexivity|]. cbn. destruct (f k); cbn; rewrite IH; reflexivity.
Qed.

Lemma NoDup_prefix_drop p l : NoDup l -> NoDup (map (sdrop (String.length p)) (filter (startswith p) l)).
Proof.
  induction l as [|k l IH]; intro N; inversion N; subst; [constructor|].
  cbn [filter]. destruct (startswith p k) eqn:S1; [|auto]. cbn [map]. constructor; [|auto].
  intro I. apply in_map_iff in I. destruct I as [j [J1 J2]]. apply filter_In in J2. destruct J2 as [J2 J3].
  apply sdrop_prefix in S1. apply sdrop_prefix in J3. rewrite J1 in J3. rewrite <- S1 in J3. subst j. contradiction.
Qed.

Lemma pre_post_not_in {A} (l pre post : list A) x : l = pre ++ x :: post -> NoDup l -> ~ In x pre.
Proof.
  intros -> N I. apply NoDup_remove_2 in N. apply N. apply in_or_app. auto.
Qed.

Lemma write_gattrs_Ok E o f g u : NoDup (dkeys (pub o)) -> nf_attrs f = [] ->
  wfor (filter (startswith "GLOBAL_") (dkeys (pub o))) (fun k =>
           wlift (getattr o k) (fun w => write_gattr (sdrop 7 k) (py_str E w))) f = (g, Ok u) ->
  nf_dims g = nf_dims f /\ nf_attrs g = gattrs E o /\ nf_vars g = nf_vars f
  /\ forall k, In k (filter (startswith "GLOBAL_") (dkeys (pub o))) -> check_attr dataset_members (sdrop 7 k) = Ok tt.
Proof.
  intros N FA H.
  set (val := fun k => match dget k (pub o) with Some v => v | None => VScal EObj end).
  assert (G : nf_dims g = nf_dims f
     /\ nf_attrs g = map (fun k => (sdrop 7 k, VStr false (remove_nul (py_str E (val k)))))
                         (filter (startswith "GLOBAL_") (dkeys (pub o)))
     /\ nf_vars g = nf_vars f
     /\ forall k, In k (filter (startswith "GLOBAL_") (dkeys (pub o))) -> check_attr dataset_members (sdrop 7 k) = Ok tt).
  { apply (wfor_Ok (fun l h => nf_dims h = nf_dims f
       /\ nf_attrs h = map (fun k => (sdrop 7 k, VStr false (remove_nul (py_str E (val k))))) l
       /\ nf_vars h = nf_vars f /\ forall k, In k l -> check_attr dataset_members (sdrop 7 k) = Ok tt) _ _ _ _ _ H).
    - cbn. split; [reflexivity|]. split; [exact FA|]. split; [reflexivity|]. intros k [].
    - intros pre k h h' [post L] [P1 [P2 [P3 P4]]] C. apply wlift_Ok in C. destruct C as [w [G C]].
      unfold write_gattr in C. destruct (check_attr dataset_members (sdrop 7 k)) as [[]|] eqn:CA; [|discriminate].
      inversion C; subst h'. cbn [nf_dims nf_attrs nf_vars]. split; [exact P1|]. split; [|split; [exact P3|]].
      + assert (ND := NoDup_prefix_drop "GLOBAL_" _ N). change (String.length "GLOBAL_") with 7 in ND.
        rewrite L, map_app in ND. cbn [map] in ND. apply NoDup_remove_2 in ND.
        rewrite dset_new.
        * rewrite P2, map_app. cbn [map]. do 3 f_equal. unfold val. unfold getattr in G.
          destruct (dget k (pub o)); [inversion G; reflexivity|]. destruct (smem k class_attrs); discriminate.
        * rewrite P2. unfold dkeys. rewrite map_map. cbn [fst]. intro I. apply ND. apply in_or_app. left. exact I.
      + intros j I. apply in_app_or in I. destruct I as [I|[<-|[]]]; auto. }
  destruct G as [G1 [G2 [G3 G4]]]. split; [exact G1|]. split; [|auto]. rewrite G2. unfold gattrs.
  rewrite filter_map_fst, map_map. apply map_ext_in. intros [k v] I. cbn [fst snd].
  apply filter_In in I. destruct I as [I _]. unfold val. rewrite (In_dget _ _ _ N I). reflexivity.
Qed.

Definition vattrs (E : env) (o : sofa) (key : string) : dict value :=
  map (fun kv => (sdrop (String.length key + 1) (fst kv), VStr false (remove_nul (py_str E (snd kv)))))
      (filter (fun kv => startswith (key +++ "_") (fst kv)) (pub o)).

Lemma slength_1 key : String.length (key +++ "_") = String.length key + 1.
Proof. rewrite sapp_length. reflexivity. Qed.

Lemma write_vattrs_Ok E o key n pre v f g u : NoDup (dkeys (pub o)) ->
  nf_vars f = pre ++ [(n, v)] -> ~ In n (dkeys pre) -> nv_attrs v = [] ->
  wfor (filter (startswith (key +++ "_")) (dkeys (pub o))) (fun k =>
       wlift (getattr o k) (fun w =>
       write_vattr n (sdrop (String.length key + 1) k) (py_str E w))) f = (g, Ok u) ->
  nf_dims g = nf_dims f /\ nf_attrs g = nf_attrs f
  /\ nf_vars g = pre ++ [(n, NcVar (nv_dims v) (nv_shape v) (nv_data v) (vattrs E o key))]
  /\ forall k, In k (filter (startswith (key +++ "_")) (dkeys (pub o))) ->
       check_attr variable_members (sdrop (String.length key + 1) k) = Ok tt.
Proof.
  intros N FV NI VA H.
  set (val := fun k => match dget k (pub o) with Some v => v | None => VScal EObj end).
  set (at_ := fun k => (sdrop (String.length key + 1) k, VStr false (remove_nul (py_str E (val k))))).
  assert (G : nf_dims g = nf_dims f /\ nf_attrs g = nf_attrs f
     /\ nf_vars g = pre ++ [(n, NcVar (nv_dims v) (nv_shape v) (nv_data v)
                      (map at_ (filter (startswith (key +++ "_")) (dkeys (pub o)))))]
     /\ forall k, In k (filter (startswith (key +++ "_")) (dkeys (pub o))) ->
       check_attr variable_members (sdrop (String.length key + 1) k) = Ok tt).
  { apply (wfor_Ok (fun l h => nf_dims h = nf_dims f /\ nf_attrs h = nf_attrs f
       /\ nf_vars h = pre ++ [(n, NcVar (nv_dims v) (nv_shape v) (nv_data v) (map at_ l))]
       /\ forall k, In k l -> check_attr variable_members (sdrop (String.length key + 1) k) = Ok tt) _ _ _ _ _ H).
    - cbn [map]. split; [reflexivity|]. split; [reflexivity|]. split; [|intros k []].
      rewrite FV, <- VA. destruct v; reflexivity.
    - intros p k h h' [post L] [P1 [P2 [P3 P4]]] C. apply wlift_Ok in C. destruct C as [w [G C]].
      unfold write_vattr in C.
      destruct (check_attr variable_members (sdrop (String.length key + 1) k)) as [[]|] eqn:CA; [|discriminate].
      rewrite P3, (dget_last _ _ _ NI) in C. inversion C; subst h'. cbn [nf_dims nf_attrs nf_vars nv_dims nv_shape nv_data nv_attrs].
      split; [exact P1|]. split; [exact P2|]. split.
      + rewrite (dset_last _ _ _ _ NI). do 4 f_equal.
        assert (ND := NoDup_prefix_drop (key +++ "_") _ N). rewrite slength_1 in ND.
        rewrite L, map_app in ND. cbn [map] in ND. apply NoDup_remove_2 in ND.
        rewrite dset_new.
        * rewrite map_app. cbn [map]. unfold at_ at 3. do 3 f_equal. unfold val. unfold getattr in G.
          destruct (dget k (pub o)); [inversion G; reflexivity|]. destruct (smem k class_attrs); discriminate.
        * unfold dkeys. rewrite map_map. cbn [fst at_]. intro I. apply ND. apply in_or_app. left. exact I.
      + intros j I. apply in_app_or in I. destruct I as [I|[<-|[]]]; auto. }
  destruct G as [G1 [G2 [G3 G4]]]. split; [exact G1|]. split; [exact G2|]. split; [|exact G4]. rewrite G3. do 4 f_equal.
  unfold vattrs. rewrite filter_map_fst, map_map. apply map_ext_in. intros [k w] I. cbn [fst snd].
  apply filter_In in I. destruct I as [I _]. unfold at_, val. rewrite (In_dget _ _ _ N I). reflexivity.
Qed.

(** ** Variables *)

(** the variable [key] of the object as contained in the file *)
Definition stored_var (E : env) (o : sofa) (a : dict nat) (key : string) (x : ncvar) : Prop :=
  exists e v d ds n shape data is_string t,
    dget key (conv o) = Some e /\ e_type e <> "attribute" /\ dget key (pub o) = Some v
    /\ dims o = Some ds /\ dget key ds = Some d /\ dget "S" a = Some n
    /\ format_for_netcdf v key (e_type e) d n = Ok (shape, data, is_string)
    /\ (forall c, In c (chars d) -> In (str1 c) (dkeys a))
    /\ shape_in a (map str1 (chars d)) shape = Some t /\ fit_shape t shape = Ok tt
    /\ check_name (netcdf_name key) = Ok tt
    /\ (forall k, In k (filter (startswith (key +++ "_")) (dkeys (pub o))) ->
          check_attr variable_members (sdrop (String.length key + 1) k) = Ok tt)
    /\ x = NcVar (map str1 (chars d)) t data (vattrs E o key).

Lemma write_entry_Ok E o a key f g u : NoDup (dkeys (pub o)) -> api o = Some a -> dims_for a (nf_dims f) ->
  write_entry E o key f = (g, Ok u) ->
  nf_attrs g = nf_attrs f /\ dims_for a (nf_dims g)
  /\ ((exists e, dget key (conv o) = Some e /\ e_type e = "attribute" /\ g = f)
      \/ (~ In (netcdf_name key) (dkeys (nf_vars f))
          /\ exists x, stored_var E o a key x /\ nf_vars g = nf_vars f ++ [(netcdf_name key, x)]
               /\ nf_dims g = grow_dims (nv_dims x) (nv_shape x) (nf_dims f))).
Proof.
  intros N AP DF H. unfold write_entry in H. apply wlift_Ok in H. destruct H as [e [C H]].
  unfold dgetE in C. destruct (dget key (conv o)) as [e'|] eqn:CE; [|discriminate]. inversion C; subst e'. clear C.
  destruct (String.eqb_spec (e_type e) "attribute") as [TA|TA].
  { inversion H; subst g. split; [reflexivity|]. split; [exact DF|]. left. eauto. }
  apply wlift_Ok in H. destruct H as [v [G H]]. unfold getattr in G.
  destruct (dget key (pub o)) as [v'|] eqn:GV; [|destruct (smem key class_attrs); discriminate].
  inversion G; subst v'. clear G.
  apply wlift_Ok in H. destruct H as [d [HD H]]. destruct (dims o) as [ds|] eqn:OD; [|discriminate].
  unfold dgetE in HD. destruct (dget key ds) as [d'|] eqn:GD; [|discriminate]. inversion HD; subst d'. clear HD.
  apply wlift_Ok in H. destruct H as [n [HS H]]. rewrite AP in HS.
  unfold dgetE in HS. destruct (dget "S" a) as [n'|] eqn:GS; [|discriminate]. inversion HS; subst n'. clear HS.
  apply wlift_Ok in H. destruct H as [[[shape data] is_string] [FM H]].
  apply wseq_Ok in H. destruct H as [f1 [CV H]]. apply wseq_Ok in H. destruct H as [f2 [AV H]].
  unfold create_var in CV. destruct (check_name (netcdf_name key)) as [[]|] eqn:CN; [|discriminate].
  destruct (dmem (netcdf_name key) (nf_vars f)) eqn:DM; [discriminate|].
  apply dmem_false in DM.
  destruct (rmap (fun x => dgetE x (nf_dims f)) (map str1 (chars d))) as [l|] eqn:RM; [|discriminate].
  inversion CV; subst f1. clear CV.
  unfold assign_var in AV. cbn [nf_vars nf_dims nf_attrs] in AV. rewrite (dget_last _ _ _ DM) in AV. cbn [nv_dims nv_attrs] in AV.
  rewrite RM in AV. cbn [rbind] in AV.
  destruct (target_shape l shape) as [t|] eqn:TS; [|discriminate]. cbn [rbind] in AV.
  destruct (fit_shape t shape) as [[]|] eqn:FS; [|discriminate]. cbn [rbind] in AV.
  rewrite (dset_last _ _ _ _ DM) in AV. inversion AV; subst f2. clear AV.
  eapply write_vattrs_Ok in H; [|exact N|reflexivity|exact DM|reflexivity].
  cbn [nf_vars nf_dims nf_attrs nv_dims nv_shape nv_data nv_attrs] in H. destruct H as [H1 [H2 [H3 H4]]].
  split; [exact H2|]. split; [rewrite H1; apply grow_dims_for; exact DF|]. right. split; [exact DM|].
  assert (KD : forall c, In c (chars d) -> In (str1 c) (dkeys a)).
  { intros c IC. rewrite <- (proj1 DF). clear - RM IC. revert l RM.
    induction (chars d) as [|b s IH]; intros l RM; [destruct IC|].
    cbn [map rmap] in RM. apply rbind_Ok in RM. destruct RM as [y [R1 RM]]. apply rbind_Ok in RM. destruct RM as [l' [R2 _]].
    destruct IC as [->|IC]; [|eauto]. unfold dgetE in R1. destruct (dget (str1 c) (nf_dims f)) eqn:Q; [|discriminate].
    apply dget_Some_In. eauto. }
  eexists. split; [|split; [exact H3|exact H1]].
  exists e, v, d, ds, n, shape, data, is_string, t. rewrite CE, GV, OD, GD, GS, CN.
  repeat (split; [first [reflexivity|assumption]|]).
  split; [|split; [exact FS|split; [reflexivity|split; [exact H4|reflexivity]]]].
  apply (target_shape_in a (nf_dims f) (map str1 (chars d)) DF) with (l := l); auto.
  intros x I. apply in_map_iff in I. destruct I as [c [<- I]]. auto.
Qed.

(** the file after a successful call *)
Definition entry_keys (o : sofa) : list string :=
  filter (fun k => match dget k (conv o) with
                   | Some e => negb (String.eqb (e_type e) "attribute")
                   | None => true
                   end) (dkeys (pub o)).

(** sizes after writing [vars] *)
Definition grown (a : dict nat) (vars : dict ncvar) : dict (nat * bool) :=
  fold_left (fun d nv => grow_dims (nv_dims (snd nv)) (nv_shape (snd nv)) d) vars (new_dims a).

Lemma write_content_Ok E o a f u : NoDup (dkeys (pub o)) -> api o = Some a ->
  write_content E o empty_file = (f, Ok u) ->
  nf_attrs f = gattrs E o /\ dims_for a (nf_dims f) /\ nf_dims f = grown a (nf_vars f)
  /\ NoDup (dkeys (nf_vars f))
  /\ Forall2 (fun k nx => fst nx = netcdf_name k /\ stored_var E o a k (snd nx)) (entry_keys o) (nf_vars f)
  /\ forall k, In k (filter (startswith "GLOBAL_") (dkeys (pub o))) -> check_attr dataset_members (sdrop 7 k) = Ok tt.
Proof.
  intros N AP H. unfold write_content in H. rewrite AP in H.
  apply wseq_Ok in H. destruct H as [f1 [H1 H]]. apply wseq_Ok in H. destruct H as [f2 [H2 H3]].
  apply create_dims_Ok in H1. cbn [empty_file nf_dims nf_attrs nf_vars app] in H1. destruct H1 as [D1 [D2 D3]].
  apply write_gattrs_Ok in H2; [|exact N|exact D2]. destruct H2 as [G1 [G2 [G3 G4]]].
  assert (X : nf_attrs f = nf_attrs f2 /\ dims_for a (nf_dims f) /\ nf_dims f = grown a (nf_vars f)
     /\ NoDup (dkeys (nf_vars f))
     /\ Forall2 (fun k nx => fst nx = netcdf_name k /\ stored_var E o a k (snd nx))
          (filter (fun k => match dget k (conv o) with
                   | Some e => negb (String.eqb (e_type e) "attribute") | None => true end) (dkeys (pub o))) (nf_vars f)).
  { apply (wfor_Ok (fun l h => nf_attrs h = nf_attrs f2 /\ dims_for a (nf_dims h) /\ nf_dims h = grown a (nf_vars h)
     /\ NoDup (dkeys (nf_vars h))
     /\ Forall2 (fun k nx => fst nx = netcdf_name k /\ stored_var E o a k (snd nx))
          (filter (fun k => match dget k (conv o) with
                   | Some e => negb (String.eqb (e_type e) "attribute") | None => true end) l) (nf_vars h)) _ _ _ _ _ H3).
    - rewrite G1, D1, G3, D3. split; [reflexivity|]. split; [apply new_dims_for|]. split; [reflexivity|].
      split; constructor.
    - intros pre k h h' _ [P1 [P2 [P3 [P4 P5]]]] C. apply (write_entry_Ok E o a) in C; auto.
      destruct C as [C1 [C2 [[e [CE [CT ->]]]|[CN [x [CS [CV CD]]]]]]].
      + split; [exact P1|]. split; [exact C2|]. split; [exact P3|]. split; [exact P4|].
        rewrite filter_app. cbn [filter]. rewrite CE, CT. cbn [negb String.eqb]. rewrite app_nil_r. exact P5.
      + split; [congruence|]. split; [exact C2|]. split.
        * rewrite CD, CV, P3. unfold grown. rewrite fold_left_app. reflexivity.
        * split.
          -- rewrite CV, dkeys_app. cbn [dkeys map fst].
             apply (NoDup_Add (a := netcdf_name k) (l := dkeys (nf_vars h))); [|auto].
             rewrite <- (app_nil_r (dkeys (nf_vars h))) at 1. apply Add_app.
          -- rewrite filter_app, CV. apply Forall2_app; [exact P5|]. destruct CS as [e CS].
             assert (CS' := CS). destruct CS' as [v [d [ds [n [sh [da [is [t [S1 [S2 _]]]]]]]]]].
             cbn [filter]. rewrite S1. destruct (String.eqb_spec (e_type e) "attribute") as [Q|Q]; [contradiction|].
             cbn [negb]. constructor; [|constructor]. cbn [fst snd]. split; [reflexivity|]. exists e. exact CS. }
  destruct X as [X1 [X2 [X3 [X4 X5]]]]. split; [congruence|]. auto.
Qed.
