(** Lemmas about the names of files given to streams. *)
From Verif Require Import Base PyStr Sofa Io Stream SpecIo BaseFacts StrFacts IoFacts.
Open Scope string_scope.
Open Scope list_scope.
Open Scope nat_scope.

(** the name ends with the name of a file: neither with a slash nor with a single dot *)
Lemma os_path_of p q : os_path p = Some q -> exists r l, denotes p r l /\ q = path_text r l.
Proof.
  unfold os_path. destruct (rev (split "/" p)) as [|c t]; [discriminate|].
  destruct (_ || _); [discriminate|]. intro H. injection H as <-.
  exists (path_root p), (path_parts p). split; [apply denotes_exists|reflexivity].
Qed.

Lemma os_path_good r l m : is_root r -> Forall component (l ++ [m]) -> os_path (path_text r (l ++ [m])) = Some (path_text r (l ++ [m])).
Proof.
  intros R G. assert (D := good_denotes r (l ++ [m]) R G). apply denotes_iff in D. destruct D as [D1 D2].
  assert (N : Forall (fun c => has_char "/" c = false) (l ++ [m])).
  { apply Forall_forall. intros c I. apply (proj1 (Forall_forall _ _) G c I). }
  assert (NE : l ++ [m] <> []) by (destruct l; discriminate).
  assert (J : exists x y, l ++ [m] = x :: y) by (destruct l; eexists _, _; reflexivity). destruct J as [x [y J]].
  assert (SP : exists pre, split "/" (path_text r (l ++ [m])) = pre ++ l ++ [m]).
  { unfold path_text. destruct R as [-> | [-> | ->]].
    - exists []. apply (split_of_join (l ++ [m]) NE N).
    - exists [""]. cbn [app].
      assert (E : "/" +++ join "/" (l ++ [m]) = join "/" ("" :: l ++ [m])) by (rewrite J; reflexivity).
      rewrite E. apply split_of_join; [discriminate|]. constructor; [reflexivity|exact N].
    - exists [""; ""]. cbn [app].
      assert (E : "//" +++ join "/" (l ++ [m]) = join "/" ("" :: "" :: l ++ [m])) by (rewrite J; reflexivity).
      rewrite E. apply split_of_join; [discriminate|]. constructor; [reflexivity|]. constructor; [reflexivity|exact N]. }
  destruct SP as [pre SP]. unfold os_path. rewrite SP, app_assoc, rev_app_distr. cbn [rev app].
  apply Forall_app in G. destruct G as [_ G]. inversion G as [|a b [C _] _]; subst. unfold named in C.
  destruct (String.eqb m "" || String.eqb m "."); [discriminate C|]. rewrite <- D1, <- D2. reflexivity.
Qed.

(** the names of files that have been written are found *)
Lemma os_path_written name p : sofa_path name = Ok p -> os_path p = Some p.
Proof.
  intro H. apply sofa_path_Ok in H. destruct H as [r [l [n [D ->]]]]. apply denotes_good in D. destruct D as [R G].
  apply os_path_good; [exact R|]. apply Forall_app in G. destruct G as [G1 G2]. inversion G2 as [|x y C _]; subst.
  apply Forall_app. split; [exact G1|]. constructor; [apply stem_component; exact C|constructor].
Qed.

Lemma stream_open_written name p s : sofa_path name = Ok p -> forall f, dget p (fs_files s) = Some (Some f) -> stream_open s p = Ok f.
Proof. intros H f G. unfold stream_open. rewrite (os_path_written name p H), G. reflexivity. Qed.
