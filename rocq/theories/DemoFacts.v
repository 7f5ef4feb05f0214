(** The demo data base is well formed; a demo object with custom data. *)
From Verif Require Import Base PyStr PyNum NdArray Sofa Verify Upgrade Demo SpecAttr SpecInit.
From Coq Require Import ZArith.
Open Scope string_scope.
Open Scope list_scope.

Lemma demo_db_ok : db_ok demo.
Proof.
  split.
  - repeat constructor; cbn; intuition discriminate.
  - intros f [<-|[<-|[<-|[]]]].
    + exists "SimpleFreeFieldHRIR", "1.0". repeat split; try reflexivity; try discriminate.
      * vm_compute. intuition discriminate.
      * do 2 eexists. repeat split; reflexivity.
      * do 2 eexists. repeat split; reflexivity.
    + exists "SimpleFreeFieldHRIR", "0.4". repeat split; try reflexivity; try discriminate.
      * vm_compute. intuition discriminate.
      * do 2 eexists. repeat split; reflexivity.
      * do 2 eexists. repeat split; reflexivity.
    + exists "Old", "0.4". repeat split; try reflexivity; try discriminate.
      * vm_compute. intuition discriminate.
      * do 2 eexists. repeat split; reflexivity.
      * do 2 eexists. repeat split; reflexivity.
Qed.

Definition fineb (ke : string * entry) : bool :=
  negb (is_private (fst ke)) && negb (String.eqb (fst ke) "list_dimensions")
  && negb (String.eqb (fst ke) "protected") && is_ok (normalize (e_default (snd ke))).

Lemma fineb_fine ke : fineb ke = true -> entry_fine ke.
Proof.
  unfold fineb, entry_fine, clean_key. rewrite !andb_true_iff, !negb_true_iff, !String.eqb_neq. tauto.
Qed.

Lemma demo_tidy : db_tidy demo.
Proof.
  intros f ke Hf Hin. apply fineb_fine.
  assert (H : forallb (fun f => forallb fineb (sofar_keys (snd f))) (db demo) = true)
    by (vm_compute; reflexivity).
  rewrite forallb_forall in H. specialize (H f Hf). cbn in H.
  rewrite forallb_forall in H. apply H. exact Hin.
Qed.

Lemma demo_created : sofa_init demo "SimpleFreeFieldHRIR" false "latest" VAuto = ([], Ok demo_sofa).
Proof. vm_compute. reflexivity. Qed.

(** a history with rejected and accepted operations *)
Definition demo_ops : list op :=
  [OSet "GLOBAL_DataType" (VStr false "TF");             (* rejected: read only *)
   ODel "Data_IR";                                        (* rejected: mandatory *)
   ODel "RoomTemperature";
   OAddVar "Mood" (VList [zi 1%Z; zi 2%Z]) "double" (Some "MR");
   OSet "Data_IR" (VArr (Arr KI [1; 2; 1] [EInt 5%Z; EInt 6%Z] false));
   OVerify HIgnore VWrite; OGetDim "N"; OMissing true true false; OAskUpgrade].
