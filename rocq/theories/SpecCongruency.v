(** What a report about the conventions on two platforms has to tell. *)
From Verif Require Import Base PyStr Sofa Verify UpdateConv Congruency.
Open Scope string_scope.
Open Scope list_scope.

(** conventions that are not compared *)
Definition ignored (c : string) : Prop :=
  startswith "General_" c = true \/ startswith "GeneralString_" c = true.

Inductive finding := NotInToolbox | NotOnOrg | Different.

(** a finding that is true *)
Definition finding_true (P : platforms) (f : finding) (c : string) : Prop :=
  match f with
  | NotInToolbox => ~ ignored c /\ In c (on_org P) /\ ~ In c (on_toolbox P)
  | NotOnOrg => ~ ignored c /\ In c (on_toolbox P) /\ ~ In c (on_org P)
  | Different => ~ ignored c /\ In c (on_org P) /\ In c (on_toolbox P) /\ clean (org_file P c) <> clean (toolbox_file P c)
  end.

Definition finding_line (f : finding) (c : string) : string :=
  "- " +++ c +++ match f with
                 | NotInToolbox => " is missing in SOFAtoolbox"
                 | NotOnOrg => " is missing on sofaconventions.org"
                 | Different => " differs across platforms"
                 end +++ str1 NL.

(** the message printed for a list of findings *)
Definition report_text (l : list (finding * string)) : string :=
  "Diverging conventions across platforms:" +++ str1 NL
  +++ sconcat (fun fc => finding_line (fst fc) (snd fc)) l.

(** of two neighbours in the list at least one is on the other platform and
    compared *)
Fixpoint spaced (other l : list string) : Prop :=
  match l with
  | c :: (d :: _) as t => ((~ ignored c /\ In c other) \/ (~ ignored d /\ In d other)) /\ spaced other t
  | _ => True
  end.
