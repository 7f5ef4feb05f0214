(** A small convention data base in the format of the json files, used in the
    examples that show that the hypotheses of the theorems can be met. Names,
    flags and dimensions are taken from AES69 (SimpleFreeFieldHRIR). *)
From Verif Require Import Base PyStr PyNum NdArray Sofa Verify.
From Coq Require Import ZArith.
Open Scope string_scope.
Open Scope list_scope.

(** test environment; no code of /repo/sofar *)
Definition attr (flags : option string) (default : string) : entry :=
  Entry flags None "attribute" (VStr false default) (Some "").
(** test environment; no code of /repo/sofar *)
Definition var (flags : option string) (d : string) (default : value) : entry :=
  Entry flags (Some d) "double" default (Some "").
(** test environment; no code of /repo/sofar *)
Definition svar (flags : option string) (d : string) (default : value) : entry :=
  Entry flags (Some d) "string" default (Some "").
(** test environment; no code of /repo/sofar *)
Definition zi (z : Z) : value := VScal (EInt z).
(** test environment; no code of /repo/sofar *)
Definition zl (l : list Z) : value := VList (map zi l).

(** test environment; no code of /repo/sofar *)
Definition rm := Some "rm".
(** test environment; no code of /repo/sofar *)
Definition mo := Some "m".

(** test environment; no code of /repo/sofar *)
Definition hrir (version : string) : convention :=
  [("GLOBAL:Conventions", attr rm "SOFA");
   ("GLOBAL:Version", attr rm "2.1");
   ("GLOBAL:SOFAConventions", attr rm "SimpleFreeFieldHRIR");
   ("GLOBAL:SOFAConventionsVersion", attr rm version);
   ("GLOBAL:APIName", attr rm "");
   ("GLOBAL:APIVersion", attr rm "");
   ("GLOBAL:ApplicationName", attr None "");
   ("GLOBAL:ApplicationVersion", attr None "");
   ("GLOBAL:DateCreated", attr mo "");
   ("GLOBAL:DateModified", attr mo "");
   ("GLOBAL:DataType", attr rm "FIR");
   ("GLOBAL:Title", attr mo "");
   ("ListenerPosition", var mo "IC, MC" (zl [0; 0; 0]%Z));
   ("ListenerPosition:Type", attr mo "cartesian");
   ("ListenerPosition:Units", attr mo "metre");
   ("ReceiverPosition", var mo "rCI, rCM" (VList [zl [0; 9; 0]%Z; zl [0; -9; 0]%Z]));
   ("ReceiverPosition:Type", attr mo "cartesian");
   ("ReceiverPosition:Units", attr mo "metre");
   ("EmitterPosition", var mo "eCI, eCM" (zl [0; 0; 0]%Z));
   ("EmitterPosition:Type", attr mo "cartesian");
   ("EmitterPosition:Units", attr mo "metre");
   ("SourceDescriptions", svar None "MS" (VList [VStr false ""]));
   ("RoomTemperature", var None "I, M" (zi 0%Z));
   ("RoomTemperature:Units", attr None "kelvin");
   ("Data.IR", var mo "mRn" (VList [VList [zl [1; 0]%Z; zl [0; 1]%Z]]));
   ("Data.SamplingRate", var mo "I, M" (zi 48000%Z));
   ("Data.SamplingRate:Units", attr mo "hertz");
   ("Data.Delay", var mo "IR, MR" (zl [0; 0]%Z))].

(** test environment; no code of /repo/sofar *)
Definition demo_rules : dict rule :=
  [("GLOBAL:DataType",
    Rule (Some ["FIR"; "TF"; "SOS"]) []
         (Some [("FIR", [("Data.IR", DepVal None);
                         ("Data.SamplingRate:Units", DepVal (Some ["hertz"]))]);
                ("SOS", [("_dimensions", DepDims [("N", ([6; 12], "a multiple of 6"))])])]));
   ("ListenerPosition:Type",
    Rule (Some ["cartesian"; "spherical"]) ["ListenerPosition"]
         (Some [("cartesian", [("ListenerPosition:Units", DepVal (Some ["metre"]))]);
                ("spherical",
                 [("ListenerPosition:Units", DepVal (Some ["degree, degree, metre"]))])]))].

(** test environment; no code of /repo/sofar *)
Definition demo_aliases : dict string :=
  [("metre", "metre"); ("metres", "metre"); ("meter", "metre"); ("meters", "metre");
   ("degree", "degree"); ("degrees", "degree"); ("hertz", "hertz"); ("kelvin", "kelvin")].

(** test environment; no code of /repo/sofar *)
Definition old_conv : convention :=
  [("GLOBAL:Version", attr rm "1.0");
   ("GLOBAL:SOFAConventions", attr rm "Old");
   ("GLOBAL:SOFAConventionsVersion", attr rm "0.4");
   ("GLOBAL:APIName", attr rm "");
   ("GLOBAL:APIVersion", attr rm "");
   ("GLOBAL:ApplicationName", attr None "");
   ("GLOBAL:ApplicationVersion", attr None "");
   ("GLOBAL:DateCreated", attr mo "");
   ("GLOBAL:DateModified", attr mo "");
   ("GLOBAL:DataType", attr rm "TF");
   ("ReceiverPosition", var mo "rCI, rCM" (VList [zl [0; 9; 0]%Z; zl [0; -9; 0]%Z]));
   ("Data.Mat", var mo "mRn" (VList [VList [zl [1; 2]%Z; zl [3; 4]%Z]]));
   ("Data.IR", var None "mRn" (zi 0%Z));
   ("Junk", var None "I" (zi 0%Z))].

(** test environment; no code of /repo/sofar *)
Definition demo_upgrades : dict upgrade_rule :=
  [("Old",
    UpgradeRule [(["0.4"], ["SimpleFreeFieldHRIR_1.0"], "to_hrir")]
      [("to_hrir",
        UpgradeSpec [("Data.Mat", Move "Data.IR" (Some ([1], [2])) None)]
                    ["Junk"] (Some "check the data"))])].

(** test environment; no code of /repo/sofar *)
Definition demo : env :=
  Env [("SimpleFreeFieldHRIR_1.0.json", hrir "1.0");
       ("SimpleFreeFieldHRIR_0.4.json", hrir "0.4");
       ("Old_0.4.json", old_conv)]
      demo_rules demo_aliases [("Old", "SimpleFreeFieldHRIR")] demo_upgrades
      (fun _ => "?") (fun _ => "<class>") "2024-01-01 00:00:00"
      "sofar v1.2.2" "3.11".

(** a new object, [Sofa("SimpleFreeFieldHRIR")],
    test environment; no code of /repo/sofar *)
Definition demo_sofa : sofa :=
  match sofa_init demo "SimpleFreeFieldHRIR" false "latest" VAuto with
  | (_, Ok o) => o
  | _ => empty_sofa
  end.
