(** The expectations of the unit tests of the repository, /repo/tests, computed in the model.

    The tests load the conventions and the rules of the standard, which are not part of the sources
    (git submodule). The conventions below have the entries that the tests use. Texts of values
    ([str(v)]) are only given for small whole numbers. Each example cites the test it repeats. *)
From Verif Require Import Base PyStr PyNum NdArray Sofa Upgrade Io Stream Listing Repr Script Utils UpdateConv PropUpdate Demo Verify.
From Coq Require Import ZArith.
Open Scope string_scope.
Open Scope list_scope.
Open Scope nat_scope.

(** ** Conventions and rules *)
(** test environment; no code of /repo/sofar *)
Definition g_attrs (name version data : string) : convention :=
  [("GLOBAL:Conventions", attr rm "SOFA"); ("GLOBAL:Version", attr rm "2.1");
   ("GLOBAL:SOFAConventions", attr rm name); ("GLOBAL:SOFAConventionsVersion", attr rm version);
   ("GLOBAL:APIName", attr rm ""); ("GLOBAL:APIVersion", attr rm "");
   ("GLOBAL:ApplicationName", attr None ""); ("GLOBAL:ApplicationVersion", attr None "");
   ("GLOBAL:AuthorContact", attr mo ""); ("GLOBAL:Comment", attr None "");
   ("GLOBAL:DataType", attr rm data); ("GLOBAL:History", attr None "");
   ("GLOBAL:RoomType", attr mo "free field"); ("GLOBAL:Origin", attr None "");
   ("GLOBAL:DateCreated", attr mo ""); ("GLOBAL:DateModified", attr mo ""); ("GLOBAL:Title", attr mo "")].
(** test environment; no code of /repo/sofar *)
Definition position (name dims_ : string) (v : value) : convention :=
  [(name, var mo dims_ v); (name +++ ":Type", attr mo "cartesian"); (name +++ ":Units", attr mo "metre")].
(** test environment; no code of /repo/sofar *)
Definition positions (receivers : value) : convention :=
  position "ListenerPosition" "IC, MC" (zl [0; 0; 0]%Z) ++ position "ReceiverPosition" "rCI, rCM" receivers
  ++ position "SourcePosition" "IC, MC" (zl [0; 0; 1]%Z) ++ position "EmitterPosition" "eCI, eCM" (zl [0; 0; 0]%Z).
(** test environment; no code of /repo/sofar *)
Definition fir_data (v delay : value) : convention :=
  [("Data.IR", var mo "mRn" v); ("Data.SamplingRate", var mo "I" (zi 48000%Z));
   ("Data.SamplingRate:Units", attr mo "hertz"); ("Data.Delay", var mo "IR, MR" delay)].
(** test environment; no code of /repo/sofar *)
Definition tf_data : convention :=
  [("N", var mo "N" (zi 0%Z)); ("N:LongName", attr None "frequency"); ("N:Units", attr mo "hertz");
   ("Data.Real", var mo "mRn" (zi 0%Z)); ("Data.Imag", var mo "MRN" (zi 0%Z))].
(** test environment; no code of /repo/sofar *)
Definition one_receiver : value := zl [0; 0; 0]%Z.
(** test environment; no code of /repo/sofar *)
Definition two_receivers : value := VList [zl [0; 9; 0]%Z; zl [0; -9; 0]%Z].
(** test environment; no code of /repo/sofar *)
Definition sos_data : convention :=
  [("Data.SOS", var mo "mRn" (VList [VList [zl [0; 0; 0; 1; 0; 0]%Z; zl [0; 0; 0; 1; 0; 0]%Z]]));
   ("Data.SamplingRate", var mo "I" (zi 48000%Z)); ("Data.SamplingRate:Units", attr mo "hertz");
   ("Data.Delay", var mo "IR, MR" (zl [0; 0]%Z))].
(** test environment; no code of /repo/sofar *)
Definition headphone_data : convention :=
  [("SourceModel", svar None "MS" (VList [VStr false ""])); ("SourceManufacturer", svar None "MS" (VList [VStr false ""]))]
  ++ fir_data (VList [VList [zl [0]%Z; zl [0]%Z]]) (zl [0; 0]%Z).
(** test environment; no code of /repo/sofar *)
Definition speaker : convention :=
  [("GLOBAL:Version", attr rm "1.0"); ("GLOBAL:SOFAConventions", attr rm "MultiSpeakerBRIR");
   ("GLOBAL:SOFAConventionsVersion", attr rm "0.3"); ("GLOBAL:APIName", attr rm ""); ("GLOBAL:APIVersion", attr rm "");
   ("GLOBAL:DataType", attr rm "FIRE"); ("Data.IR", var mo "mREn" (VList [VList [VList [zl [0]%Z]; VList [zl [0]%Z]]]))].

(** test environment; no code of /repo/sofar *)
Definition test_rules : dict rule :=
  [("GLOBAL:DataType",
    Rule (Some ["FIR"; "FIR-E"; "TF"; "TF-E"; "SOS"]) []
         (Some [("FIR", [("Data.IR", DepVal None); ("Data.SamplingRate", DepVal None);
                         ("Data.SamplingRate:Units", DepVal (Some ["hertz"]))]);
                ("TF", [("Data.Real", DepVal None); ("Data.Imag", DepVal None); ("N:Units", DepVal (Some ["hertz"]))]);
                ("SOS", [("Data.SOS", DepVal None);
                         ("_dimensions", DepDims [("N", ([6; 12; 18; 24],
                                                        "an integer multiple of 6 greater 0"))])])]));
   ("GLOBAL:RoomType",
    Rule (Some ["free field"; "reverberant"; "shoebox"; "dae"]) []
         (Some [("reverberant", [("GLOBAL:RoomDescription", DepVal None)])]));
   ("ListenerPosition:Type",
    Rule (Some ["cartesian"; "spherical"]) ["ListenerPosition"]
         (Some [("cartesian", [("ListenerPosition:Units", DepVal (Some ["metre"]))]);
                ("spherical", [("ListenerPosition:Units", DepVal (Some ["degree, degree, metre"]))])]));
   ("ListenerView", Rule None ["ListenerView:Type"; "ListenerView:Units"] None);
   ("EmitterPosition:Type",
    Rule (Some ["cartesian"; "spherical"; "spherical harmonics"]) ["EmitterPosition"]
         (Some [("cartesian", [("EmitterPosition:Units", DepVal (Some ["metre"]))]);
                ("spherical harmonics", [("EmitterPosition:Units", DepVal (Some ["degree, degree, metre"]));
                                         ("_dimensions", DepDims [("E", ([1; 4; 9; 16], "(n+1)^2"))])])]))].

(** test environment; no code of /repo/sofar *)
Definition test_upgrades : dict upgrade_rule :=
  [("SimpleFreeFieldTF",
    UpgradeRule [(["0.4"; "1.0"], ["SimpleFreeFieldHRTF_1.0"], "tf")] [("tf", UpgradeSpec [] [] None)]);
   ("SimpleFreeFieldHRIR",
    UpgradeRule [(["0.4"], ["SimpleFreeFieldHRIR_1.0"], "hrir")]
      [("hrir", UpgradeSpec [] [] (Some "Consider to add the optional data 'SourceUp'"))]);
   ("MultiSpeakerBRIR",
    UpgradeRule [(["0.3"], ["SingleRoomMIMOSRIR_1.0"], "mimo")]
      [("mimo", UpgradeSpec [("Data.IR", Move "Data.IR" (Some ([2], [3])) None)] [] None)])].

(** test environment; no code of /repo/sofar *)
Definition small_str (v : value) : string :=
  match v with VScal (EInt (Zpos p)) => nat_str (Pos.to_nat p) | VScal (EInt Z0) => "0" | _ => "?" end.
(** test environment; no code of /repo/sofar *)
Definition T : env :=
  Env [("GeneralTF_1.0.json", g_attrs "GeneralTF" "1.0" "TF" ++ positions one_receiver ++ tf_data);
       ("GeneralTF_2.0.json", g_attrs "GeneralTF" "2.0" "TF" ++ positions one_receiver ++ tf_data);
       ("GeneralFIR_1.0.json", g_attrs "GeneralFIR" "1.0" "FIR" ++ positions one_receiver ++ fir_data (VList [VList [zl [0]%Z]]) (zi 0%Z));
       ("SimpleFreeFieldHRIR_1.0.json",
        g_attrs "SimpleFreeFieldHRIR" "1.0" "FIR" ++ positions two_receivers ++ fir_data (VList [VList [zl [0]%Z; zl [0]%Z]]) (zl [0; 0]%Z));
       ("SimpleFreeFieldHRTF_1.0.json", g_attrs "SimpleFreeFieldHRTF" "1.0" "TF" ++ positions one_receiver ++ tf_data);
       ("SimpleFreeFieldHRSOS_1.0.json", g_attrs "SimpleFreeFieldHRSOS" "1.0" "SOS" ++ positions two_receivers ++ sos_data);
       ("SimpleHeadphoneIR_1.0.json", g_attrs "SimpleHeadphoneIR" "1.0" "FIR" ++ positions two_receivers ++ headphone_data);
       ("SingleRoomMIMOSRIR_1.0.json",
        g_attrs "SingleRoomMIMOSRIR" "1.0" "FIR-E" ++ positions two_receivers
        ++ [("Data.IR", var mo "mRnE" (VList [VList [VList [zl [0]%Z]; VList [zl [0]%Z]]]))]);
       ("SingleRoomDRIR_0.3.json", g_attrs "SingleRoomDRIR" "0.3" "FIR" ++ positions one_receiver ++ fir_data (VList [VList [zl [0]%Z]]) (zi 0%Z));
       ("SimpleFreeFieldHRIR_0.4.json",
        g_attrs "SimpleFreeFieldHRIR" "0.4" "FIR" ++ positions two_receivers ++ fir_data (VList [VList [zl [0]%Z; zl [0]%Z]]) (zl [0; 0]%Z));
       ("SimpleFreeFieldTF_1.0.json", g_attrs "SimpleFreeFieldTF" "1.0" "TF" ++ positions one_receiver ++ tf_data);
       ("MultiSpeakerBRIR_0.3.json", speaker)]
      test_rules [("meter", "metre"); ("meters", "metre"); ("degrees", "degree"); ("hertz", "hertz")]
      [("SimpleFreeFieldTF", "SimpleFreeFieldHRTF"); ("MultiSpeakerBRIR", "SingleRoomMIMOSRIR")] test_upgrades
      small_str (fun _ => "<class 'int'>") "2024-01-01 00:00:00" "sofar v1.2.2" "3.11".

(** ** Expectations *)
(** an exception of the class whose text contains [sub] *)
Definition raised {A} (k : ekind) (sub : string) (r : res A) : bool :=
  match r with
  | Err (Exn k' m) => match k, k' with
                      | ETypeError, ETypeError | EValueError, EValueError | EAttributeError, EAttributeError => contains sub m
                      | _, _ => false
                      end
  | Ok _ => false
  end.
(** printed text *)
Definition printed (sub : string) (l : list event) : bool :=
  existsb (fun e => match e with EvPrint m => contains sub m | EvWarn _ => false end) l.
(** warnings *)
Definition warned (sub : string) (l : list event) : bool :=
  existsb (fun e => match e with EvWarn m => contains sub m | EvPrint _ => false end) l.
(** nothing printed and no warning *)
Definition silent (l : list event) : bool := match l with [] => true | _ => false end.
(** objects of the tests *)
Definition made (r : list event * res sofa) : sofa := match r with (_, Ok o) => o | _ => empty_sofa end.
Definition new (c : string) : sofa := made (sofa_init T c false "latest" VAuto).
Definition unverified (c : string) : sofa := made (sofa_init T c false "latest" VNo).
Definition str (s : string) : value := VStr false s.
(** [sofa.name = value] *)
Definition put (n : string) (v : value) (o : sofa) : sofa := m_obj (set_attr n v o).
(** [sofa.protected = False; m; sofa.protected = True] *)
Definition unprotected (m : M unit) (o : sofa) : sofa :=
  m_obj ((do_ set_protected false; do_ m; set_protected true) o).
Definition check (o : sofa) : sofa * list event * res (option string) := verify T HRaise VWrite o.
(** [sofa.verify() is None] *)
Definition passes {A} (r : sofa * list event * res (option A)) : bool :=
  match m_res r with Ok None => true | _ => false end.
Definition all (l : list bool) : bool := forallb (fun b => b) l.

(** ** tests/test_sofa.py *)
(** /repo/tests/test_sofa.py:9-47 test_create_sofa_object *)
Example test_create_sofa_object : all
  [ raised EValueError "Convention 'invalid' not found" (snd (sofa_init T "invalid" false "latest" VAuto));
    is_ok (snd (sofa_init T "GeneralTF" false "latest" VAuto));
    match getattr (new "GeneralTF") "GLOBAL_SOFAConventionsVersion" with Ok (VStr _ s) => String.eqb s "2.0" | _ => false end;
    match dims (new "GeneralTF"), api (new "GeneralTF") with Some _, Some _ => true | _, _ => false end;
    match repr T (new "GeneralTF") with Ok s => String.eqb s "sofar.SOFA object: GeneralTF 2.0" | Err _ => false end;
    List.length (pub (made (sofa_init T "GeneralTF" true "latest" VAuto))) <? List.length (pub (new "GeneralTF"));
    match getattr (made (sofa_init T "GeneralTF" false "1.0" VAuto)) "GLOBAL_SOFAConventionsVersion" with
    | Ok (VStr _ s) => String.eqb s "1.0" | _ => false end;
    raised EValueError "Version 0.25 not found. Available" (snd (sofa_init T "GeneralTF" false "0.25" VAuto));
    match dims (unverified "GeneralTF"), api (unverified "GeneralTF") with None, None => true | _, _ => false end;
    negb (match conv (unverified "GeneralTF") with [] => true | _ => false end)] = true.
Proof. vm_compute. reflexivity. Qed.

(** /repo/tests/test_sofa.py:50-64 test_set_attributes_of_sofa_object *)
Example test_set_attributes_of_sofa_object :
  let o := put "ListenerPosition" (VArr (Arr KI [3] [EInt 1; EInt 1; EInt 1] false)) (new "GeneralTF") in
  (let? v := getattr (new "GeneralTF") "ListenerPosition" in np_array v)
    = Ok (Arr KI [1; 3] [EInt 0; EInt 0; EInt 0] false)
  /\ getattr o "ListenerPosition" = Ok (VArr (Arr KI [3] [EInt 1; EInt 1; EInt 1] false))
  /\ raised ETypeError "GLOBAL_Version is a read only" (m_res (set_attr "GLOBAL_Version" (zi 1) o)) = true
  /\ raised ETypeError "new is an invalid attribute" (m_res (set_attr "new" (zi 1) o)) = true.
Proof. vm_compute. split; [reflexivity|]. split; [reflexivity|]. split; reflexivity. Qed.

(** /repo/tests/test_sofa.py:67-80 test_delete_attribute_from_sofa_object *)
Example test_delete_attribute_from_sofa_object :
  let r := del_attr "GLOBAL_ApplicationName" (new "GeneralTF") in
  all [is_ok (m_res r); raised ETypeError "GLOBAL_Version is a mandatory" (m_res (del_attr "GLOBAL_Version" (m_obj r)));
       raised ETypeError "new is not an attribute" (m_res (del_attr "new" (m_obj r)))] = true.
Proof. vm_compute. reflexivity. Qed.

(** /repo/tests/test_sofa.py:91-132 test_list_dimensions *)
Example test_list_dimensions :
  let fir := list_dimensions T (new "GeneralFIR") in
  let harm := put "EmitterPosition_Units" (str "degree, degree, metre") (put "ReceiverPosition_Units" (str "degree, degree, metre")
              (put "ReceiverPosition_Type" (str "spherical harmonics") (put "EmitterPosition_Type" (str "spherical harmonics") (m_obj fir)))) in
  let text := m_out (list_dimensions T harm) in
  let o := put "Data_IR" (str "test") (new "GeneralFIR") in
  let r := list_dimensions T o in
  all [printed "N = 1 samples (set by Data_IR of dimension MRN)" (m_out fir);
       printed "N = 1 frequencies (set by Data_Real of dimension MRN)" (m_out (list_dimensions T (new "GeneralTF")));
       printed "N = 6 SOS coefficients (set by Data_SOS of dimension MRN)" (m_out (list_dimensions T (new "SimpleFreeFieldHRSOS")));
       printed "E = 1 emitter" (m_out fir); printed "R = 1 receiver" (m_out fir);
       printed "E = 1 emitter spherical harmonics coefficients" text; printed "R = 1 receiver spherical harmonics coefficients" text;
       raised EValueError "Dimensions can not be shown" (m_res r);
       raised EValueError "Dimensions can not be shown" (m_res (list_dimensions T (put "Data_IR" (zl [1; 2; 3; 4]%Z) (m_obj r))))] = true.
Proof. vm_compute. reflexivity. Qed.

(** /repo/tests/test_sofa.py:135-145 test_get_dimension *)
Example test_get_dimension :
  m_res (get_dimension T "N" (new "GeneralFIR")) = Ok 1
  /\ raised EValueError "Q is not a valid dimension" (m_res (get_dimension T "Q" (m_obj (get_dimension T "N" (new "GeneralFIR"))))) = true.
Proof. split; vm_compute; reflexivity. Qed.

(** /repo/tests/test_sofa.py:148-173 test_info *)
Example test_info :
  let o := new "SimpleFreeFieldHRIR" in
  all (raised EValueError "info='invalid' is invalid" (m_res (info T "invalid" o))
       :: printed ("ListenerPosition" +++ nl +++ "    type: double") (m_out (info T "ListenerPosition" o))
       :: printed ("ListenerPosition_Type" +++ nl +++ "    type: attribute") (m_out (info T "ListenerPosition" o))
       :: printed ("ListenerPosition_Units" +++ nl +++ "    type: attribute") (m_out (info T "ListenerPosition" o))
       :: map (fun i => printed ("showing " +++ i +++ " entries") (m_out (info T i o)))
              ["all"; "mandatory"; "optional"; "read only"; "data"]) = true.
Proof. vm_compute. reflexivity. Qed.
(** /repo/tests/test_deprecations.py:9-15 *)
Example test_info_deprecated :
  warned "Sofa.info() will be deprecated in sofar 1.3.0" (m_out (info T "all" (new "GeneralTF"))) = true.
Proof. vm_compute. reflexivity. Qed.

(** /repo/tests/test_sofa.py:176-196 test_inspect; the text of the array is [str] of numpy *)
Example test_inspect :
  let out := m_out (inspect T HRaise (new "SimpleFreeFieldHRIR")) in
  all [printed "GLOBAL_SOFAConventions : SimpleFreeFieldHRIR" out; printed "ReceiverPosition : (R=2, C=3, I=1)" out] = true.
Proof. vm_compute. reflexivity. Qed.

(** files of the tests: every name can be written *)
Definition disk : fs := Fs [] (fun _ => true).
(** [float("25.1")] *)
Definition f25_1 : f64 := S754_finite false 7064861719986995 (-48).
(** the object of the first half of test_add_entry *)
Definition added : sofa * list event * res unit :=
  (do_ add_variable "Temperature" (VScal (EFlt f25_1)) "double" (Some "MI");
   do_ add_variable "Mood" (str "good") "string" (Some "MS");
   do_ add_attribute "GLOBAL_Mood" (str "good");
   add_attribute "Temperature_Units" (str "degree celsius")) (new "GeneralTF").

(** /repo/tests/test_sofa.py:199-227 test_add_entry: additions, writing and reading *)
Example test_add_entry_added :
  let o := m_obj added in
  let e := Entry None (Some "MI") "double" (VScal EObj) (Some "") in
  is_ok (m_res added) = true
  /\ dget "Temperature" (conv o) = Some e
  /\ match custom o with Some c => dget "Temperature" c | None => None end = Some e
  /\ getattr o "Temperature" = Ok (VScal (EFlt f25_1))
  /\ getattr o "Mood" = Ok (str "good") /\ getattr o "GLOBAL_Mood" = Ok (str "good")
  /\ getattr o "Temperature_Units" = Ok (str "degree celsius").
Proof.
  split; [vm_compute; reflexivity|]. split; [vm_compute; reflexivity|]. split; [vm_compute; reflexivity|].
  split; [vm_compute; reflexivity|]. split; [vm_compute; reflexivity|]. split; vm_compute; reflexivity.
Qed.
Example test_add_entry_round :
  let '(s, (o, _, r)) := write_sofa T "tmp.sofa" (m_obj added) disk in
  match r, read_sofa T s "tmp.sofa" VAuto true with
  | Ok _, (_, Ok o') => match equals o o' true None with (_, Ok true) => true | _ => false end
  | _, _ => false
  end = true.
Proof. vm_compute. reflexivity. Qed.

(** /repo/tests/test_sofa.py:229-266 test_add_entry: deleting, adding data of the convention, assertions *)
Example test_add_entry_rest :
  let o1 := m_obj (del_attr "Temperature_Units" (m_obj added)) in
  let o2 := m_obj (add_variable "ListenerPosition" (zl [0; 0; 0]%Z) "double" (Some "IC") (unprotected (del_attr "ListenerPosition") o1)) in
  let custom_keys := fun o => match custom o with Some c => dkeys c | None => [] end in
  let f := VScal (EFlt f25_1) in
  all [negb (hasattr o1 "Temperature_Units"); negb (smem "Temperature_Units" (custom_keys o1));
       hasattr o2 "ListenerPosition"; negb (smem "ListenerPosition" (custom_keys o2));
       raised EValueError "Entry Temperature already exists" (m_res (add_variable "Temperature" f "double" (Some "MI") o2));
       raised EValueError "underscores '_' in the name" (m_res (add_variable "Temperature_Celsius" f "double" (Some "MI") o2));
       raised EValueError "The name of Data" (m_res (add_attribute "Data_Time_measured" (str "midnight") o2));
       raised EValueError "dtype is float but must be" (m_res (add_variable "TemperatureCelsius" f "float" (Some "MI") o2));
       raised EValueError "dimensions must be provided" (m_res (add_variable "TemperatureCelsius" f "double" None o2));
       warned "Added custom dimension T" (m_out (add_variable "TemperatureCelsius" (VList [f; f]) "double" (Some "T") o2));
       raised EValueError "Adding Attribute Variable" (m_res (add_attribute "Variable_Unit" (str "celsius") o2))] = true.
Proof. vm_compute. reflexivity. Qed.

(** /repo/tests/test_sofa.py:269-310 test_add_missing *)
Example test_add_missing :
  let o := m_obj ((do_ set_protected false; do_ del_attr "GLOBAL_AuthorContact"; do_ del_attr "GLOBAL_History"; set_protected false) (new "GeneralTF")) in
  forallb (fun c => let '(mandatory, optional, verbose) := c in
    let r := add_missing T mandatory optional verbose o in
    all [Bool.eqb (hasattr (m_obj r) "GLOBAL_AuthorContact") mandatory; Bool.eqb (hasattr (m_obj r) "GLOBAL_History") optional;
         Bool.eqb (printed "GLOBAL_AuthorContact" (m_out r)) (verbose && mandatory);
         Bool.eqb (printed "GLOBAL_History" (m_out r)) (verbose && optional);
         verbose || silent (m_out r)])
    [(true, false, true); (false, true, true); (true, true, true); (true, false, false); (false, true, false); (true, true, false)] = true.
Proof. vm_compute. reflexivity. Qed.

(** /repo/tests/test_sofa.py:313-323 test_delete_entry *)
Example test_delete_entry :
  let o := new "SimpleHeadphoneIR" in
  let o' := m_obj ((do_ del_attr "GLOBAL_History"; del_attr "SourceManufacturer") o) in
  all [hasattr o "GLOBAL_History"; hasattr o "SourceManufacturer"; negb (hasattr o' "GLOBAL_History"); negb (hasattr o' "SourceManufacturer")] = true.
Proof. vm_compute. reflexivity. Qed.

(** /repo/tests/test_sofa.py:326-352 test__get_size_and_shape_of_string_var *)
Example test__get_size_and_shape_of_string_var :
  size_and_shape (str "four") "key" = Ok (4, [1; 1])
  /\ size_and_shape (VArr (Arr KU [2] [EStr "four"; EStr "fivee"] false)) "key" = Ok (5, [2])
  /\ size_and_shape (VArr (Arr KS [2] [EByt "four"; EByt "fivee"] false)) "key" = Ok (5, [2])
  /\ raised ETypeError "key must be a string" (size_and_shape (zi 1) "key") = true.
Proof. vm_compute. split; [reflexivity|]. split; [reflexivity|]. split; reflexivity. Qed.

(** /repo/tests/test_sofa.py:355-364 test___mandatory, test___readonly *)
Example test___flags :
  all [is_mandatory (Some "rm"); negb (is_mandatory (Some "r")); negb (is_mandatory None);
       is_read_only (Some "rm"); negb (is_read_only (Some "m")); negb (is_read_only None)] = true.
Proof. vm_compute. reflexivity. Qed.

(** ** tests/test_sofa_verify.py *)
(** /repo/tests/test_sofa_verify.py:30-62 test_verify_value, :140-145 of test_case_insensitivity *)
Example test_verify_value :
  let al := [("meter", "metre"); ("degrees", "degree")] in
  let f := fun s ref => match verify_value (str s) ref al "Some_Units" with Ok b => Some b | Err _ => None end in
  f "goofy" None = Some true
  /\ f "meter" (Some ["metre"]) = Some true
  /\ f "degrees, degrees, meter" (Some ["degree, degree, metre"]) = Some true
  /\ f "degrees,degrees, meter" (Some ["degree, degree, metre"]) = Some true
  /\ f "centimeter" (Some ["metre"]) = Some false
  /\ f "rad, rad, metre" (Some ["degree, degree, metre"]) = Some false
  /\ f "Meter" (Some ["meter"]) = Some true
  /\ f "DegrEes, dEgreeS, MeTer" (Some ["degree, degree, metre"]) = Some true.
Proof.
  split; [vm_compute; reflexivity|]. split; [vm_compute; reflexivity|]. split; [vm_compute; reflexivity|].
  split; [vm_compute; reflexivity|]. split; [vm_compute; reflexivity|]. split; [vm_compute; reflexivity|].
  split; vm_compute; reflexivity.
Qed.

(** /repo/tests/test_sofa_verify.py:65-115 test_issue_handling *)
Example test_issue_handling :
  let h := fun w e x => handle_issues (warn_head +++ w) (err_head +++ e) x empty_sofa in
  let text := fun r => match m_res (A := bool * option string) r with Ok (_, Some i) => i | _ => "" end in
  let quiet := verify T HIgnore VWrite (put "GLOBAL_Comment" (zl [1; 2; 3]%Z) (new "GeneralFIR")) in
  m_res (h "" "" HRaise) = Ok (false, None)
  /\ all [warned "warning" (m_out (h "warning" "" HRaise)); raised EValueError "error" (m_res (h "" "error" HRaise));
       negb (warned "" (m_out (h "warning" "" HPrint))); contains "warning" (text (h "warning" "" HPrint));
       printed "warning" (m_out (h "warning" "" HPrint));
       negb (contains "ERROR" (text (h "warning" "" HPrint))); negb (printed "ERROR" (m_out (h "warning" "" HPrint)));
       contains "error" (text (h "" "error" HPrint)); printed "error" (m_out (h "" "error" HPrint));
       negb (contains "WARNING" (text (h "" "error" HPrint))); negb (printed "WARNING" (m_out (h "" "error" HPrint)));
       passes quiet; silent (m_out quiet)] = true.
Proof. split; vm_compute; reflexivity. Qed.

(** /repo/tests/test_sofa_verify.py:118-155 test_case_insensitivity *)
Example test_case_insensitivity : all
  [ raised EValueError "GLOBAL_DataType is fir" (m_res (check (unprotected (set_attr "GLOBAL_DataType" (str "fir")) (new "SimpleFreeFieldHRIR"))));
    passes (check (put "GLOBAL_RoomType" (str "Free field") (new "SimpleFreeFieldHRIR")));
    passes (verify T HReturn VRead (put "N_Units" (str "HertZ") (new "GeneralTF")));
    passes (verify T HReturn VWrite (put "ListenerPosition_Type" (str "Cartesian") (new "SimpleFreeFieldHRIR")))] = true.
Proof. vm_compute. reflexivity. Qed.

(** /repo/tests/test_sofa_verify.py:158-176 test_missing_default_attributes *)
Example test_missing_default_attributes :
  let o := unprotected (del_attr "GLOBAL_Conventions") (new "GeneralTF") in
  let r := check o in
  let p := verify T HPrint VWrite (m_obj r) in
  all [raised EValueError "Detected missing mandatory data" (m_res r); printed "Added mandatory data with default values" (m_out p);
       match getattr (m_obj p) "GLOBAL_Conventions" with Ok (VStr _ s) => String.eqb s "SOFA" | _ => false end] = true.
Proof. vm_compute. reflexivity. Qed.

(** /repo/tests/test_sofa_verify.py:180-242 test_data_types *)
Example test_data_types :
  let fir := new "GeneralFIR" in
  let bad := fun n v o sub => raised EValueError sub (m_res (check (put n v o))) in
  let word := VArr (Arr KU [] [EStr "test"] false) in
  let p := verify T HPrint VWrite (put "Data_IR" word fir) in
  let q := verify T HReturn VWrite (m_obj p) in
  let hp := new "SimpleHeadphoneIR" in
  all [bad "GLOBAL_Comment" (zl [1; 2; 3]%Z) fir "- GLOBAL_Comment must be string";
       bad "Data_IR" word fir "- Data_IR must be int or float"; bad "Data_IR" (str "1") fir "- Data_IR must be int or float";
       bad "Data_IR" (VScal (ECplx (f_of_Z 1) (f_of_Z 1))) fir "- Data_IR must be int or float";
       passes p; printed "- Data_IR must be int or float" (m_out p);
       match m_res q with Ok (Some i) => contains "- Data_IR must be int or float" i | _ => false end;
       silent (m_out q);
       passes (check (put "Data_IR" (VArr (Arr KI [1] [EInt 1] false)) fir)); passes (check (put "Data_IR" (zl [1]%Z) fir));
       passes (check (put "Data_IR" (zi 1) fir));
       bad "GLOBAL_History" (zi 1) fir "- GLOBAL_History must be string";
       bad "SourceModel" (zi 1) hp "- SourceModel must be string";
       bad "SourceModel" (VArr (Arr KI [] [EInt 1] false)) hp "- SourceModel must be U or S";
       passes (check (put "SourceModel" (VList [str "test"]) hp));
       passes (check (put "SourceModel" (VArr (Arr KU [1] [EStr "test"] false)) hp))] = true.
Proof. vm_compute. reflexivity. Qed.

(** /repo/tests/test_sofa_verify.py:246-306 test_wrong_name *)
Example test_wrong_name :
  let tf := new "GeneralTF" in
  let own := fun n v t d =>
    with_custom (unprotected (set_attr n v) tf) (Some [(n, Entry None d t (VScal EObj) (Some ""))]) in
  let reserved := fun n => check (m_obj (add_variable n (zi 1) "double" (Some "I") tf)) in
  all [raised EValueError "Detected attributes with missing" (m_res (check (own "IR_Type" (str "pressure") "attribute" None)));
       raised EValueError "Detected attribute names with too many" (m_res (check (own "IRType" (str "pressure") "attribute" None)));
       raised EValueError "Detected variable names with too many" (m_res (check (own "IR_Data" (zi 1) "double" (Some "IM"))));
       raised EValueError "with reserved key words" (m_res (reserved "APIfunk"));
       raised EValueError "with reserved key words" (m_res (reserved "PRIVATEtreasure"));
       raised EValueError "with reserved key words" (m_res (reserved "GLOBALdata"))] = true.
Proof. vm_compute. reflexivity. Qed.

(** /repo/tests/test_sofa_verify.py:309-319 test_custom_data_name *)
Example test_custom_data_name :
  raised EValueError "custom variable or attribute with reserved names"
    (m_res (check (m_obj (add_variable "Origin" (zi 1) "double" (Some "I") (new "GeneralTF"))))) = true.
Proof. vm_compute. reflexivity. Qed.

(** /repo/tests/test_sofa_verify.py:323-329 test_wrong_shape *)
Example test_wrong_shape :
  raised EValueError "- ListenerPosition has shape" (m_res (check (put "ListenerPosition" (zi 1) (new "GeneralTF")))) = true.
Proof. vm_compute. reflexivity. Qed.

(** /repo/tests/test_sofa_verify.py:332-371 test_rules_error_messages *)
Definition complete : sofa := made (complete_sofa T "GeneralTF").
Example test_rules_error_messages :
  let err := fun o sub => raised EValueError sub (m_res (check o)) in
  all [passes (check complete);
       err (put "GLOBAL_RoomType" (str "pentagon") complete) "GLOBAL_RoomType is pentagon but must be free field, reverberant";
       err (m_obj (del_attr "ListenerView_Type" complete)) "ListenerView_Type must be given if ListenerView is in SOFA object";
       err (put "Data_SOS" (VArr (Arr KF [1; 2; 1] [EFlt f_zero; EFlt f_zero] false)) (new "SimpleFreeFieldHRSOS"))
           "Dimension N is of size 1 but must be an integer multiple of 6 greater 0 if GLOBAL_DataType is SOS";
       err (m_obj (del_attr "GLOBAL_RoomDescription" (put "GLOBAL_RoomType" (str "reverberant") complete)))
           "GLOBAL_RoomDescription must be given if GLOBAL_RoomType is reverberant"] = true.
Proof. vm_compute. reflexivity. Qed.

(** /repo/tests/test_sofa_verify.py:433-443 test_read_and_write_mode *)
Example test_read_and_write_mode :
  let o := put "ListenerPosition_Units" (str "Meter") (new "SimpleFreeFieldHRIR") in
  all [passes (verify T HReturn VRead o); raised EValueError "lower case letters when writing" (m_res (check o))] = true.
Proof. vm_compute. reflexivity. Qed.

(** /repo/tests/test_sofa_verify.py:447-474 test_deprecations *)
Example test_deprecations :
  let o := unverified "SimpleFreeFieldTF" in
  let msg := "Detected deprecations:" +++ nl +++ "- GLOBAL_SOFAConventions is SimpleFreeFieldTF, which is deprecated. " in
  all [warned msg (m_out (verify T HRaise VRead o)); raised EValueError msg (m_res (check o))] = true.
Proof. vm_compute. reflexivity. Qed.

(** /repo/tests/test_sofa_verify.py:477-481 test_preliminary_conventions_version *)
Example test_preliminary_conventions_version :
  warned "Detected preliminary" (fst (sofa_init T "SingleRoomDRIR" false "0.3" VAuto)) = true.
Proof. vm_compute. reflexivity. Qed.

(** ** tests/test_io.py *)
(** the file written for an object *)
Definition written (o : sofa) : fs := fst (write_sofa T "test.sofa" o disk).
(** [file.n = text] *)
Definition with_gattr (n text : string) (s : fs) : fs :=
  Fs (map (fun pf => (fst pf, option_map (fun f => NcFile (nf_dims f) (dset n (str text) (nf_attrs f)) (nf_vars f)) (snd pf))) (fs_files s)) (fs_writable s).
(** [file.createDimension('A', 10)], [file.createVariable("Data_IR", "f8", ('I', 'A'))] *)
Definition with_wrong_ir (s : fs) : fs :=
  Fs (map (fun pf => (fst pf, option_map (fun f => NcFile (dset "A" (10, false) (nf_dims f)) (nf_attrs f)
    (nf_vars f ++ [("Data_IR", NcVar ["I"; "A"] [1; 10] (DNum KF None (repeat (EFlt f_zero) 10)) [])])) (snd pf))) (fs_files s)) (fs_writable s).

(** /repo/tests/test_io.py:18-71 test_read_write_sofa *)
Example test_read_write_sofa :
  let s := written (new "SimpleFreeFieldHRIR") in
  let has_api := fun r => match snd (A := list event) r with Ok o => match api o with Some _ => Some true | None => Some false end | Err _ => None end in
  has_api (read_sofa T s "test.sofa" VAuto true) = Some true
  /\ has_api (read_sofa T s "test.sofa" VNo true) = Some false
  /\ all [raised EValueError "test.sofa does not exist" (snd (read_sofa T disk "test.sofa" VAuto true));
          raised EValueError "Convention 'Funky' does not exist" (snd (read_sofa T (with_gattr "SOFAConventions" "Funky" s) "test.sofa" VAuto true));
          raised EValueError "v0.1 is not a valid SOFA Convention" (snd (read_sofa T (with_gattr "SOFAConventionsVersion" "0.1" s) "test.sofa" VAuto true));
          raised EValueError "The SOFA object could not be" (snd (read_sofa T (with_wrong_ir s) "test.sofa" VAuto true));
          is_ok (snd (read_sofa T (with_wrong_ir s) "test.sofa" VNo true))] = true.
Proof. split; [vm_compute; reflexivity|]. split; vm_compute; reflexivity. Qed.

(** /repo/tests/test_io.py:74-86 test_read_sofa_custom_data *)
Example test_read_sofa_custom_data :
  (let? o := snd (read_sofa T (written (m_obj (add_attribute "GLOBAL_Warming" (str "critical") (new "SimpleFreeFieldHRIR")))) "test.sofa" VAuto true) in
   getattr o "GLOBAL_Warming") = Ok (str "critical").
Proof. vm_compute. reflexivity. Qed.

(** /repo/tests/test_io.py:89-108 test_read_netcdf; the file is written without verification *)
Example test_read_netcdf :
  let o := unprotected (set_attr "GLOBAL_SOFAConventions" (str "MadeUp")) (new "GeneralTF") in
  let s := fs_set "invalid.sofa" (fst (write_content T o empty_file)) disk in
  all [raised EValueError "Convention 'MadeUp' does not" (snd (read_sofa T s "invalid.sofa" VAuto true));
       match read_sofa_as_netcdf s "invalid.sofa" with (_, Ok o') => match equals o o' true None with (_, Ok b) => b | _ => false end | _ => false end] = true.
Proof. vm_compute. reflexivity. Qed.

(** /repo/tests/test_io.py:111-121 test_write_sofa_outdated_version *)
Example test_write_sofa_outdated_version :
  warned "Writing SOFA object with outdated"
    (m_out (snd (write_sofa T "outdated.sofa" (made (sofa_init T "GeneralTF" false "1.0" VAuto)) disk))) = true.
Proof. vm_compute. reflexivity. Qed.

(** /repo/tests/test_io.py:152-189 test_roundtrip *)
Definition round_trip (o : sofa) (exclude : option string) : bool :=
  match write_sofa T "test.sofa" o disk with
  | (s, (o', _, Ok _)) =>
      match read_sofa T s "test.sofa" VAuto true with
      | (_, Ok r) => match equals o' r true exclude with (_, Ok b) => b | _ => false end
      | _ => false
      end
  | _ => false
  end.
Example test_roundtrip :
  all (map (fun c => round_trip (new c) (Some "DATE"))
       ["GeneralTF"; "GeneralFIR"; "SimpleFreeFieldHRIR"; "SimpleFreeFieldHRTF"; "SimpleFreeFieldHRSOS"; "SimpleHeadphoneIR"; "SingleRoomMIMOSRIR"]) = true
  /\ warned "deprecations" (m_out (verify T HRaise VRead (unverified "SimpleFreeFieldTF"))) = true.
Proof. split; vm_compute; reflexivity. Qed.

(** /repo/tests/test_io.py:192-216 test_roundtrip_multidimensional_string_variable *)
Example test_roundtrip_multidimensional_string_variable :
  let o := put "SourceManufacturer" (VList [VList [str "someone"]; VList [str "else"]; VList [str "did"]; VList [str "this"]])
           (put "Data_IR" (VArr (Arr KF [4; 2; 10] (repeat (EFlt f_zero) 80) false)) (new "SimpleHeadphoneIR")) in
  round_trip (m_obj (del_attr "SourceModel" o)) (Some "DATE") = true.
Proof. vm_compute. reflexivity. Qed.

(** /repo/tests/test_io.py:219-278 test_format_value_for_netcdf; attributes are written as [str(value)] *)
Example test_format_value_for_netcdf :
  py_str T (str "string") = "string" /\ py_str T (zi 1) = "1"
  /\ format_for_netcdf (str "string") "TestVar" "string" "IS" 12
     = Ok ([1; 1; 12], DChar (fixed_width 12 "string"), true)
  /\ format_for_netcdf (VList [str "string"]) "TestVar" "string" "IS" 12
     = Ok ([1; 1; 12], DChar (fixed_width 12 "string"), true)
  /\ format_for_netcdf (VList [VList [str "a"]; VList [str "bc"]]) "TestVar" "string" "MS" 12
     = Ok ([2; 1; 12], DChar (fixed_width 12 "a" +++ fixed_width 12 "bc"), true)
  /\ format_for_netcdf (zl [0; 0]%Z) "TestVar" "double" "MR" 12
     = Ok ([1; 2], DNum KF (Some (EFlt fill64)) [EFlt f_zero; EFlt f_zero], false)
  /\ raised EValueError "Unknown type int for TestVar" (format_for_netcdf (zi 1) "TestVar" "int" "MR" 12) = true.
Proof.
  split; [vm_compute; reflexivity|]. split; [vm_compute; reflexivity|]. split; [vm_compute; reflexivity|].
  split; [vm_compute; reflexivity|]. split; [vm_compute; reflexivity|]. split; vm_compute; reflexivity.
Qed.

(** /repo/tests/test_io.py:281-327 test_format_value_from_netcdf *)
Definition f44100 : elt := EFlt (f_of_Z 44100).
Example test_format_value_from_netcdf :
  format_from_netcdf "Some_Attribute" (NcVar ["S"] [3] (DChar "str") []) = ([], Ok (VStr true "str"))
  /\ format_from_netcdf "Some_Attribute" (NcVar ["M"; "S"] [2; 4] (DChar "str1str2") [])
     = ([], Ok (VArr (Arr KU [2] [EStr "str1"; EStr "str2"] false)))
  /\ format_from_netcdf "Data_SamplingRate" (NcVar ["I"] [1] (DNum KF None [f44100]) []) = ([], Ok (VScal f44100))
  /\ format_from_netcdf "Data_IR" (NcVar ["I"] [1] (DNum KF None [f44100]) []) = ([], Ok (VArr (Arr KF [1] [f44100] false)))
  /\ format_from_netcdf "Data_IR" (NcVar ["I"] [2] (DNum KF (Some (EFlt (f_of_Z 2))) [EFlt (f_of_Z 1); EFlt (f_of_Z 2)]) [])
     = ([EvWarn "Entry Data_IR contains missing data"], Ok (VArr (Arr KF [2] [EFlt (f_of_Z 1); EObj] true)))
  /\ raised ETypeError "Data_IR: value.dtype" (snd (format_from_netcdf "Data_IR" (NcVar ["I"] [1] DOther []))) = true.
Proof.
  split; [vm_compute; reflexivity|]. split; [vm_compute; reflexivity|]. split; [vm_compute; reflexivity|].
  split; [vm_compute; reflexivity|]. split; vm_compute; reflexivity.
Qed.

(** /repo/tests/test_io.py:330-341 test_verify_convention_and_version *)
Example test_verify_convention_and_version :
  verify_convention_and_version T "1.0" "GeneralTF" = Ok tt
  /\ raised EValueError "Convention 'Funky' does not exist" (verify_convention_and_version T "1.0" "Funky") = true
  /\ raised EValueError "v1.1 is not a valid SOFA Convention" (verify_convention_and_version T "1.1" "GeneralTF") = true.
Proof. split; [vm_compute; reflexivity|]. split; vm_compute; reflexivity. Qed.

(** /repo/tests/test_io.py:344-360 test_atleast_nd, test_nd_newaxis *)
Example test_atleast_nd :
  forallb (fun n => match atleast_nd (zi 1) n, atleast_nd (VArr (Arr KI [1; 1] [EInt 1] false)) n with
                    | Ok a, Ok b => (a_ndim a =? n) && (a_ndim b =? Nat.max 2 n)
                                    && match a_data a, a_data b with [EInt 1], [EInt 1] => true | _, _ => false end
                    | _, _ => false
                    end) [1; 2; 3; 4; 5] = true
  /\ (let? a := nd_newaxis (zl [1; 2; 3; 4; 5; 6]%Z) 2 in Ok (a_shape a)) = Ok [6; 1].
Proof. split; vm_compute; reflexivity. Qed.

(** ** tests/test_sofastream.py *)
(** the content of the file that was written *)
Definition file_of (o : sofa) : ncfile := fst (write_content T (m_obj (check o)) empty_file).
(** /repo/tests/conftest.py:7-31 temp_sofa_file *)
Definition temp_sofa : sofa :=
  put "Data_SamplingRate_Units" (str "hertz") (put "GLOBAL_RoomType" (str "free field")
    (put "Data_IR" (VArr (Arr KI [3; 2] (map EInt [0; 1; 2; 3; 4; 5]%Z) false)) (new "SimpleFreeFieldHRIR"))).
Definition temp_file : ncfile := file_of temp_sofa.

(** /repo/tests/test_sofastream.py:10-34 test_sofastream_output *)
Example test_sofastream_output :
  match stream_get temp_file "Data_IR" with
  | Ok (IVar x) => let? a := raw_array x in Ok (sh_squeeze (a_shape a), a_data a)
  | _ => Err (Exn ENotModelled "")
  end = Ok ([3; 2], map (fun z => EFlt (f_of_Z z)) [0; 1; 2; 3; 4; 5]%Z)
  /\ stream_get temp_file "Data_SamplingRate_Units" = Ok (IAttr (str "hertz"))
  /\ stream_get temp_file "GLOBAL_RoomType" = Ok (IAttr (str "free field")).
Proof. split; [vm_compute; reflexivity|]. split; vm_compute; reflexivity. Qed.
(** /repo/tests/test_sofastream.py:37-43 test_sofastream_attribute_error *)
Example test_sofastream_attribute_error :
  raised EAttributeError "Wrong_Attribute is not contained in SOFA-file" (stream_get temp_file "Wrong_Attribute") = true.
Proof. vm_compute. reflexivity. Qed.
(** /repo/tests/test_sofastream.py:46-66 test_sofastream_inspect: the same text as for the object *)
Example test_sofastream_inspect :
  match stream_inspect T temp_file, read_sofa T (written temp_sofa) "test.sofa" VAuto true with
  | Ok text, (_, Ok o) => match m_out (inspect T HRaise o) with [EvPrint m] => String.eqb m text | _ => false end
  | _, _ => false
  end = true.
Proof. vm_compute. reflexivity. Qed.
(** /repo/tests/test_sofastream.py:69-116 test_list_dimensions *)
Example test_stream_list_dimensions :
  let text := fun o => match stream_list_dimensions (file_of o) with Ok s => s | Err _ => "" end in
  let harm := put "EmitterPosition_Units" (str "degree, degree, metre") (put "ReceiverPosition_Units" (str "degree, degree, metre")
              (put "ReceiverPosition_Type" (str "spherical harmonics") (put "EmitterPosition_Type" (str "spherical harmonics") (new "GeneralFIR")))) in
  all [contains "N = 1 samples" (text (new "GeneralFIR")); contains "N = 1 frequencies" (text (new "GeneralTF"));
       contains "N = 6 SOS coefficients" (text (new "SimpleFreeFieldHRSOS"));
       contains "E = 1 emitter" (text (new "GeneralFIR")); contains "R = 1 receiver" (text (new "GeneralFIR"));
       contains "E = 1 emitter spherical harmonics coefficients" (text harm);
       contains "R = 1 receiver spherical harmonics coefficients" (text harm)] = true.
Proof. vm_compute. reflexivity. Qed.
(** /repo/tests/test_sofastream.py:119-134 test_get_dimensions *)
Example test_stream_get_dimension :
  stream_get_dimension (file_of (new "GeneralFIR")) "N" = Ok 1
  /\ raised EValueError "Q is not a valid dimension" (stream_get_dimension (file_of (new "GeneralFIR")) "Q") = true.
Proof. split; vm_compute; reflexivity. Qed.

(** ** tests/test_sofa_upgrade_conventions.py *)
(** /repo/tests/test_sofa_upgrade_conventions.py:19-70 test_printouts *)
Example test_printouts :
  let tf := unverified "SimpleFreeFieldTF" in
  let r1 := upgrade_convention T None VAuto tf in
  let r2 := upgrade_convention T (Some "SimpleFreeFieldHRTF_0.1") VAuto (m_obj r1) in
  let r3 := upgrade_convention T (Some "SimpleFreeFieldHRTF_1.0") VAuto (m_obj r2) in
  let hrir := upgrade_convention T (Some "SimpleFreeFieldHRIR_1.0") VAuto (made (sofa_init T "SimpleFreeFieldHRIR" false "0.4" VNo)) in
  let brir := upgrade_convention T (Some "SingleRoomMIMOSRIR_1.0") VAuto (unverified "MultiSpeakerBRIR") in
  all [printed "is up to date" (m_out (upgrade_convention T None VAuto (new "SimpleFreeFieldHRIR")));
       printed "can be upgraded" (m_out r1); printed "SimpleFreeFieldHRTF v1.0" (m_out r1); negb (printed "invalid" (m_out r1));
       printed "can be upgraded" (m_out r2); printed "invalid" (m_out r2); printed "SimpleFreeFieldHRTF v1.0" (m_out r2);
       negb (printed "can be upgraded" (m_out r3)); negb (printed "invalid" (m_out r3));
       printed "Upgrading SimpleFreeFieldTF v1.0" (m_out r3); printed "to SimpleFreeFieldHRTF v1.0" (m_out r3);
       printed "No data to move" (m_out r3); printed "No data to remove" (m_out r3); printed "All mandatory data contained" (m_out r3);
       is_ok (m_res r3);
       printed "Consider to add the optional data 'SourceUp'" (m_out hrir);
       printed "Moving Data_IR" (m_out brir); is_ok (m_res brir)] = true.
Proof. vm_compute. reflexivity. Qed.

(** ** tests/test_utils.py *)
(** /repo/tests/test_utils.py:14-19 test_list_conventions *)
Example test_list_conventions : printed "Available SOFA conventions:" (fst (list_conventions T)) = true.
Proof. vm_compute. reflexivity. Qed.

(** /repo/tests/test_utils.py:159-220 test_equals_global_parameters *)
Example test_equals_global_parameters :
  let a := new "SimpleFreeFieldHRIR" in
  let same := fun o x => match equals a o true x with (_, Ok b) => b | _ => false end in
  let differs := fun o sub => match equals a o true None with (ev, Ok false) => warned sub ev | _ => false end in
  let gone := fun n => unprotected (del_attr n) a in
  let moved := unprotected (do_ set_attr "PositionReceiver" (match getattr a "ReceiverPosition" with Ok v => v | Err _ => zi 0 end);
                            del_attr "ReceiverPosition") a in
  let typed := with_conv a (map (fun ke => if String.eqb (fst ke) "ReceiverPosition"
                 then (fst ke, Entry (e_flags (snd ke)) (e_dims (snd ke)) "int" (e_default (snd ke)) (e_comment (snd ke))) else ke) (conv a)) in
  all [raised EValueError "exclude is" (snd (equals a a true (Some "wrong"))); same a None;
       differs (gone "ReceiverPosition") "not identical: sofa_a has"; differs moved "not identical: sofa_a and sofa_b";
       differs typed "not identical: ReceiverPosition";
       same (gone "GLOBAL_Version") (Some "GLOBAL"); same (gone "GLOBAL_DateModified") (Some "DATE"); same (gone "GLOBAL_DateModified") (Some "ATTR")] = true.
Proof. vm_compute. reflexivity. Qed.

(** /repo/tests/test_utils.py:223-250 test_equals_attribute_values *)
Example test_equals_attribute_values :
  forallb (fun c => let '(a, b, n, fails) := c in
    let o := new "SimpleHeadphoneIR" in
    match equals (unprotected (set_attr n a) o) (unprotected (set_attr n b) o) true None with
    | (ev, Ok r) => Bool.eqb r (negb fails) && Bool.eqb (warned "" ev) fails
    | _ => false
    end)
   [(str "1", str "2", "GLOBAL_SOFAConventionsVersion", true);
    (VList [zl [1; 2]%Z], zl [1; 2]%Z, "Data_IR", false);
    (VList [zl [1; 2]%Z], zl [1; 3]%Z, "Data_IR", true);
    (str "HD 650", VList [str "HD 650"], "SourceModel", false);
    (str "HD 650", VArr (Arr KU [1] [EStr "HD 650"] false), "SourceModel", false);
    (str "HD 650", VArr (Arr KS [1] [EByt "HD 650"] false), "SourceModel", false);
    (str "HD 650", str "HD-650", "SourceModel", true)] = true.
Proof. vm_compute. reflexivity. Qed.

(** names and contents on the server of test_update_conventions *)
Definition web_server : server :=
  Server ["GeneralTF_2.0.csv"; "GeneralFIR_1.0.csv"]
         ["MultiSpeakerBRIR_0.3.csv"; "SimpleFreeFieldHRIR_0.4.csv"; "SimpleFreeFieldTF_0.4.csv"]
         (fun _ _ => csv_text crlf rows_b).
(** the folder of test_update_conventions: GeneralTF_2.0 and SimpleFreeFieldTF_0.4 are missing, GeneralFIR_1.0 and
    SimpleFreeFieldHRIR_0.4 hold the text "modified", MultiSpeakerBRIR_0.3 is a standardized convention *)
Definition work_dir : cdir :=
  let b := csv_text nl rows_b in
  CDir [("GeneralFIR_1.0.csv", "modified"); ("MultiSpeakerBRIR_0.3.csv", b); ("deprecated/SimpleFreeFieldHRIR_0.4.csv", "modified")]
       [("GeneralFIR_1.0.json", compiled b); ("MultiSpeakerBRIR_0.3.json", compiled b); ("deprecated/SimpleFreeFieldHRIR_0.4.json", compiled b)].
(** /repo/tests/test_utils.py:64-125 test_update_conventions *)
Example test_update_conventions :
  let '(d, out, r) := update_conventions demo_flt web_server true "" work_dir in
  let '(d2, out2, r2) := update_conventions demo_flt web_server true "" d in
  let file := fun p => smem p (dkeys (csvs d) ++ dkeys (jsons d)) in
  all [is_ok r; is_ok r2; printed "add convention: GeneralTF_2.0" out; file "GeneralTF_2.0.csv";
       printed "update convention: GeneralFIR_1.0" out; printed "deprecate convention: MultiSpeakerBRIR_0.3" out;
       negb (file "MultiSpeakerBRIR_0.3.csv"); negb (file "MultiSpeakerBRIR_0.3.json");
       file "deprecated/MultiSpeakerBRIR_0.3.csv"; file "deprecated/MultiSpeakerBRIR_0.3.json";
       printed "update deprecated convention: SimpleFreeFieldHRIR_0.4" out; printed "add deprecated convention: SimpleFreeFieldTF_0.4" out;
       file "deprecated/SimpleFreeFieldTF_0.4.csv"; file "deprecated/SimpleFreeFieldTF_0.4.json";
       negb (printed "add" out2); negb (printed "update" out2); negb (printed "deprecate" out2); printed "already up to date" out2] = true.
Proof. vm_compute. reflexivity. Qed.
