(** Scripts that create an object, add entries and verify it, and [utils._complete_sofa], which is
    such a script. *)
From Verif Require Import Base PyStr PyNum NdArray Sofa Verify.
From Coq Require Import ZArith.
Open Scope string_scope.
Open Scope list_scope.

(** one call of add_variable or add_attribute, /repo/sofar/utils.py:279-313 *)
Record addition := Add { ad_name : string; ad_value : value; ad_type : string; ad_dims : option string }.
(** /repo/sofar/utils.py:279-313 *)
Definition add_one (a : addition) : M unit :=
  if String.eqb (ad_type a) "attribute" then
    match ad_dims a with
    | None => add_attribute (ad_name a) (ad_value a)
    | Some _ => add_variable (ad_name a) (ad_value a) (ad_type a) (ad_dims a)
    end
  else add_variable (ad_name a) (ad_value a) (ad_type a) (ad_dims a).

(** [sofa = sf.Sofa(convention)], calls that add entries, [sofa.verify()]; the first exception ends
    the script, /repo/sofar/utils.py:277-316 *)
Definition script (E : env) (c : string) (l : list addition) : list event * res sofa :=
  match sofa_init E c false "latest" VAuto with
  | (ev, Err e) => (ev, Err e)
  | (ev, Ok o) =>
      match (do_ mfor l add_one; verify E HRaise VWrite) o with
      | (o', ev', Ok _) => (ev ++ ev', Ok o')
      | (_, ev', Err e) => (ev ++ ev', Err e)
      end
  end.

(** /repo/sofar/utils.py:279 *)
Definition ints (l : list Z) : value := VList (map (fun z => VScal (EInt z)) l).
(** /repo/sofar/utils.py:279-282 *)
Definition add_var (n : string) (v : value) (t d : string) : addition := Add n v t (Some d).
(** /repo/sofar/utils.py:280 *)
Definition add_att (n s : string) : addition := Add n (VStr false s) "attribute" None.
(** view and up vectors of one object, /repo/sofar/utils.py:279-297 *)
Definition view_up (x : string) : list addition :=
  [add_var (x +++ "View") (ints [1; 0; 0]%Z) "double" "IC";
   add_att (x +++ "View_Type") "cartesian";
   add_att (x +++ "View_Units") "metre";
   add_var (x +++ "Up") (ints [0; 0; 1]%Z) "double" "IC"].
(** /repo/sofar/utils.py:278-313 *)
Definition complete_additions : list addition :=
  view_up "Listener" ++ view_up "Receiver" ++ view_up "Source" ++ view_up "Emitter"
  ++ [add_att "GLOBAL_EmitterDescription" "what an emitter";
      add_var "EmitterDescriptions" (VList [VStr false "emitter array"]) "string" "MS";
      add_att "GLOBAL_RoomShortName" "Hall";
      add_att "GLOBAL_RoomDescription" "Wooden floor";
      add_att "GLOBAL_RoomLocation" "some where nice";
      add_var "RoomTemperature" (VScal (EInt 0)) "double" "I";
      add_att "RoomTemperature_Units" "kelvin";
      add_att "GLOBAL_RoomGeometry" "some/file";
      add_var "RoomVolume" (VScal (EInt 200)) "double" "I";
      add_att "RoomVolume_Units" "cubic metre";
      add_var "RoomCornerA" (ints [0; 0; 0]%Z) "double" "IC";
      add_var "RoomCornerB" (ints [1; 1; 1]%Z) "double" "IC";
      add_var "RoomCorners" (VScal (EInt 0)) "double" "I";
      add_att "RoomCorners_Type" "cartesian";
      add_att "RoomCorners_Units" "metre"].
(** /repo/sofar/utils.py:271-316 [_complete_sofa] *)
Definition complete_sofa (E : env) (convention : string) : list event * res sofa :=
  script E convention complete_additions.
