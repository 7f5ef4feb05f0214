(** [Sofa.upgrade_convention], /repo/sofar/sofa.py:731-894. *)
From Verif Require Import Base PyStr PyNum NdArray Sofa Verify.
Open Scope string_scope.
Open Scope list_scope.

(** [version_current in from_to[0]], /repo/sofar/sofa.py:777, 791 *)
Definition str_in (v : value) (l : list string) : bool :=
  match v with VStr _ s => smem s l | _ => false end.

(** /repo/sofar/sofa.py:770-779 *)
Definition is_deprecated (E : env) (c : string) (v : value) : bool :=
  dmem c (deprecations E)
  || match dget c (upgrades E) with
     | None => false
     | Some u => existsb (fun ft => str_in v (fst (fst ft))) (u_from_to u)
     end.

(** "- name vversion", /repo/sofar/sofa.py:803-805; IndexError if there is no underscore *)
Definition target_line (t : string) : res string :=
  match split "_" t with
  | a :: b :: _ => Ok ("- " +++ a +++ " v" +++ b +++ nl)
  | _ => Err (Exn EIndexError "list index out of range")
  end.

(** What /repo/sofar/sofa.py:770-812 decide: the upgrade to apply, or a message. [DUnbound]: the
    loop ends without match and [target_id] is not defined. *)
Inductive decision :=
| DNoRules | DUpToDate
| DChoose (targets : list string)
| DApply (id : string)
| DUnbound.

(** /repo/sofar/sofa.py:770-812 *)
Definition decide (E : env) (c : string) (v : value) (target : option string)
  : decision :=
  if is_deprecated E c v then
    match dget c (upgrades E) with
    | None => DNoRules
    | Some u =>
        match find (fun ft => str_in v (fst (fst ft))) (u_from_to u) with
        | None => DUnbound
        | Some (_, targets, id) =>
            match target with
            | Some t => if smem t targets then DApply id else DChoose targets
            | None => DChoose targets
            end
        end
    end
  else DUpToDate.

(** add trailing axes and move axes, /repo/sofar/sofa.py:850-855 *)
Definition max_axis (ax : list nat * list nat) : nat := max_list (fst ax ++ snd ax).
(** /repo/sofar/sofa.py:849-855 *)
Definition move_axes (v : value) (ax : list nat * list nat) : res value :=
  match v with
  | VArr a =>
      let a := reshape a (pad1 (S (max_axis ax)) (a_shape a)) in
      let? b := moveaxis a (fst ax) (snd ax) in Ok (VArr b)
  | VStr np _ => Err (if np then Exn ETypeError "string indices must be integers" else Exn EAttributeError "ndim")
  | VScal EObj | VList _ => Err (Exn EAttributeError "ndim")
  | VScal e =>
      let a := reshape (scalar_arr e) (pad1 (S (max_axis ax)) []) in
      let? b := moveaxis a (fst ax) (snd ax) in Ok (VArr b)
  end.

(** text of a list of numbers, /repo/sofar/sofa.py:856 *)
Definition list_str (l : list nat) : string :=
  "[" +++ join ", " (map nat_str l) +++ "]".

(** move one entry, /repo/sofar/sofa.py:838-867 *)
Definition move_entry (sm : string * move) : M unit :=
  let source := sofar_name (fst sm) in
  let target := sofar_name (mv_target (snd sm)) in
  do o <- get;
  do data <- lift (getattr o source);
  do_ del_attr source;
  do data <- match mv_axis (snd sm) with
             | None => ret data
             | Some ax => lift (move_axes data ax)
             end;
  do_ set_attr target data;
  emit (EvPrint ("- Moving " +++ source +++ " to " +++ target +++ "."
        +++ match mv_axis (snd sm) with
            | None => ""
            | Some ax => " Moving axis " +++ list_str (fst ax) +++ " to "
                         +++ list_str (snd ax) +++ "."
            end
        +++ match mv_deprecated (snd sm) with
            | None => ""
            | Some d => " WARNING: Dimensions " +++ join ", " d +++ " are now deprecated."
            end)).

(** remove one entry, /repo/sofar/sofa.py:873-876 *)
Definition remove_entry (t : string) : M unit :=
  do_ del_attr (sofar_name t);
  emit (EvPrint ("- Deleting " +++ sofar_name t +++ ".")).

(** entries set to the target's defaults, /repo/sofar/sofa.py:827-835 *)
Definition upgrade_keys : list string :=
  ["GLOBAL_SOFAConventions"; "GLOBAL_SOFAConventionsVersion"; "GLOBAL_Version";
   "GLOBAL_DataType"].

(** /repo/sofar/sofa.py:814-894 *)
Definition apply_upgrade (E : env) (c v sv target id : string) (verify_ : vopt)
  : M unit :=
  do u <- lift (dgetE c (upgrades E));
  do spec <- lift (dgetE id (u_specs u));
  do ct_vt <- lift (match split "_" target with
                    | [a; b] => Ok (a, b)
                    | _ => Err (Exn EValueError "values to unpack")
                    end);
  do cv <- lift (load_convention E (fst ct_vt) (snd ct_vt));
  do_ modify (fun o => with_conv o cv);
  do gv <- lift (dgetE "GLOBAL_Version" cv);
  do_ emit (EvPrint ("Upgrading " +++ c +++ " v" +++ v +++ " to " +++ fst ct_vt +++ " v"
                     +++ snd ct_vt +++ " (SOFA version " +++ sv +++ " to "
                     +++ py_str E (e_default gv) +++ ")"));
  do_ set_protected false;
  do_ mfor upgrade_keys (fun k => do e <- lift (dgetE k cv); set_attr k (e_default e));
  do_ mfor (u_move spec) move_entry;
  do_ when (match u_move spec with [] => true | _ => false end)
        (emit (EvPrint "- No data to move"));
  do_ mfor (u_remove spec) remove_entry;
  do_ when (match u_remove spec with [] => true | _ => false end)
        (emit (EvPrint "- No data to remove"));
  do_ add_missing E true false true;
  do_ set_protected true;
  do_ match u_message spec with
      | Some m => emit (EvPrint m)
      | None => ret tt
      end;
  do o <- get;
  do ver <- match verify_ with
            | VAuto => do v <- lift (getattr o "GLOBAL_SOFAConventionsVersion");
                       lift (stable_version v)
            | VYes => ret true
            | VNo => ret false
            end;
  if ver then do_ verify E HRaise VWrite; ret tt else ret tt.

(** /repo/sofar/sofa.py:731-894 [upgrade_convention]. The returned value:
    [Some targets] or [None] *)
Definition upgrade_convention (E : env) (target : option string) (verify_ : vopt)
  : M (option (list string)) :=
  do_ reset_convention E;
  do o <- get;
  do c <- lift (getattr o "GLOBAL_SOFAConventions");
  do v <- lift (getattr o "GLOBAL_SOFAConventionsVersion");
  do sv <- lift (getattr o "GLOBAL_Version");
  let c := py_str E c in
  match decide E c v target with
  | DNoRules =>
      do_ emit (EvPrint ("Convention " +++ c +++ " v" +++ py_str E v +++
                         " is outdated but is missing upgrade rules"));
      ret None
  | DUpToDate =>
      do_ emit (EvPrint ("Convention " +++ c +++ " v" +++ py_str E v +++ " is up to date"));
      ret None
  | DChoose targets =>
      do_ match target with
          | Some t => emit (EvPrint (t +++ " is invalid."))
          | None => ret tt
          end;
      do l <- lift (rconcat target_line targets);
      do_ emit (EvPrint (c +++ " v" +++ py_str E v +++ " can be upgraded to:" +++ nl +++ l));
      ret (Some targets)
  | DUnbound => raise (Exn EUnboundLocalError "target_id")
  | DApply id =>
      match target with
      | Some t => do_ apply_upgrade E c (py_str E v) (py_str E sv) t id verify_; ret None
      | None => ret None
      end
  end.
