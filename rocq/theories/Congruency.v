(** Model of [_check_congruency] in /repo/sofar/update_conventions.py:358-449:
    comparing the conventions on sofaconventions.org with those of the
    SOFAtoolbox.

    Simplifications: as in UpdateConv the pages and files are a record that does
    not change during the run. Loading a file that does not exist gives the
    text of the error page as in the code. Creating the two sub-directories has
    no effect in the model; the files that are saved are listed in the order of
    writing. *)
From Verif Require Import Base PyStr Sofa Verify UpdateConv.
Open Scope string_scope.
Open Scope list_scope.

(** The names found on the two pages and the files loaded from the two
    platforms, /repo/sofar/update_conventions.py:395-410, 431 *)
Record platforms := Platforms {
  on_org : list string; on_toolbox : list string;
  org_file : string -> string; toolbox_file : string -> string }.

(** [list.remove(c)] for a contained element,
    /repo/sofar/update_conventions.py:417, 419, 423, 425 *)
Fixpoint remove_first (c : string) (l : list string) : list string :=
  match l with
  | [] => []
  | x :: t => if String.eqb x c then t else x :: remove_first c t
  end.

(** [for convention in names: ...] that removes from the list it runs through:
    Python takes the element with the next index until there is none,
    /repo/sofar/update_conventions.py:415-426. The list never grows, so that
    [n] = length of the list steps are enough. *)
Fixpoint compare_names (line : string -> string) (other : list string) (n i : nat)
    (names : list string) : list string * list string :=
  match n with
  | O => (names, [])
  | S n =>
      match nth_error names i with
      | None => (names, [])
      | Some c =>
          if excluded c then compare_names line other n (S i) (remove_first c names)
          else if negb (smem c other) then
            let (r, report) := compare_names line other n (S i) (remove_first c names) in
            (r, line c :: report)
          else compare_names line other n (S i) names
      end
  end.

(** /repo/sofar/update_conventions.py:420, 426, 438 *)
Definition line_toolbox (c : string) := "- " +++ c +++ " is missing in SOFAtoolbox" +++ str1 NL.
Definition line_org (c : string) := "- " +++ c +++ " is missing on sofaconventions.org" +++ str1 NL.
Definition line_differs (c : string) := "- " +++ c +++ " differs across platforms" +++ str1 NL.

(** /repo/sofar/update_conventions.py:429-438 *)
Definition diverges (P : platforms) (c : string) : bool :=
  negb (String.eqb (clean (org_file P c)) (clean (toolbox_file P c))).

(** names left for the comparison of files and all lines of the report,
    /repo/sofar/update_conventions.py:413-438 *)
Definition compare_platforms (P : platforms) : list string * list string :=
  let (org, r1) := compare_names line_toolbox (on_toolbox P) (List.length (on_org P)) 0 (on_org P) in
  let (tb, r2) := compare_names line_org org (List.length (on_toolbox P)) 0 (on_toolbox P) in
  (org, r1 ++ r2 ++ map line_differs (filter (diverges P) org)).

(** /repo/sofar/update_conventions.py:440-445 *)
Definition saved_files (P : platforms) (org : list string) : list (string * string) :=
  List.concat (map (fun c => [("sofaconventions/" +++ c, clean (org_file P c));
                              ("sofatoolbox/" +++ c, clean (toolbox_file P c))])
                   (filter (diverges P) org)).

(** [_check_congruency(save_dir)]; [save_dir] is None or tells if the directory
    exists; gives what is printed, the saved files and the result,
    /repo/sofar/update_conventions.py:358-449 *)
Definition check_congruency (P : platforms) (save_dir : option bool)
  : list event * list (string * string) * res unit :=
  match save_dir with
  | Some false => ([], [], Err (Exn EValueError "does not exist"))
  | _ =>
      match on_org P, on_toolbox P with
      | [], _ => ([], [], Err (Exn EValueError
          "Did not find any conventions at https://www.sofaconventions.org/conventions/"))
      | _, [] => ([], [], Err (Exn EValueError
          "Did not find any conventions at https://github.com/sofacoustics/SOFAtoolbox"))
      | _, _ =>
          let (org, report) := compare_platforms P in
          (match report with
           | [] => []
           | _ => [EvPrint ("Diverging conventions across platforms:" +++ str1 NL +++ sconcat (fun l => l) report)]
           end,
           match save_dir with Some _ => saved_files P org | None => [] end, Ok tt)
      end
  end.
