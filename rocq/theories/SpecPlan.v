(** Specification of what update_conventions announces: for every convention of
    the server the line that has to be printed, if any. *)
From Verif Require Import Base PyStr NdArray Sofa Verify UpdateConv SpecUpdate.
Open Scope string_scope.
Open Scope list_scope.

(** the two files of the convention [x] *)
Definition csv_of (x : string) : string := x +++ ".csv".
Definition old_csv_of (x : string) : string := "deprecated/" +++ x +++ ".csv".

(** [line] has to be printed for the convention [x] *)
Inductive announcement (S : server) (d : cdir) (x : string) : string -> Prop :=
| an_add : In (csv_of x) (standardized S) -> dget (csv_of x) (csvs d) = None ->
    announcement S d x ("- add convention: " +++ x)
| an_update t : In (csv_of x) (standardized S) -> dget (csv_of x) (csvs d) = Some t ->
    clean t <> clean (server_text S (csv_of x)) ->
    announcement S d x ("- update convention: " +++ x)
| an_deprecate t : ~ In (csv_of x) (standardized S) -> dget (csv_of x) (csvs d) = Some t ->
    announcement S d x ("- deprecate convention: " +++ x)
| an_update_old t : ~ In (csv_of x) (standardized S) -> dget (csv_of x) (csvs d) = None ->
    dget (old_csv_of x) (csvs d) = Some t -> clean t <> clean (server_text S (csv_of x)) ->
    announcement S d x ("- update deprecated convention: " +++ x)
| an_add_old : ~ In (csv_of x) (standardized S) -> dget (csv_of x) (csvs d) = None ->
    dget (old_csv_of x) (csvs d) = None ->
    announcement S d x ("- add deprecated convention: " +++ x).

(** [e] announces something for the convention [x] of the server *)
Definition announces (S : server) (d : cdir) (x : string) (e : event) : Prop :=
  exists line, e = EvPrint line /\ offered S (csv_of x) /\ announcement S d x line.
