(** Specification for changes of different entries of one object. *)
From Verif Require Import Base PyStr NdArray Sofa SpecAttr.
Open Scope string_scope.
Open Scope list_scope.

(** calls that change one entry: assigning, deleting and adding *)
Definition changes (p : op) : option string :=
  match p with
  | OSet n _ => if String.eqb n "protected" then None else Some n
  | ODel n => Some n
  | OAddVar n _ _ _ => Some n
  | OAddAttr n _ => Some n
  | _ => None
  end.

Definition adds (p : op) : bool :=
  match p with OAddVar _ _ _ _ | OAddAttr _ _ => true | _ => false end.

(** the calls change different entries, and none adds an attribute of a variable
    that the other adds *)
Definition apart (p q : op) : Prop :=
  exists n m, changes p = Some n /\ changes q = Some m /\ n <> m
    /\ (adds p = true -> adds q = true -> (forall r, n <> m +++ "_" +++ r) /\ (forall r, m <> n +++ "_" +++ r)).

(** all calls of a list are apart *)
Fixpoint all_apart (l : list op) : Prop :=
  match l with
  | [] => True
  | p :: t => (exists n, changes p = Some n) /\ (forall q, In q t -> apart p q) /\ all_apart t
  end.

(** both objects have the same data and metadata and the same protection; the
    order of the data may differ *)
Record same_object (a b : sofa) : Prop := {
  so_pub : forall k, dget k (pub a) = dget k (pub b);
  so_conv : forall k, dget k (conv a) = dget k (conv b);
  so_custom : match custom a, custom b with
              | Some x, Some y => forall k, dget k x = dget k y
              | None, None => True
              | _, _ => False
              end;
  so_ro : ro a = ro b;
  so_prot : prot a = prot b;
  so_dims : dims a = dims b;
  so_api : api a = api b }.
