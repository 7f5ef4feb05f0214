(** Specification of sharing between Sofa objects and the values a program
    holds. *)
From Verif Require Import Base NdArray Copy SpecCopy Alias.
Open Scope list_scope.
Open Scope nat_scope.

(** something that can be changed is part of both *)
Definition shares (h : heap) (r s : ref) : Prop := exists x, reach h [r] x /\ reach h [s] x.

Definition object (m : mem) (i l : nat) : Prop := nth_error (m_objs m) i = Some l.
Definition holds (m : mem) (j : nat) (r : ref) : Prop := nth_error (m_held m) j = Some r.

Definition is_array (h : heap) (r : ref) : Prop :=
  exists l k s i w b, r = RLoc l /\ nth_error h l = Some (CArr k s i w b).

(** different Sofa objects share nothing *)
Definition separate (m : mem) : Prop :=
  forall i j a b, i <> j -> object m i a -> object m j b -> ~ shares (m_heap m) (RLoc a) (RLoc b).

(** the program holds nothing that is part of object [i] *)
Definition hidden (m : mem) (i : nat) : Prop :=
  forall a j r, object m i a -> holds m j r -> ~ shares (m_heap m) (RLoc a) r.

(** an array that is part of another object is not assigned *)
Definition careful (m : mem) (op : mop) : Prop :=
  match op with
  | OAssign i _ j => forall k l r, k <> i -> object m k l -> holds m j r -> is_array (m_heap m) r ->
                     ~ shares (m_heap m) (RLoc l) r
  | _ => True
  end.

(** the data of object [i] are not taken out of it, and no arrays are assigned to it *)
Definition discreet (i : nat) (m : mem) (op : mop) : Prop :=
  match op with
  | OGet k _ => k <> i
  | OAssign k _ j => k = i -> forall r, holds m j r -> ~ is_array (m_heap m) r
  | _ => True
  end.

(** the object that the operation is meant to change *)
Definition names (op : mop) (i : nat) : Prop :=
  match op with OAssign k _ _ | ODelete k _ => k = i | _ => False end.

(** programs *)
Inductive careful_run : mem -> list mop -> mem -> Prop :=
| careful_nil m : careful_run m [] m
| careful_cons m op ops m' : careful m op -> careful_run (perform m op) ops m' -> careful_run m (op :: ops) m'.

Definition start : mem := Mem [] [] [].

(** the content of object [k] stays as it is *)
Definition content_kept (m m' : mem) (k : nat) : Prop :=
  forall l, object m k l -> object m' k l /\ forall n, observe n (m_heap m') (RLoc l) = observe n (m_heap m) (RLoc l).

(** the same as a careful run, with operations that do not take data out of object [i] *)
Inductive discreet_run (i : nat) : mem -> list mop -> mem -> Prop :=
| discreet_nil m : discreet_run i m [] m
| discreet_cons m op ops m' : careful m op -> discreet i m op -> discreet_run i (perform m op) ops m' ->
    discreet_run i m (op :: ops) m'.

(** the operation creates an object *)
Definition creates (m : mem) (op : mop) : Prop :=
  match op with ONew _ | OCopy _ => List.length (m_objs (perform m op)) = S (List.length (m_objs m)) | _ => False end.

(** the entries of object [i] as values *)
Definition entry (m : mem) (i : nat) (name : string) (v : value) : Prop :=
  exists l d r, object m i l /\ nth_error (m_heap m) l = Some (CMap TInstance d) /\ dget name d = Some r /\
    exists n, value_of n (m_heap m) r = Some v.

(** equal up to the type of texts, which is not part of the memory *)
Definition same_value (v w : value) : Prop := v = w \/ exists a b s, v = VStr a s /\ w = VStr b s.
