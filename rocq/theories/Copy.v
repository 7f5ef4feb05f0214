(** Heap model of /repo/sofar/sofa.py:1623-1625 [Sofa.copy], which returns
    [copy.deepcopy(self)].

    The values of the other files have no identity. Copying is about identity,
    hence this file models the memory: a heap of mutable Python objects that
    refer to each other.

    Modelled: instances (of Sofa) with their instance dictionary, dictionaries
    with string keys, lists, numpy arrays including views (arrays that share
    a buffer), and the memo of [copy.deepcopy]. Immutable objects (strings,
    numbers, None, numpy scalars) are [RAtom] and have no identity.
    Not modelled: tuples, arrays of dtype object with mutable elements, the
    recursion limit of Python. *)
From Verif Require Import Base NdArray.
Open Scope list_scope.
Open Scope nat_scope.

(** [deepcopy] of Python, called at /repo/sofar/sofa.py:1625 *)
Inductive ref := RAtom (e : elt) | RLoc (l : nat).

(** Instances and dictionaries are both mappings from strings to references.
    [deepcopy] of Python, called at /repo/sofar/sofa.py:1625 *)
Inductive mapping_type := TInstance | TDict.

(** [CArr k shape idx mask buf]: array whose element number [i] is element
    [nth i idx] of the buffer [buf]; views share the buffer.
    [deepcopy] of Python, called at /repo/sofar/sofa.py:1625 *)
Inductive cell :=
| CMap (t : mapping_type) (d : list (string * ref))
| CList (l : list ref)
| CArr (k : dkind) (shape idx : list nat) (mask : bool) (buf : nat)
| CBuf (es : list elt).

(** locations are positions in the list; new objects are appended,
    [deepcopy] of Python, called at /repo/sofar/sofa.py:1625 *)
Definition heap := list cell.

(** [deepcopy] of Python, called at /repo/sofar/sofa.py:1625 *)
Fixpoint set_nth (l : nat) (c : cell) (h : heap) : heap :=
  match h, l with
  | [], _ => []
  | _ :: t, O => c :: t
  | x :: t, S l => x :: set_nth l c t
  end.

(** [deepcopy] of Python, called at /repo/sofar/sofa.py:1625 *)
Definition memo := list (nat * nat).
(** [deepcopy] of Python, called at /repo/sofar/sofa.py:1625 *)
Fixpoint mget (l : nat) (m : memo) : option nat :=
  match m with
  | [] => None
  | (a, b) :: t => if Nat.eqb a l then Some b else mget l t
  end.

(** elements of an array,
    [deepcopy] of Python, called at /repo/sofar/sofa.py:1625 *)
Definition pick (es : list elt) (idx : list nat) : list elt :=
  map (fun i => nth i es EObj) idx.

(** deep copy of the references in a list, one after the other,
    [deepcopy] of Python, called at /repo/sofar/sofa.py:1625 *)
Fixpoint copy_each (dc : heap * memo -> ref -> option (heap * memo * ref))
    (st : heap * memo) (rs : list ref) : option (heap * memo * list ref) :=
  match rs with
  | [] => Some (st, [])
  | r :: rs =>
      match dc st r with
      | None => None
      | Some (st, r') =>
          match copy_each dc st rs with
          | None => None
          | Some (st, rs') => Some (st, r' :: rs')
          end
      end
  end.

(** Python's [copy.deepcopy(x, memo)] as called in /repo/sofar/sofa.py:1625.
    Immutable objects are returned as they are, objects in the memo are not
    copied again, new objects are added to the memo before their content is
    copied. An instance is created without calling [__init__] or [__setattr__]
    and its dictionary is filled with the deep copy of the original one. The
    copy of an array has its own buffer that holds only the elements of the
    array. [fuel] bounds the depth of the recursion, [deepcopy_terminates] shows
    that it never matters. Simplification: the content of the copied mapping or
    list is written at once after all elements are copied. *)
Fixpoint deepcopy (fuel : nat) (st : heap * memo) (r : ref) : option (heap * memo * ref) :=
  match r with
  | RAtom e => Some (st, r)
  | RLoc l =>
      let (h, m) := st in
      match mget l m with
      | Some l' => Some (st, RLoc l')
      | None =>
          match fuel with
          | O => None
          | S fuel =>
              let l' := List.length h in
              match nth_error h l with
              | Some (CMap t d) =>
                  match copy_each (deepcopy fuel) (h ++ [CMap t []], (l, l') :: m) (map snd d) with
                  | Some ((h, m), rs) =>
                      Some ((set_nth l' (CMap t (combine (map fst d) rs)) h, m), RLoc l')
                  | None => None
                  end
              | Some (CList xs) =>
                  match copy_each (deepcopy fuel) (h ++ [CList []], (l, l') :: m) xs with
                  | Some ((h, m), rs) => Some ((set_nth l' (CList rs) h, m), RLoc l')
                  | None => None
                  end
              | Some (CArr k shape idx mask buf) =>
                  match nth_error h buf with
                  | Some (CBuf es) =>
                      Some ((h ++ [CArr k shape (seq 0 (List.length idx)) mask (S l'); CBuf (pick es idx)],
                             (l, l') :: m), RLoc l')
                  | _ => None
                  end
              | _ => None
              end
          end
      end
  end.

(** /repo/sofar/sofa.py:1623-1625 [Sofa.copy]: new heap and the location of the
    copy *)
Definition copy (h : heap) (self : nat) : option (heap * nat) :=
  match deepcopy (S (List.length h)) (h, []) (RLoc self) with
  | Some (h', _, RLoc l) => Some (h', l)
  | _ => None
  end.
