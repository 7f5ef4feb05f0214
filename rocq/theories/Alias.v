(** Heap model of assigning data to Sofa objects: which data are copied and
    which are shared. It extends the memory of [Copy.v].

    A program holds Sofa objects and values (texts, numbers, lists, arrays). The
    operations are those that matter for sharing. Whether an assignment is
    accepted by a protected object is the subject of [Sofa.v] and not repeated:
    a rejected assignment has no effect. Simplification: the private
    dictionaries of an object are not part of its memory here, and Sofa objects
    are not put into lists. *)
From Verif Require Import Base NdArray Copy.
Open Scope string_scope.
Open Scope list_scope.
Open Scope nat_scope.

(** value of a reference in the sense of the other files; [None] for
    dictionaries, instances and lists that contain themselves,
    /repo/sofar/sofa.py:152 *)
Fixpoint value_of (fuel : nat) (h : heap) (r : ref) : option value :=
  match r with
  | RAtom (EStr s) => Some (VStr false s)
  | RAtom e => Some (VScal e)
  | RLoc l =>
      match fuel with
      | O => None
      | S fuel =>
          match nth_error h l with
          | Some (CList rs) =>
              option_map VList
                ((fix each (rs : list ref) : option (list value) :=
                    match rs with
                    | [] => Some []
                    | r :: t => match value_of fuel h r, each t with
                                | Some v, Some l => Some (v :: l)
                                | _, _ => None
                                end
                    end) rs)
          | Some (CArr k shape idx mask buf) =>
              match nth_error h buf with
              | Some (CBuf es) => Some (VArr (Arr k shape (pick es idx) mask))
              | _ => None
              end
          | _ => None
          end
      end
  end.

(** a new object with the given value, e.g. the result of
    [numpy.atleast_2d], /repo/sofar/sofa.py:154 *)
Fixpoint alloc (h : heap) (v : value) : heap * ref :=
  match v with
  | VStr _ s => (h, RAtom (EStr s))
  | VScal e => (h, RAtom e)
  | VArr a =>
      (h ++ [CArr (a_kind a) (a_shape a) (seq 0 (List.length (a_data a))) (a_mask a) (S (List.length h));
             CBuf (a_data a)], RLoc (List.length h))
  | VList l =>
      let (h', rs) := (fix each (h : heap) (l : list value) : heap * list ref :=
                         match l with
                         | [] => (h, [])
                         | v :: t => let (h1, r) := alloc h v in
                                     let (h2, rs) := each h1 t in (h2, r :: rs)
                         end) h l in
      (h' ++ [CList rs], RLoc (List.length h'))
  end.

(** the value that the attribute gets: texts, dictionaries and arrays are stored
    as they are, everything else becomes a new array or a scalar,
    /repo/sofar/sofa.py:151-156 *)
Definition stored (h : heap) (r : ref) : option (heap * ref) :=
  match r with
  | RAtom _ => Some (h, r)
  | RLoc l =>
      match nth_error h l with
      | Some (CMap TDict _) | Some (CArr _ _ _ _ _) => Some (h, r)
      | Some (CList _) =>
          match value_of (S (List.length h)) h r with
          | Some v => match normalize v with Ok w => Some (alloc h w) | Err _ => None end
          | None => None
          end
      | _ => None
      end
  end.

(** [super.__setattr__], /repo/sofar/sofa.py:158 *)
Definition assign (h : heap) (self : nat) (name : string) (r : ref) : option heap :=
  match nth_error h self with
  | Some (CMap TInstance d) =>
      match stored h r with
      | Some (h', r') => Some (set_nth self (CMap TInstance (dset name r' d)) h')
      | None => None
      end
  | _ => None
  end.

(** [super().__delattr__], /repo/sofar/sofa.py:171-173 *)
Definition remove (h : heap) (self : nat) (name : string) : option heap :=
  match nth_error h self with
  | Some (CMap TInstance d) => Some (set_nth self (CMap TInstance (ddel name d)) h)
  | _ => None
  end.

(** a new Sofa object: all data come from the json file of the convention or
    from the NetCDF file and are converted by [__setattr__],
    /repo/sofar/sofa.py:1734-1748, /repo/sofar/io.py:118-175 *)
Fixpoint alloc_each (h : heap) (d : list (string * value)) : option (heap * list (string * ref)) :=
  match d with
  | [] => Some (h, [])
  | (k, v) :: t =>
      match normalize v with
      | Ok w => let (h1, r) := alloc h w in
                match alloc_each h1 t with
                | Some (h2, rs) => Some (h2, (k, r) :: rs)
                | None => None
                end
      | Err _ => None
      end
  end.
(** /repo/sofar/sofa.py:1734-1748, /repo/sofar/io.py:118-175 *)
Definition create (h : heap) (d : list (string * value)) : option (heap * nat) :=
  match alloc_each h d with
  | Some (h', rs) => Some (h' ++ [CMap TInstance rs], List.length h')
  | None => None
  end.

(** ** Programs *)

(** Sofa objects and values that a program holds,
    /repo/sofar/sofa.py:133-158 *)
Record mem := Mem { m_heap : heap; m_objs : list nat; m_held : list ref }.

(** /repo/sofar/sofa.py:133-175, 1623-1625 *)
Inductive mop :=
| ONew (d : list (string * value))            (* sofa = Sofa(...), read_sofa(...) *)
| OValue (v : value)                          (* x = [...], x = np.array(...), x = "..." *)
| OView (j : nat) (shape sel : list nat)      (* y = x[...], shares the data *)
| OGet (i : nat) (name : string)              (* x = sofa.name *)
| OAssign (i : nat) (name : string) (j : nat) (* sofa.name = x *)
| ODelete (i : nat) (name : string)           (* del sofa.name *)
| OCopy (i : nat)                             (* sofa2 = sofa.copy() *)
| OWrite (j pos : nat) (e : elt)              (* x.flat[pos] = e *)
| OPut (j pos k : nat)                        (* x[pos] = y for a list x *).

(** replaces element [n], /repo/sofar/sofa.py:133-158 *)
Fixpoint replace_nth {A} (n : nat) (a : A) (l : list A) : list A :=
  match l, n with
  | [], _ => []
  | _ :: t, O => a :: t
  | x :: t, S n => x :: replace_nth n a t
  end.

(** one operation; operations that fail have no effect,
    /repo/sofar/sofa.py:133-175, 1623-1625 *)
Definition perform (m : mem) (op : mop) : mem :=
  let h := m_heap m in
  match op with
  | ONew d => match create h d with
              | Some (h', l) => Mem h' (m_objs m ++ [l]) (m_held m)
              | None => m
              end
  | OValue v => let (h', r) := alloc h v in Mem h' (m_objs m) (m_held m ++ [r])
  | OView j shape sel =>
      match nth_error (m_held m) j with
      | Some (RLoc l) =>
          match nth_error h l with
          | Some (CArr k _ idx mask buf) =>
              Mem (h ++ [CArr k shape (map (fun i => nth i idx 0) sel) mask buf])
                  (m_objs m) (m_held m ++ [RLoc (List.length h)])
          | _ => m
          end
      | _ => m
      end
  | OGet i name =>
      match nth_error (m_objs m) i with
      | Some l => match nth_error h l with
                  | Some (CMap _ d) => match dget name d with
                                       | Some r => Mem h (m_objs m) (m_held m ++ [r])
                                       | None => m
                                       end
                  | _ => m
                  end
      | None => m
      end
  | OAssign i name j =>
      match nth_error (m_objs m) i, nth_error (m_held m) j with
      | Some l, Some r => match assign h l name r with
                          | Some h' => Mem h' (m_objs m) (m_held m)
                          | None => m
                          end
      | _, _ => m
      end
  | ODelete i name =>
      match nth_error (m_objs m) i with
      | Some l => match remove h l name with
                  | Some h' => Mem h' (m_objs m) (m_held m)
                  | None => m
                  end
      | None => m
      end
  | OCopy i =>
      match nth_error (m_objs m) i with
      | Some l => match copy h l with
                  | Some (h', l') => Mem h' (m_objs m ++ [l']) (m_held m)
                  | None => m
                  end
      | None => m
      end
  | OWrite j pos e =>
      match nth_error (m_held m) j with
      | Some (RLoc l) =>
          match nth_error h l with
          | Some (CArr _ _ idx _ buf) =>
              match nth_error h buf, nth_error idx pos with
              | Some (CBuf es), Some p => Mem (set_nth buf (CBuf (replace_nth p e es)) h) (m_objs m) (m_held m)
              | _, _ => m
              end
          | _ => m
          end
      | _ => m
      end
  | OPut j pos k =>
      match nth_error (m_held m) j, nth_error (m_held m) k with
      | Some (RLoc l), Some r =>
          match nth_error h l with
          | Some (CList rs) => Mem (set_nth l (CList (replace_nth pos r rs)) h) (m_objs m) (m_held m)
          | _ => m
          end
      | _, _ => m
      end
  end.

(** /repo/sofar/sofa.py:133-175, 1623-1625 *)
Definition perform_all (m : mem) (ops : list mop) : mem := fold_left perform ops m.
