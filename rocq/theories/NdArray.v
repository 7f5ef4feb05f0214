(** numpy arrays and the values stored in Sofa objects. *)
From Verif Require Import Base PyStr PyNum.
From Coq Require Import ZArith.
Open Scope string_scope.
Open Scope list_scope.

(** [dtype.kind] of numpy arrays: i f c b U S O, and everything else
    (u, m, M, V),
    numpy, used at /repo/sofar/sofa.py:1037, 1049 *)
Inductive dkind := KI | KF | KC | KB | KU | KS | KO | KOther.

(** numpy, used at /repo/sofar/sofa.py:1037 *)
Definition dkind_eqb (a b : dkind) : bool :=
  match a, b with
  | KI, KI | KF, KF | KC, KC | KB, KB | KU, KU | KS, KS | KO, KO
  | KOther, KOther => true
  | _, _ => false
  end.

(** Elements of arrays and numpy scalars. [EObj] stands for [None] and other
    Python objects, and for the missing elements of masked arrays (whatever is
    stored below the mask).
    numpy, used at /repo/sofar/sofa.py:155-156 *)
Inductive elt :=
| EInt (z : Z) | EFlt (f : f64) | ECplx (re im : f64) | EBool (b : bool)
| EStr (s : string) | EByt (s : string) | EObj.

(** numpy, used at /repo/sofar/sofa.py:154 *)
Definition elt_kind (e : elt) : dkind :=
  match e with
  | EInt _ => KI | EFlt _ => KF | ECplx _ _ => KC | EBool _ => KB
  | EStr _ => KU | EByt _ => KS | EObj => KO
  end.

(** C-ordered array; [a_mask] is [numpy.ma.is_masked] of a masked array
    (at least one masked element; masked elements are [EObj]).
    numpy, used at /repo/sofar/sofa.py:154 *)
Record arr := Arr {
  a_kind : dkind; a_shape : list nat; a_data : list elt; a_mask : bool }.

(** numpy, used at /repo/sofar/sofa.py:155 *)
Fixpoint prod (l : list nat) : nat :=
  match l with [] => 1 | x :: t => x * prod t end.

(** as many elements as the shape tells, numpy, used at /repo/sofar/sofa.py:154 *)
Definition wf_arr (a : arr) : bool :=
  Nat.eqb (List.length (a_data a)) (prod (a_shape a)).

(** numpy, used at /repo/sofar/sofa.py:155 *)
Definition a_size (a : arr) : nat := prod (a_shape a).
(** numpy, used at /repo/sofar/utils.py:258 *)
Definition a_ndim (a : arr) : nat := List.length (a_shape a).

(** Python values that can be assigned to attributes. [VStr np s]: [np] is
    true for numpy.str_. [VScal]: Python or numpy scalar that is not a string
    ([None] is [VScal EObj]). [VList]: list or tuple. Stored values are never
    [VList], see [normalize].
    Assigned at /repo/sofar/sofa.py:158 *)
Inductive value :=
| VStr (np : bool) (s : string)
| VScal (e : elt)
| VArr (a : arr)
| VList (l : list value).

(** [isinstance(value, str)], /repo/sofar/sofa.py:1024, 1453 *)
Definition as_str (v : value) : option string :=
  match v with VStr _ s => Some s | _ => None end.
(** [isinstance(value, str)], /repo/sofar/sofa.py:1024 *)
Definition is_str (v : value) : bool :=
  match v with VStr _ _ => true | _ => false end.

(** ** conversion of Python values to arrays, [numpy.array(value)] *)

(** numpy, used at /repo/sofar/sofa.py:154 *)
Definition scalar_arr (e : elt) : arr := Arr (elt_kind e) [] [e] false.

(** dtype of a list of arrays of kinds [a] and [b]. Simplification: mixtures
    of strings or bytes with anything else are [None] (not modelled).
    numpy, used at /repo/sofar/sofa.py:154 *)
Definition num_rank (k : dkind) : option nat :=
  match k with KB => Some 0 | KI => Some 1 | KF => Some 2 | KC => Some 3
  | _ => None end.
(** numpy, used at /repo/sofar/sofa.py:154 *)
Definition promote (a b : dkind) : option dkind :=
  if dkind_eqb a b then Some a
  else if dkind_eqb a KO || dkind_eqb b KO then Some KO
  else match num_rank a, num_rank b with
       | Some m, Some n => Some (if (m <=? n)%nat then b else a)
       | _, _ => None
       end.

(** numpy, used at /repo/sofar/sofa.py:154 *)
Definition f_zero : f64 := S754_zero false.

(** conversion of an element to the promoted kind,
    numpy, used at /repo/sofar/sofa.py:154 *)
Definition convert (k : dkind) (e : elt) : elt :=
  match k, e with
  | KI, EBool b => EInt (if b then 1 else 0)
  | KF, EBool b => EFlt (f_of_Z (if b then 1 else 0))
  | KF, EInt z => EFlt (f_of_Z z)
  | KC, EBool b => ECplx (f_of_Z (if b then 1 else 0)) f_zero
  | KC, EInt z => ECplx (f_of_Z z) f_zero
  | KC, EFlt f => ECplx f f_zero
  | _, _ => e
  end.

(** equality of tuples, /repo/sofar/sofa.py:1257 *)
Fixpoint shape_eqb (a b : list nat) : bool :=
  match a, b with
  | [], [] => true
  | x :: s, y :: t => Nat.eqb x y && shape_eqb s t
  | _, _ => false
  end.

(** numpy, used at /repo/sofar/sofa.py:154 *)
Fixpoint promote_all (k : dkind) (l : list arr) : option dkind :=
  match l with
  | [] => Some k
  | a :: t => match promote k (a_kind a) with
              | Some k' => promote_all k' t
              | None => None
              end
  end.

(** stack equally shaped arrays along a new first axis,
    numpy, used at /repo/sofar/sofa.py:154 *)
Definition stack (l : list arr) : res arr :=
  match l with
  | [] => Ok (Arr KF [0] [] false)
  | a :: t =>
      if forallb (fun b => shape_eqb (a_shape a) (a_shape b)) t then
        match promote_all (a_kind a) t with
        | Some k => Ok (Arr k (List.length l :: a_shape a)
                            (flat_map (fun b => map (convert k) (a_data b)) l)
                            false)
        | None => Err (Exn ENotModelled "array of mixed types")
        end
      else Err (Exn EValueError "inhomogeneous shape")
  end.

(** [numpy.array(value)],
    numpy, used at /repo/sofar/sofa.py:154 and /repo/sofar/utils.py:265 *)
Fixpoint np_array (v : value) : res arr :=
  match v with
  | VStr _ s => Ok (scalar_arr (EStr s))
  | VScal e => Ok (scalar_arr e)
  | VArr a => Ok a
  | VList l =>
      let? r := (fix go (l : list value) : res (list arr) :=
                   match l with
                   | [] => Ok []
                   | x :: t => let? a := np_array x in
                               let? b := go t in Ok (a :: b)
                   end) l in
      stack r
  end.

(** ** changing the number of dimensions *)

(** numpy, used at /repo/sofar/sofa.py:154 *)
Definition reshape (a : arr) (s : list nat) : arr :=
  Arr (a_kind a) s (a_data a) (a_mask a).

(** [numpy.atleast_1d], [atleast_2d], [atleast_3d] on shapes,
    numpy, used at /repo/sofar/utils.py:253 *)
Definition sh_atleast_1d (s : list nat) : list nat :=
  match s with [] => [1] | _ => s end.
(** numpy, used at /repo/sofar/sofa.py:154 and /repo/sofar/utils.py:255 *)
Definition sh_atleast_2d (s : list nat) : list nat :=
  match s with [] => [1; 1] | [n] => [1; n] | _ => s end.
(** numpy, used at /repo/sofar/utils.py:257 *)
Definition sh_atleast_3d (s : list nat) : list nat :=
  match s with
  | [] => [1; 1; 1] | [n] => [1; n; 1] | [m; n] => [m; n; 1] | _ => s
  end.

(** append singleton dimensions until there are [n],
    /repo/sofar/utils.py:258-259, 267-268 *)
Definition pad1 (n : nat) (s : list nat) : list nat :=
  s ++ repeat 1 (n - List.length s).

(** /repo/sofar/utils.py:242-260 [_atleast_nd], on shapes *)
Definition sh_atleast_nd (s : list nat) (ndim : nat) : list nat :=
  let s := match ndim with
           | 0 => s
           | 1 => sh_atleast_1d s
           | 2 => sh_atleast_2d s
           | _ => sh_atleast_3d s
           end in
  pad1 ndim s.

(** /repo/sofar/utils.py:242-260 [_atleast_nd]. With [ndim = 0] Python fails
    on non-arrays ([array.ndim]); this cannot happen for non-empty dimension
    strings and is not modelled. *)
Definition atleast_nd (v : value) (ndim : nat) : res arr :=
  let? a := np_array v in Ok (reshape a (sh_atleast_nd (a_shape a) ndim)).

(** /repo/sofar/utils.py:263-269 [_nd_newaxis] *)
Definition nd_newaxis (v : value) (ndim : nat) : res arr :=
  let? a := np_array v in Ok (reshape a (pad1 ndim (a_shape a))).

(** [numpy.squeeze] on shapes,
    numpy, used at /repo/sofar/utils.py:215, 224 *)
Definition sh_squeeze (s : list nat) : list nat :=
  filter (fun n => negb (Nat.eqb n 1)) s.

(** a numpy scalar taken out of an array,
    numpy, used at /repo/sofar/sofa.py:156 *)
Definition scalar_value (e : elt) : value :=
  match e with EStr s => VStr true s | _ => VScal e end.

(** /repo/sofar/sofa.py:151-156, conversion in [Sofa.__setattr__]: everything
    except str, dict and ndarray becomes an array with at least two dimensions,
    or a scalar if there is a single element. *)
Definition normalize (v : value) : res value :=
  match v with
  | VStr _ _ | VArr _ => Ok v
  | _ =>
      let? a := np_array v in
      let a := reshape a (sh_atleast_2d (a_shape a)) in
      if Nat.eqb (a_size a) 1
      then match a_data a with
           | e :: _ => Ok (scalar_value e)
           | [] => Err (Exn EIndexError "flatten()[0]")
           end
      else Ok (VArr a)
  end.

(** ** [numpy.moveaxis] *)

(** all multi-indices of a shape in C order,
    numpy, used at /repo/sofar/sofa.py:855 *)
Fixpoint indices (s : list nat) : list (list nat) :=
  match s with
  | [] => [[]]
  | n :: t => flat_map (fun i => map (cons i) (indices t)) (seq 0 n)
  end.

(** position of a multi-index in C order,
    numpy, used at /repo/sofar/sofa.py:855 *)
Fixpoint ravel (s idx : list nat) : nat :=
  match s, idx with
  | n :: t, i :: r => i * prod t + ravel t r
  | _, _ => 0
  end.

(** numpy, used at /repo/sofar/sofa.py:855 *)
Definition nat_mem (n : nat) (l : list nat) : bool := existsb (Nat.eqb n) l.

(** [list.insert(i, x)],
    numpy, used at /repo/sofar/sofa.py:855 *)
Definition insert_at (i x : nat) (l : list nat) : list nat :=
  firstn i l ++ x :: skipn i l.

(** sort pairs by first component (Python [sorted(zip(destination, source))]),
    numpy, used at /repo/sofar/sofa.py:855 *)
Fixpoint ins_pair (p : nat * nat) (l : list (nat * nat)) : list (nat * nat) :=
  match l with
  | [] => [p]
  | q :: t => if (fst p <? fst q)%nat then p :: l else q :: ins_pair p t
  end.
(** numpy, used at /repo/sofar/sofa.py:855 *)
Definition sort_pairs (l : list (nat * nat)) : list (nat * nat) :=
  fold_left (fun acc p => ins_pair p acc) l [].

(** axis order computed by numpy.moveaxis: [order[j]] is the source axis that
    becomes axis [j],
    numpy, used at /repo/sofar/sofa.py:855 *)
Definition moveaxis_order (ndim : nat) (src dst : list nat) : list nat :=
  fold_left (fun o p => insert_at (fst p) (snd p) o)
            (sort_pairs (combine dst src))
            (filter (fun n => negb (nat_mem n src)) (seq 0 ndim)).

(** numpy, used at /repo/sofar/sofa.py:855 *)
Definition nth0 (l : list nat) (i : nat) : nat := nth i l 0.

(** inverse of the axis order: where source axis [i] went,
    numpy, used at /repo/sofar/sofa.py:855 *)
Fixpoint index_of (n : nat) (l : list nat) : nat :=
  match l with
  | [] => 0
  | x :: t => if Nat.eqb n x then 0 else S (index_of n t)
  end.

(** [a.transpose(order)],
    numpy, used at /repo/sofar/sofa.py:855 *)
Definition transpose (a : arr) (order : list nat) : arr :=
  let s := a_shape a in
  let s' := map (nth0 s) order in
  let back (idx : list nat) : list nat :=
    map (fun i => nth0 idx (index_of i order)) (seq 0 (List.length s)) in
  Arr (a_kind a) s'
      (map (fun idx => nth (ravel s (back idx)) (a_data a) EObj) (indices s'))
      (a_mask a).

(** numpy, used at /repo/sofar/sofa.py:855 *)
Fixpoint nodupb (l : list nat) : bool :=
  match l with [] => true | x :: t => negb (nat_mem x t) && nodupb t end.

(** [numpy.moveaxis(a, src, dst)]; axes must exist, be distinct and equally
    many. Simplification: negative axes are not modelled.
    numpy, used at /repo/sofar/sofa.py:855 *)
Definition moveaxis (a : arr) (src dst : list nat) : res arr :=
  let n := a_ndim a in
  if forallb (fun i => i <? n)%nat src && forallb (fun i => i <? n)%nat dst
     && nodupb src && nodupb dst && Nat.eqb (List.length src) (List.length dst)
  then Ok (transpose a (moveaxis_order n src dst))
  else Err (Exn EValueError "moveaxis").
