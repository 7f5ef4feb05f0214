(** Ordered dictionaries, exceptions as values, result and state monads.

    These are the Python features used throughout /repo/sofar; they model no
    function of sofar itself. *)
From Coq Require Export List String Ascii Bool Arith Lia.
Export ListNotations.
Open Scope string_scope.
Open Scope list_scope.

(** string concatenation ([++] is list concatenation) *)
Infix "+++" := String.append (right associativity, at level 60) : string_scope.

(** Python exception classes raised (explicitly or implicitly) by sofar.
    [ENotModelled] marks inputs that are outside the model (see DESIGN.md);
    no theorem that concludes success can hold through it.
    raised e.g. at /repo/sofar/sofa.py:142, 656, 1570 and
    /repo/sofar/sofastream.py:117 *)
Inductive ekind :=
| ETypeError | EValueError | EAttributeError | EKeyError | EIndexError
| EUnboundLocalError | EInvalidVersion | EUnicodeError | ERuntimeError
| EOSError | ERecursionError | ENotModelled.

(** Python exceptions, e.g. /repo/sofar/sofa.py:142 *)
Inductive exn := Exn (k : ekind) (msg : string).

(** the class of an exception, e.g. /repo/sofar/sofa.py:142 *)
Definition exn_kind (e : exn) : ekind := match e with Exn k _ => k end.
(** the text of an exception, e.g. /repo/sofar/sofa.py:142 *)
Definition exn_msg (e : exn) : string := match e with Exn _ m => m end.

(** result of an expression that may raise, e.g. /repo/sofar/sofa.py:142 *)
Inductive res (A : Type) := Ok (a : A) | Err (e : exn).
Arguments Ok {A} a.
Arguments Err {A} e.

(** an expression that raises ends the evaluation, e.g. /repo/sofar/sofa.py:142 *)
Definition rbind {A B} (x : res A) (f : A -> res B) : res B :=
  match x with Ok a => f a | Err e => Err e end.

(** notation for [rbind]; models no code of /repo/sofar *)
Notation "'let?' x ':=' e1 'in' e2" := (rbind e1 (fun x => e2))
  (at level 200, x pattern, e1 at level 100, e2 at level 200,
   right associativity).

(** no exception; models no code of /repo/sofar *)
Definition is_ok {A} (x : res A) : bool :=
  match x with Ok _ => true | Err _ => false end.

(** Python [for x in l: acc = f(acc, x)] where the body may raise.
    e.g. /repo/sofar/utils.py:43-47 *)
Fixpoint rfold {A B} (f : A -> B -> res A) (l : list B) (acc : A) : res A :=
  match l with
  | [] => Ok acc
  | x :: t => let? a := f acc x in rfold f t a
  end.

(** [[f(x) for x in l]] where [f] may raise.
    e.g. /repo/sofar/sofa.py:1702 *)
Fixpoint rmap {A B} (f : A -> res B) (l : list A) : res (list B) :=
  match l with
  | [] => Ok []
  | x :: t => let? y := f x in let? r := rmap f t in Ok (y :: r)
  end.

(** Python dict: insertion ordered, assignment to an existing key keeps its
    position, a new key is appended.
    e.g. /repo/sofar/sofa.py:717-725 *)
Definition dict (A : Type) := list (string * A).

(** [d.get(k)], e.g. /repo/sofar/sofa.py:1514-1515 *)
Fixpoint dget {A} (k : string) (d : dict A) : option A :=
  match d with
  | [] => None
  | (k', v) :: t => if String.eqb k k' then Some v else dget k t
  end.

(** [d[k] = v], e.g. /repo/sofar/sofa.py:719 *)
Fixpoint dset {A} (k : string) (v : A) (d : dict A) : dict A :=
  match d with
  | [] => [(k, v)]
  | (k', v') :: t =>
      if String.eqb k k' then (k, v) :: t else (k', v') :: dset k v t
  end.

(** [del d[k]] and [d.pop(k)], e.g. /repo/sofar/sofa.py:178, 1656 *)
Fixpoint ddel {A} (k : string) (d : dict A) : dict A :=
  match d with
  | [] => []
  | (k', v') :: t => if String.eqb k k' then t else (k', v') :: ddel k t
  end.

(** [list(d.keys())], e.g. /repo/sofar/sofa.py:343 *)
Definition dkeys {A} (d : dict A) : list string := map fst d.

(** [k in d], e.g. /repo/sofar/sofa.py:177 *)
Definition dmem {A} (k : string) (d : dict A) : bool :=
  match dget k d with Some _ => true | None => false end.

(** [x in list_of_strings],
    e.g. /repo/sofar/sofa.py:657 *)
Definition smem (k : string) (l : list string) : bool :=
  existsb (String.eqb k) l.

(** [d[k]] raises KeyError if [k] is missing.
    e.g. /repo/sofar/sofa.py:172 *)
Definition dgetE {A} (k : string) (d : dict A) : res A :=
  match dget k d with
  | Some v => Ok v
  | None => Err (Exn EKeyError k)
  end.
