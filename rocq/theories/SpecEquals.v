(** Specification of equality of the content of two objects. *)
From Verif Require Import Base PyStr PyNum NdArray Sofa SpecVerify.
From Coq Require Import ZArith.
Open Scope string_scope.
Open Scope list_scope.

(** ** Numbers *)

(** the element as double *)
Inductive number : elt -> f64 -> Prop :=
| number_int z : number (EInt z) (f_of_Z z)
| number_flt f : number (EFlt f) f
| number_bool b : number (EBool b) (f_of_Z (if b then 1 else 0)%Z).

(** identical, both not a number, or the difference is at most 1e-7 times the
    magnitude of the second number (binary64 arithmetic) *)
Definition close (x y : f64) : Prop :=
  f_eqb x y = true
  \/ (x = S754_nan /\ y = S754_nan)
  \/ (f_is_finite y = true /\ f_leb (f_abs (f_sub x y)) (f_mul rtol64 (f_abs y)) = true).

Definition close_elts (p q : elt) : Prop :=
  exists x y, number p x /\ number q y /\ close x y.

(** ** Texts *)

(** [p] is a text of ASCII characters or bytes; [t] is the text up to NULs at
    the end *)
Inductive text : elt -> string -> Prop :=
| text_str s : Forall (fun c => nat_of_ascii c < 128) (chars s) -> text (EStr s) s
| text_byt s : text (EByt s) s.
Definition nuls (n : nat) : string := string_of_list_ascii (repeat Ascii.zero n).
Definition same_text (p q : elt) : Prop :=
  exists s t m n, text p s /\ text q t /\ s +++ nuls m = t +++ nuls n.

(** ** Arrays *)

(** shape without singleton dimensions, and elements of a value *)
Definition content_of (v : value) (s : list nat) (d : list elt) : Prop :=
  exists a, np_array v = Ok a /\ a_mask a = false
    /\ s = filter (fun n => negb (Nat.eqb n 1)) (a_shape a) /\ d = a_data a.

(** every element of [d] is in relation to the element of [d'] at the same
    position; [d'] is repeated *)
Definition repeated (R : elt -> elt -> Prop) (d d' : list elt) : Prop :=
  forall i p q, nth_error d i = Some p -> nth_error d' (i mod List.length d') = Some q -> R p q.

Definition same_numbers (v w : value) : Prop :=
  exists s d s' d', content_of v s d /\ content_of w s' d'
    /\ (forall p, In p d -> exists x, number p x) /\ (forall p, In p d' -> exists x, number p x)
    /\ ((s = s' /\ repeated close_elts d d')
        \/ (s' = [] /\ repeated close_elts d d')
        \/ (s = [] /\ repeated (fun q p => close_elts p q) d' d)).

Definition same_texts (v w : value) : Prop :=
  exists s d s' d', content_of v s d /\ content_of w s' d'
    /\ (forall p, In p d -> exists x, text p x) /\ (forall p, In p d' -> exists x, text p x)
    /\ ((exists pre, s = pre ++ s' /\ repeated same_text d d')
        \/ (exists pre, s' = pre ++ s /\ repeated (fun q p => same_text p q) d' d)).

(** ** Objects *)
Definition typed (o : sofa) (k t : string) : Prop :=
  exists e, dget k (conv o) = Some e /\ e_type e = t.

(** the options of [exclude] *)
Inductive exclusion := ExNone | ExGlobal | ExAttr | ExDate.
Definition option_of (x : exclusion) (s : option string) : Prop :=
  match x, s with
  | ExNone, None => True
  | ExGlobal, Some s => upper s = "GLOBAL"
  | ExAttr, Some s => upper s = "ATTR"
  | ExDate, Some s => upper s = "DATE"
  | _, _ => False
  end.
Definition excluded (x : exclusion) (o : sofa) (k : string) : Prop :=
  match x with
  | ExNone => False
  | ExGlobal => exists r, k = "GLOBAL_" +++ r
  | ExAttr => typed o k "attribute"
  | ExDate => exists p q, k = p +++ "Date" +++ q
  end.
(** entries to compare *)
Definition compared (x : exclusion) (o : sofa) (k : string) : Prop :=
  contained o k /\ (forall r, k <> "_" +++ r) /\ ~ excluded x o k.

Inductive same_values (t : string) (v w : value) : Prop :=
| sv_attr b b' s : t = "attribute" -> v = VStr b s -> w = VStr b' s -> same_values t v w
| sv_double : t = "double" -> same_numbers v w -> same_values t v w
| sv_string : t = "string" -> same_texts v w -> same_values t v w.

Record same_content (x : exclusion) (a b : sofa) : Prop := {
  sc_names : forall k, compared x a k <-> compared x b k;
  sc_values : forall k, compared x a k ->
    exists t v w, typed a k t /\ typed b k t /\ dget k (pub a) = Some v /\ dget k (pub b) = Some w
      /\ same_values t v w }.

(** every entry has a type *)
Definition all_typed (o : sofa) : Prop :=
  forall k, contained o k -> exists t, typed o k t.

(** results: both the same value or both an exception *)
Definition agree (r s : res bool) : Prop :=
  match r, s with
  | Ok x, Ok y => x = y
  | Err _, Err _ => True
  | _, _ => False
  end.

(** numpy arrays: as many elements as given by the shape, all of the kind of the
    array, none is masked *)
Definition regular_value (v : value) : Prop :=
  match v with
  | VStr _ _ => True
  | VScal x => elt_kind x <> KU
  | VArr a => wf_arr a = true /\ a_mask a = false /\ forall x, In x (a_data a) -> elt_kind x = a_kind a
  | VList _ => False
  end.
Definition regular (o : sofa) : Prop := forall k v, dget k (pub o) = Some v -> regular_value v.

(** texts without other than ASCII characters *)
Definition ascii_text (s : string) : Prop := Forall (fun c => nat_of_ascii c < 128) (chars s).
Definition ascii_value (v : value) : Prop :=
  match v with
  | VStr _ s => ascii_text s
  | VArr a => forall s, In (EStr s) (a_data a) -> ascii_text s
  | _ => True
  end.
