(** Numbers: IEEE binary64 (by the standard library's executable [SpecFloat]),
    [float(str)] on plain decimals, [packaging.version.parse] on plain
    dotted releases. These are library functions used by sofar. *)
From Verif Require Import Base PyStr.
From Coq Require Import ZArith NArith.
From Coq Require Export Floats.SpecFloat.
Open Scope string_scope.
Open Scope list_scope.

(** ** binary64 *)
(** binary64 arithmetic of numpy, used at /repo/sofar/utils.py:215 *)
Definition prec64 : Z := 53%Z.
(** binary64 arithmetic of numpy, used at /repo/sofar/utils.py:215 *)
Definition emax64 : Z := 1024%Z.

(** binary64 arithmetic of numpy, used at /repo/sofar/utils.py:215 *)
Definition f64 := spec_float.
(** integers as float64, /repo/sofar/utils.py:215 and /repo/sofar/io.py:331 *)
Definition f_of_Z (z : Z) : f64 := binary_normalize prec64 emax64 z 0 false.
(** binary64 arithmetic of numpy, used at /repo/sofar/utils.py:215 *)
Definition f_sub (x y : f64) : f64 := SFsub prec64 emax64 x y.
(** binary64 arithmetic of numpy, used at /repo/sofar/utils.py:215 *)
Definition f_mul (x y : f64) : f64 := SFmul prec64 emax64 x y.
(** binary64 arithmetic of numpy, used at /repo/sofar/utils.py:215 *)
Definition f_abs (x : f64) : f64 := SFabs x.
(** binary64 arithmetic of numpy, used at /repo/sofar/utils.py:215 *)
Definition f_leb (x y : f64) : bool := SFleb x y.
(** binary64 arithmetic of numpy, used at /repo/sofar/utils.py:215 *)
Definition f_eqb (x y : f64) : bool := SFeqb x y.
(** binary64 arithmetic of numpy, used at /repo/sofar/utils.py:215 *)
Definition f_is_nan (x : f64) : bool :=
  match x with S754_nan => true | _ => false end.
(** binary64 arithmetic of numpy, used at /repo/sofar/utils.py:215 *)
Definition f_is_finite (x : f64) : bool :=
  match x with S754_nan | S754_infinity _ => false | _ => true end.

(** 1e-7, the default [rtol] of numpy.testing.assert_allclose,
    /repo/sofar/utils.py:215 *)
Definition rtol64 : f64 := S754_finite false 7555786372591432 (-76).
(** 9.969209968386869e+36, the default NetCDF fill value for doubles,
    /repo/sofar/io.py:162, 406 *)
Definition fill64 : f64 := S754_finite false 8444249301319680 70.

(** numpy [isclose(x, y, rtol=1e-7, atol=0, equal_nan=True)]:
    [(|x-y| <= rtol*|y| and isfinite(y)) or x == y], and NaN equals NaN,
    /repo/sofar/utils.py:215 *)
Definition isclose (x y : f64) : bool :=
  (f_leb (f_abs (f_sub x y)) (f_mul rtol64 (f_abs y)) && f_is_finite y)
  || f_eqb x y
  || (f_is_nan x && f_is_nan y).

(** ** decimal numbers in version strings *)

(** value = [dm] / 10 ^ [ds],
    [float(version)], /repo/sofar/sofa.py:1407, 1702 *)
Record dec := Dec { dm : N; ds : nat }.

(** /repo/sofar/sofa.py:1407, 1702 *)
Definition digit_val (c : ascii) : N := N.of_nat (nat_of_ascii c - 48).

(** a string of digits; [None] on other characters,
    /repo/sofar/sofa.py:1407, 1702 *)
Fixpoint digits_val (s : string) (acc : N) : option N :=
  match s with
  | EmptyString => Some acc
  | String c t => if is_digit c
                  then digits_val t (acc * 10 + digit_val c)%N else None
  end.

(** [float(s)] for [digits] or [digits.digits] (at least one digit before and
    after the point). Simplification: signs, exponents, surrounding blanks,
    underscores, 'inf', 'nan', '1.' and '.5' are rejected here although Python
    accepts them. The value is kept as an exact decimal.
    /repo/sofar/sofa.py:1407, 1702 *)
Definition parse_float (s : string) : option dec :=
  match split "." s with
  | [i] => if String.eqb i "" then None
           else match digits_val i 0 with Some m => Some (Dec m 0) | None => None end
  | [i; f] =>
      if String.eqb i "" || String.eqb f "" then None
      else match digits_val (i +++ f) 0 with
           | Some m => Some (Dec m (String.length f))
           | None => None
           end
  | _ => None
  end.

(** /repo/sofar/sofa.py:1407, 1702 *)
Definition pow10 (n : nat) : N := (10 ^ N.of_nat n)%N.
(** /repo/sofar/sofa.py:1407, 1703 *)
Definition dec_leb (a b : dec) : bool :=
  (dm a * pow10 (ds b) <=? dm b * pow10 (ds a))%N.
(** /repo/sofar/sofa.py:1407, 1703 *)
Definition dec_ltb (a b : dec) : bool :=
  (dm a * pow10 (ds b) <? dm b * pow10 (ds a))%N.

(** remove leading zeros, keep at least one digit,
    /repo/sofar/utils.py:46 *)
Fixpoint strip0 (s : string) : string :=
  match s with
  | String c t =>
      if Ascii.eqb c "0" && negb (String.eqb t "") then strip0 t else s
  | EmptyString => s
  end.

(** [str(float(s))] for the strings accepted by [parse_float]: shortest
    decimal. Exact for at most 15 significant digits and values below 1e16 and
    above 1e-4, where Python prints no exponent (version numbers).
    [str(float(s))], /repo/sofar/utils.py:46 *)
Definition float_str (s : string) : option string :=
  match parse_float s with
  | None => None
  | Some _ =>
      match split "." s with
      | [i] => Some (strip0 i +++ ".0")
      | [i; f] => Some (strip0 i +++ "." +++ srev (strip0 (srev f)))
      | _ => None
      end
  end.

(** ** [packaging.version.parse] on dotted releases

    Simplification: only "N(.N)*" is accepted (no epochs, pre-, post-,
    dev-releases, local versions, leading 'v' or blanks). *)
(** [packaging.version.parse], /repo/sofar/sofa.py:112 *)
Definition num_val (s : string) : option N :=
  if String.eqb s "" then None else digits_val s 0.

(** /repo/sofar/sofa.py:112 *)
Fixpoint omap {A B} (f : A -> option B) (l : list A) : option (list B) :=
  match l with
  | [] => Some []
  | x :: t => match f x, omap f t with
              | Some y, Some r => Some (y :: r)
              | _, _ => None
              end
  end.

(** /repo/sofar/sofa.py:112, 120 *)
Definition parse_version (s : string) : option (list N) :=
  omap num_val (split "." s).

(** comparison of releases; missing components count as 0,
    /repo/sofar/sofa.py:112, 120 *)
Fixpoint all_zero (l : list N) : bool :=
  match l with [] => true | x :: t => (x =? 0)%N && all_zero t end.
(** /repo/sofar/sofa.py:112, 120 *)
Fixpoint ver_ltb (a b : list N) : bool :=
  match a, b with
  | [], _ => negb (all_zero b)
  | _, [] => false
  | x :: s, y :: t =>
      if (x <? y)%N then true else if (y <? x)%N then false else ver_ltb s t
  end.

(** [parse(a) < parse(b)] and [parse(a) >= parse(b)],
    /repo/sofar/sofa.py:120 and /repo/sofar/io.py:277 *)
Definition version_ltb (a b : string) : res bool :=
  match parse_version a, parse_version b with
  | Some x, Some y => Ok (ver_ltb x y)
  | None, _ => Err (Exn EInvalidVersion a)
  | _, None => Err (Exn EInvalidVersion b)
  end.
(** /repo/sofar/sofa.py:112, 892 *)
Definition version_geb (a b : string) : res bool :=
  let? r := version_ltb a b in Ok (negb r).
