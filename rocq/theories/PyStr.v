(** Python string functions used in /repo/sofar.

    Strings are Coq [string]s, i.e. sequences of code points 0..255. Case
    conversion acts on ASCII letters only. Simplification: code points above
    255 and non-ASCII case mappings are not represented. *)
From Verif Require Import Base.
From Coq Require Import NArith.
Open Scope string_scope.
Open Scope list_scope.

(** [s.startswith(p)],
    e.g. /repo/sofar/sofa.py:343 *)
Definition startswith (p s : string) : bool := String.prefix p s.

(** reversed string; helper, models no code of /repo/sofar *)
Fixpoint srev_app (s acc : string) : string :=
  match s with EmptyString => acc | String c t => srev_app t (String c acc) end.
(** reversed string; helper, models no code of /repo/sofar *)
Definition srev (s : string) : string := srev_app s "".

(** [s.endswith(p)],
    e.g. /repo/sofar/sofa.py:1378 *)
Definition endswith (p s : string) : bool := String.prefix (srev p) (srev s).

(** [sub in s],
    e.g. /repo/sofar/sofa.py:301 *)
Fixpoint contains (sub s : string) : bool :=
  String.prefix sub s ||
  match s with EmptyString => false | String _ t => contains sub t end.

(** equality of characters, e.g. /repo/sofar/sofa.py:1201 *)
Definition ascii_eqb := Ascii.eqb.

(** [c in s] for a single character,
    e.g. /repo/sofar/sofa.py:660 *)
Fixpoint has_char (c : ascii) (s : string) : bool :=
  match s with
  | EmptyString => false
  | String d t => Ascii.eqb c d || has_char c t
  end.

(** [s.count(c)] for a single character,
    e.g. /repo/sofar/sofa.py:664 *)
Fixpoint count_char (c : ascii) (s : string) : nat :=
  match s with
  | EmptyString => 0
  | String d t => (if Ascii.eqb c d then 1 else 0) + count_char c t
  end.

(** [s.replace(old, new)] for non-empty [old]: scan from the left,
    [skip] counts the remaining characters of a replaced occurrence.
    e.g. /repo/sofar/sofa.py:1123 *)
Fixpoint replace_aux (old new s : string) (skip : nat) : string :=
  match s with
  | EmptyString => ""
  | String c t =>
      match skip with
      | S k => replace_aux old new t k
      | O => if String.prefix old s
             then new +++ replace_aux old new t (String.length old - 1)
             else String c (replace_aux old new t 0)
      end
  end.
(** e.g. /repo/sofar/sofa.py:1123 *)
Definition replace (old new s : string) : string := replace_aux old new s 0.

(** [s.replace(c, d)] for single characters,
    e.g. /repo/sofar/sofa.py:840 *)
Fixpoint replace_char (c d : ascii) (s : string) : string :=
  match s with
  | EmptyString => ""
  | String x t => String (if Ascii.eqb c x then d else x) (replace_char c d t)
  end.

(** [s.split(sep)] for non-empty [sep]; never returns the empty list,
    e.g. /repo/sofar/sofa.py:1200 *)
Fixpoint split_aux (sep s : string) (skip : nat) : list string :=
  match s with
  | EmptyString => [""]
  | String c t =>
      match skip with
      | S k => split_aux sep t k
      | O => if String.prefix sep s
             then "" :: split_aux sep t (String.length sep - 1)
             else match split_aux sep t 0 with
                  | h :: r => String c h :: r
                  | [] => [String c ""]
                  end
      end
  end.
(** e.g. /repo/sofar/sofa.py:1200 *)
Definition split (sep s : string) : list string := split_aux sep s 0.

(** [re.split(', ?', s)]: separators are a comma with at most one space,
    /repo/sofar/sofa.py:1505-1506 *)
Fixpoint re_split_comma_aux (s : string) (skip : bool) : list string :=
  match s with
  | EmptyString => [""]
  | String c t =>
      if skip then re_split_comma_aux t false
      else if Ascii.eqb c ","
      then "" :: re_split_comma_aux t (String.prefix " " t)
      else match re_split_comma_aux t false with
           | h :: r => String c h :: r
           | [] => [String c ""]
           end
  end.
(** /repo/sofar/sofa.py:1505-1506 *)
Definition re_split_comma (s : string) : list string := re_split_comma_aux s false.

(** [re.split(', ?| ', s)]: as above, and a single space is a separator,
    /repo/sofar/sofa.py:1545 *)
Fixpoint re_split_comma_space_aux (s : string) (skip : bool) : list string :=
  match s with
  | EmptyString => [""]
  | String c t =>
      if skip then re_split_comma_space_aux t false
      else if Ascii.eqb c ","
      then "" :: re_split_comma_space_aux t (String.prefix " " t)
      else if Ascii.eqb c " "
      then "" :: re_split_comma_space_aux t false
      else match re_split_comma_space_aux t false with
           | h :: r => String c h :: r
           | [] => [String c ""]
           end
  end.
(** /repo/sofar/sofa.py:1545 *)
Definition re_split_comma_space (s : string) : list string :=
  re_split_comma_space_aux s false.

(** [sep.join(l)],
    e.g. /repo/sofar/sofa.py:1297 *)
Fixpoint join (sep : string) (l : list string) : string :=
  match l with
  | [] => ""
  | [x] => x
  | x :: t => x +++ sep +++ join sep t
  end.

(** [s[:s.rindex(c)]]; [None] if [c] does not occur (Python: ValueError),
    e.g. /repo/sofar/sofa.py:670 *)
Fixpoint before_last (c : ascii) (s : string) : option string :=
  match s with
  | EmptyString => None
  | String d t =>
      match before_last c t with
      | Some r => Some (String d r)
      | None => if Ascii.eqb c d then Some "" else None
      end
  end.

(** [s[s.rindex(c)+1:]], all of [s] if [c] does not occur,
    e.g. /repo/sofar/sofa.py:1698 *)
Fixpoint after_last (c : ascii) (s : string) : string :=
  match s with
  | EmptyString => ""
  | String d t =>
      if has_char c t then after_last c t
      else if Ascii.eqb c d then t else s
  end.

(** [s[:n]], [s[n:]] and [s[:-n]],
    e.g. /repo/sofar/io.py:304 *)
Fixpoint stake (n : nat) (s : string) : string :=
  match n, s with
  | S k, String c t => String c (stake k t)
  | _, _ => ""
  end.
(** [s[n:]], e.g. /repo/sofar/io.py:304 *)
Fixpoint sdrop (n : nat) (s : string) : string :=
  match n, s with
  | S k, String c t => sdrop k t
  | O, _ => s
  | _, EmptyString => ""
  end.
(** [s[:-n]], e.g. /repo/sofar/sofa.py:1698 *)
Definition drop_end (n : nat) (s : string) : string :=
  stake (String.length s - n) s.

(** [c.islower()], /repo/sofar/sofa.py:1201 *)
Definition is_lower_ascii (c : ascii) : bool :=
  let n := nat_of_ascii c in (97 <=? n)%nat && (n <=? 122)%nat.
(** upper case letters, for [lower_char]; /repo/sofar/sofa.py:1466 *)
Definition is_upper_ascii (c : ascii) : bool :=
  let n := nat_of_ascii c in (65 <=? n)%nat && (n <=? 90)%nat.
(** [c.lower()], /repo/sofar/sofa.py:710 *)
Definition lower_char (c : ascii) : ascii :=
  if is_upper_ascii c then ascii_of_nat (nat_of_ascii c + 32) else c.
(** [c.upper()], /repo/sofar/sofa.py:710 *)
Definition upper_char (c : ascii) : ascii :=
  if is_lower_ascii c then ascii_of_nat (nat_of_ascii c - 32) else c.

(** all characters, /repo/sofar/sofa.py:710-712 *)
Fixpoint smap (f : ascii -> ascii) (s : string) : string :=
  match s with EmptyString => "" | String c t => String (f c) (smap f t) end.
(** [s.lower()], [s.upper()] (ASCII letters),
    e.g. /repo/sofar/sofa.py:1466 *)
Definition lower (s : string) : string := smap lower_char s.
(** e.g. /repo/sofar/sofa.py:677 *)
Definition upper (s : string) : string := smap upper_char s.

(** characters of a string, [for c in s],
    e.g. /repo/sofar/sofa.py:678 *)
Definition chars (s : string) : list ascii := list_ascii_of_string s.

(** string with a single character, e.g. /repo/sofar/io.py:326 *)
Definition str1 (c : ascii) : string := String c "".

(** decimal digits, for [float] and [int]; /repo/sofar/utils.py:46 *)
Definition is_digit (c : ascii) : bool :=
  let n := nat_of_ascii c in (48 <=? n)%nat && (n <=? 57)%nat.

(** Python whitespace as removed by [s.strip()] (ASCII part),
    /repo/sofar/update_conventions.py:262, 266 *)
Definition is_space (c : ascii) : bool :=
  let n := nat_of_ascii c in
  ((9 <=? n)%nat && (n <=? 13)%nat) || ((28 <=? n)%nat && (n <=? 32)%nat).
(** /repo/sofar/update_conventions.py:262, 266 *)
Fixpoint lstrip (s : string) : string :=
  match s with
  | EmptyString => ""
  | String c t => if is_space c then lstrip t else s
  end.
(** /repo/sofar/update_conventions.py:262, 266 *)
Definition strip (s : string) : string := srev (lstrip (srev (lstrip s))).

(** [str(n)] for a natural number, by decimal digits,
    e.g. /repo/sofar/sofa.py:1267 *)
Definition digit_char (n : nat) : ascii := ascii_of_nat (48 + n).
(** [str(n)], e.g. /repo/sofar/sofa.py:1267 *)
Fixpoint uint_str (d : Decimal.uint) : string :=
  match d with
  | Decimal.Nil => ""
  | Decimal.D0 d => String "0" (uint_str d)
  | Decimal.D1 d => String "1" (uint_str d)
  | Decimal.D2 d => String "2" (uint_str d)
  | Decimal.D3 d => String "3" (uint_str d)
  | Decimal.D4 d => String "4" (uint_str d)
  | Decimal.D5 d => String "5" (uint_str d)
  | Decimal.D6 d => String "6" (uint_str d)
  | Decimal.D7 d => String "7" (uint_str d)
  | Decimal.D8 d => String "8" (uint_str d)
  | Decimal.D9 d => String "9" (uint_str d)
  end.
(** [str(n)], e.g. /repo/sofar/sofa.py:1267 *)
Definition N_str (n : N) : string :=
  match n with N0 => "0" | _ => uint_str (N.to_uint n) end.
(** [str(n)], e.g. /repo/sofar/sofa.py:251 *)
Definition nat_str (n : nat) : string := N_str (N.of_nat n).

(** [str(t)] for a tuple of natural numbers,
    /repo/sofar/sofa.py:1270 *)
Definition tuple_str (l : list nat) : string :=
  match l with
  | [] => "()"
  | [x] => "(" +++ nat_str x +++ ",)"
  | _ => "(" +++ join ", " (map nat_str l) +++ ")"
  end.
