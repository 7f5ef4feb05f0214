"""Write rocq/theories/PyVectors.v: results of functions of the Python standard
library (no code of sofar) on random arguments, to be compared with the
functions of the model. Usage: python3 tools/pyvectors.py"""
import fnmatch
import io
import math
import pathlib
import random
import re
import struct
import sys

R = random.Random(2024)
N = 60


def q(s):
    if all(32 <= ord(c) < 127 for c in s):
        return '"' + s.replace('"', '""') + '"'
    return 'cs [' + '; '.join(str(ord(c)) for c in s) + ']%N'


def ql(l):
    return '[' + '; '.join(q(x) for x in l) + ']'


def qc(c):
    return q(c) + '%char'


def qo(x, f):
    return 'None' if x is None else f'Some ({f(x)})'


def qb(b):
    return 'true' if b else 'false'


def word(alphabet, n=7):
    return ''.join(R.choice(alphabet) for _ in range(R.randrange(n)))


def some(f, n=N):
    out, seen = [], set()
    while len(out) < n and len(seen) < 60 * n:
        x = f()
        seen.add(len(seen))
        if x not in out:
            out.append(x)
    return out


def num(x):
    """float as SpecFloat"""
    if math.isnan(x):
        return 'S754_nan'
    s = qb(math.copysign(1, x) < 0)
    if math.isinf(x):
        return f'S754_infinity {s}'
    if x == 0:
        return f'S754_zero {s}'
    b = struct.unpack('>Q', struct.pack('>d', abs(x)))[0]
    e, m = b >> 52, b & ((1 << 52) - 1)
    m, e = (m, -1074) if e == 0 else (m | (1 << 52), e - 1075)
    return f'S754_finite {s} {m} ({e})'


def rnum():
    k = R.randrange(10)
    if k == 0:
        return R.choice([0., -0., math.inf, -math.inf, math.nan, 5e-324,
                         1.7976931348623157e308, 2.2250738585072014e-308])
    if k < 4:
        return R.choice([1, -1]) * R.randrange(1, 50) / 8
    return struct.unpack('>d', struct.pack('>Q', R.getrandbits(64)))[0]


def near(x):
    if not math.isfinite(x):
        return R.choice([x, 1.])
    return R.choice([x, x * (1 + 1e-7), x * (1 + 1.2e-7), x * (1 - 9e-8),
                     math.nextafter(x, math.inf), -x, rnum()])


OUT = []


def check(name, comment, typ, cases, body):
    OUT.append(f'(** {comment} *)\n'
               f'Definition v_{name} : list ({typ}) := [\n  '
               + ';\n  '.join(cases) + '].\n'
               f'Lemma ok_{name} : forallb (fun v => {body}) v_{name} = true.\n'
               'Proof. vm_compute. reflexivity. Qed.\n')


AB = 'ab_:.'
W = 'aB_:. ,/-\t\n'


def two(a, b, n1=4, n2=9):
    return lambda: (word(a, n1), word(b, n2))


check('startswith', '[s.startswith(p)]', 'string * string * bool',
      [f'({q(p)}, {q(s)}, {qb(s.startswith(p))})'
       for p, s in some(two('ab', 'ab'))],
      "match v with (p, s, r) => Bool.eqb (startswith p s) r end")
check('endswith', '[s.endswith(p)]', 'string * string * bool',
      [f'({q(p)}, {q(s)}, {qb(s.endswith(p))})'
       for p, s in some(two('ab', 'ab'))],
      "match v with (p, s, r) => Bool.eqb (endswith p s) r end")
check('contains', '[p in s]', 'string * string * bool',
      [f'({q(p)}, {q(s)}, {qb(p in s)})' for p, s in some(two('ab', 'ab'))],
      "match v with (p, s, r) => Bool.eqb (contains p s) r end")
check('has_char', '[c in s]', 'ascii * string * bool',
      [f'({qc(c)}, {q(s)}, {qb(c in s)})'
       for c, s in some(lambda: (R.choice('ab_'), word('ab_', 5)))],
      "match v with (c, s, r) => Bool.eqb (has_char c s) r end")
check('count', '[s.count(c)]', 'ascii * string * nat',
      [f'({qc(c)}, {q(s)}, {s.count(c)})'
       for c, s in some(lambda: (R.choice('ab_'), word('ab_', 9)))],
      "match v with (c, s, r) => Nat.eqb (count_char c s) r end")
check('replace', '[s.replace(a, b)]', 'string * string * string * string',
      [f'({q(a)}, {q(b)}, {q(s)}, {q(s.replace(a, b))})' for a, b, s in
       some(lambda: (R.choice('ab') + word('ab', 3), word('abc', 3),
                     word('ab', 12)), 120)],
      "match v with (a, b, s, r) => String.eqb (replace a b s) r end")
check('replace_char', '[s.replace(c, d)]', 'ascii * ascii * string * string',
      [f'({qc(a)}, {qc(b)}, {q(s)}, {q(s.replace(a, b))})' for a, b, s in
       some(lambda: (R.choice('ab:'), R.choice('ab_'), word('ab:_', 9)))],
      "match v with (a, b, s, r) => String.eqb (replace_char a b s) r end")
check('split', '[s.split(p)]', 'string * string * list string',
      [f'({q(p)}, {q(s)}, {ql(s.split(p))})' for p, s in
       some(lambda: (R.choice('ab') + word('ab', 3), word('abc', 12)), 120)],
      "match v with (p, s, r) => same_list (split p s) r end")
check('re_comma', "[re.split(', ?', s)]", 'string * list string',
      [f"({q(s)}, {ql(re.split(', ?', s))})"
       for s in some(lambda: word('aB, ', 10), 120)],
      "match v with (s, r) => same_list (re_split_comma s) r end")
check('re_comma_space', "[re.split(', ?| ', s)]", 'string * list string',
      [f"({q(s)}, {ql(re.split(', ?| ', s))})"
       for s in some(lambda: word('aB, ', 10), 120)],
      "match v with (s, r) => same_list (re_split_comma_space s) r end")
check('join', '[p.join(l)]', 'string * list string * string',
      [f'({q(p)}, {ql(l)}, {q(p.join(l))})' for p, l in
       some(lambda: (word('a, ', 3),
                     tuple(word('xy', 3) for _ in range(R.randrange(5)))))],
      "match v with (p, l, r) => String.eqb (join p l) r end")
check('before_last', '[s[:s.rindex(c)]]', 'ascii * string * option string',
      [f"({qc(c)}, {q(s)}, {qo(s[:s.rindex(c)] if c in s else None, q)})"
       for c, s in some(lambda: (R.choice('_.'), word('ab_.', 8)))],
      "match v with (c, s, r) => same_opt String.eqb (before_last c s) r end")
check('after_last', '[s[s.rfind(c) + 1:]]', 'ascii * string * string',
      [f"({qc(c)}, {q(s)}, {q(s[s.rfind(c) + 1:])})"
       for c, s in some(lambda: (R.choice('_.'), word('ab_.', 8)))],
      "match v with (c, s, r) => String.eqb (after_last c s) r end")
check('slices', '[s[:n]], [s[n:]], [s[:-n]]',
      'nat * string * string * string * string',
      [f"({n}, {q(s)}, {q(s[:n])}, {q(s[n:])}, {q(s[:-n])})"
       for n, s in some(lambda: (R.randrange(1, 8), word('abcd', 9)))],
      "match v with (n, s, a, b, c) => String.eqb (stake n s) a "
      "&& String.eqb (sdrop n s) b && String.eqb (drop_end n s) c end")
ASCII = ''.join(map(chr, range(128)))
check('case', '[c.lower()], [c.upper()], [c.islower()], [c.isdigit()], '
      '[c.isspace()] for all ASCII characters',
      'N * string * string * bool * bool * bool',
      [f'({ord(c)}%N, {q(c.lower())}, {q(c.upper())}, {qb(c.islower())}, '
       f'{qb(c.isdigit())}, {qb(c.isspace())})' for c in ASCII],
      "match v with (n, a, b, x, y, z) => let c := ascii_of_N n in "
      "String.eqb (lower (str1 c)) a && String.eqb (upper (str1 c)) b "
      "&& Bool.eqb (is_lower_ascii c) x && Bool.eqb (is_digit c) y "
      "&& Bool.eqb (is_space c) z end")
check('strip', '[s.strip()]', 'string * string',
      [f'({q(s)}, {q(s.strip())})'
       for s in some(lambda: word('a b\t\n\r\x0b\x0c\x1c\x1f', 9), 100)],
      "match v with (s, r) => String.eqb (strip s) r end")
check('nat_str', '[str(n)]', 'N * string',
      [f'({n}%N, {q(str(n))})' for n in
       some(lambda: R.randrange(10 ** R.randrange(1, 22)))],
      "match v with (n, r) => String.eqb (N_str n) r end")
check('int_str', '[str(z)]', 'Z * string',
      [f'(({n})%Z, {q(str(n))})' for n in
       some(lambda: R.randrange(-10 ** 6, 10 ** R.randrange(1, 12)))],
      "match v with (z, r) => String.eqb (Z_str z) r end")
check('tuple_str', '[str(t)]', 'list nat * string',
      [f"([{'; '.join(map(str, t))}], {q(str(t))})" for t in
       some(lambda: tuple(R.randrange(200) for _ in range(R.randrange(5))))],
      "match v with (l, r) => String.eqb (tuple_str l) r end")
check('list_str', '[str(l)]', 'list nat * string',
      [f"([{'; '.join(map(str, t))}], {q(str(list(t)))})" for t in
       some(lambda: tuple(R.randrange(200) for _ in range(R.randrange(5))))],
      "match v with (l, r) => String.eqb (list_str l) r end")
check('texts_str', '[str(l)] for texts without quotation marks',
      'list string * string',
      [f"({ql(t)}, {q(str(list(t)))})" for t in
       some(lambda: tuple(word('a1. ', 4) for _ in range(R.randrange(4))))],
      "match v with (l, r) => String.eqb (str_list l) r end")


def attempt(f, s):
    try:
        return f(s)
    except ValueError:
        return None


check('int', '[int(s)], None: ValueError', 'string * option Z',
      [f"({q(s)}, {qo(attempt(int, s), lambda z: f'({z})%Z')})"
       for s in some(lambda: word('0127_+- a', 7), 300)],
      "match v with (s, r) => same_opt Z.eqb (int_of s) r end")
PLAIN = re.compile(r'[0-9]+(\.[0-9]+)?$')
check('float_str', '[str(float(s))] of plain decimals; others are rejected',
      'string * option string',
      [f"({q(s)}, {qo(str(float(s)) if PLAIN.match(s) else None, q)})"
       for s in some(lambda: R.choice([
           f'{R.randrange(30)}.{R.randrange(30)}', f'{R.randrange(300)}',
           f'0{R.randrange(30)}.{R.randrange(30)}0', word('012.', 5)]), 200)
       if not (PLAIN.match(s) and 0 < float(s) < 1e-4)],
      "match v with (s, r) => same_opt String.eqb (float_str s) r end")
check('float_le', '[float(a) <= float(b)], [float(a) < float(b)]',
      'string * string * bool * bool',
      [f"({q(a)}, {q(b)}, {qb(float(a) <= float(b))}, "
       f"{qb(float(a) < float(b))})"
       for a, b in some(lambda: tuple(
           R.choice([f'{R.randrange(4)}.{R.randrange(12)}',
                     f'{R.randrange(4)}.{R.randrange(4)}0',
                     f'0{R.randrange(4)}']) for _ in 'ab'), 100)],
      "match v with (a, b, x, y) => match parse_float a, parse_float b with "
      "Some p, Some q => Bool.eqb (dec_leb p q) x && Bool.eqb (dec_ltb p q) y "
      "| _, _ => false end end")
check('float_of_int', '[float(z)] for integers', 'Z * spec_float',
      [f'(({z})%Z, {num(float(z))})' for z in
       some(lambda: R.choice([1, -1]) * R.getrandbits(R.randrange(1, 200)))],
      "match v with (z, r) => same_float (f_of_Z z) r end")
check('arith', '[x - y], [x * y], [abs(x)], [x <= y], [x == y]',
      'spec_float * spec_float * spec_float * spec_float * spec_float'
      ' * bool * bool',
      [f'({num(x)}, {num(y)}, {num(x - y)}, {num(x * y)}, {num(abs(x))}, '
       f'{qb(x <= y)}, {qb(x == y)})' for x, y in
       some(lambda: (lambda x: (x, near(x)))(rnum()), 200)],
      "match v with (x, y, a, b, c, p, q) => same_float (f_sub x y) a "
      "&& same_float (f_mul x y) b && same_float (f_abs x) c "
      "&& Bool.eqb (f_leb x y) p && Bool.eqb (f_eqb x y) q end")


def isclose(x, y):
    return ((abs(x - y) <= 1e-7 * abs(y) and math.isfinite(y)) or x == y
            or (math.isnan(x) and math.isnan(y)))


check('isclose', 'the formula of numpy.isclose, evaluated by Python',
      'spec_float * spec_float * bool',
      [f'({num(x)}, {num(y)}, {qb(isclose(x, y))})' for x, y in
       some(lambda: (lambda x: (x, near(x)))(rnum()), 200)],
      "match v with (x, y, r) => Bool.eqb (isclose x y) r end")
check('constants', '[1e-7] and the fill value', 'spec_float * spec_float',
      [f'({num(1e-7)}, {num(9.969209968386869e+36)})'],
      "match v with (x, y) => same_float rtol64 x && same_float fill64 y end")


def fits(p):
    return (p and '//' not in p and '/./' not in p and not p.endswith('/')
            and not p.startswith('./') and not p.endswith('/.'))


check('with_suffix', "[pathlib.PurePosixPath(s).with_suffix('.sofa')] for "
      "names in normal form; None: ValueError", 'string * option string',
      [f"({q(s)}, "
       f"{qo(attempt(lambda s: str(pathlib.PurePosixPath(s).with_suffix('.sofa')), s), q)})"
       for s in some(lambda: word('ab./', 8), 300) if fits(s)],
      "match v with (s, r) => same_opt String.eqb "
      "(match sofa_path s with Ok p => Some p | Err _ => None end) r end")
check('lines', '[readlines()] without the line ends', 'string * list string',
      [f"({q(s)}, {ql(x.rstrip(chr(10)) for x in io.TextIOWrapper(io.BytesIO(s.encode())).readlines())})"
       for s in some(lambda: word('a\t\r\n\x0b', 9), 200)],
      "match v with (s, r) => same_list (lines_of s) r end")
check('glob', "[*.csv] as shell pattern for names of files",
      'string * bool',
      [f"({q(s)}, {qb(fnmatch.fnmatchcase(s, '*.csv') and s[0] != '.')})"
       for s in some(lambda: word('ab._', 3) + R.choice(
           ['.csv', '.cs', 'csv', '.csv.', '.CSV', '.json']), 60)],
      "match v with (s, r) => Bool.eqb (top_csv s) r end")


def steps():
    d, ops = {}, []
    for _ in range(R.randrange(1, 9)):
        k, x = R.choice('abcd'), R.randrange(9)
        if R.random() < .6:
            d[k] = x
            ops.append(f'Some ({q(k)}, {x})')
            ops[-1] = f'({q(k)}, Some {x})'
        else:
            d.pop(k, None)
            ops.append(f'({q(k)}, None)')
    return (f"([{'; '.join(ops)}], "
            f"[{'; '.join(f'({q(k)}, {x})' for k, x in d.items())}])")


check('dict', 'assignments ([Some]) and deletions ([None]) of a dictionary',
      'list (string * option nat) * list (string * nat)', some(steps, 100),
      "match v with (ops, r) => same_dict (fold_left (fun d o => match snd o "
      "with Some x => dset (fst o) x d | None => ddel (fst o) d end) ops []) "
      "r end")

HEAD = '''(** Results of functions of the Python standard library, CPython %s,
    compared with the functions of the model. Written by tools/pyvectors.py. *)
From Verif Require Import Base PyStr PyNum NdArray Sofa SpecUpdate UpdateConv Upgrade Io.
From Coq Require Import ZArith NArith.
Open Scope string_scope.
Open Scope list_scope.
Open Scope nat_scope.

(** text of codes *)
Definition cs (l : list N) : string := string_of_list_ascii (map ascii_of_N l).
Fixpoint same_list (a b : list string) : bool :=
  match a, b with
  | [], [] => true
  | x :: s, y :: t => String.eqb x y && same_list s t
  | _, _ => false
  end.
Definition same_opt {A} (eqb : A -> A -> bool) (a b : option A) : bool :=
  match a, b with Some x, Some y => eqb x y | None, None => true | _, _ => false end.
(** same representation *)
Definition same_float (x y : spec_float) : bool :=
  match x, y with
  | S754_nan, S754_nan => true
  | S754_infinity s, S754_infinity t => Bool.eqb s t
  | S754_zero s, S754_zero t => Bool.eqb s t
  | S754_finite s m e, S754_finite t n f => Bool.eqb s t && Pos.eqb m n && Z.eqb e f
  | _, _ => false
  end.
Fixpoint same_dict (a b : list (string * nat)) : bool :=
  match a, b with
  | [], [] => true
  | (x, m) :: s, (y, n) :: t => String.eqb x y && Nat.eqb m n && same_dict s t
  | _, _ => false
  end.

''' % sys.version.split()[0]

path = pathlib.Path(__file__).parent.parent / 'rocq/theories/PyVectors.v'
path.write_text(HEAD + '\n'.join(OUT))
