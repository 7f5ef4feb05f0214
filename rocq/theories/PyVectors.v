(** Results of functions of the Python standard library, CPython 3.11.10,
    compared with the functions of the model. Written by tools/pyvectors.py. *)
From Verif Require Import Base PyStr PyNum NdArray Sofa SpecUpdate UpdateConv Upgrade Io.
From Coq Require Import ZArith NArith.
Open Scope string_scope.
Open Scope list_scope.
Open Scope nat_scope.

(** text of codes *)
Definition cs (l : list N) : string := string_of_list_ascii (map ascii_of_N l).
Fixpoint same_list (a b : list string) : bool :=
  match a, b with
  | [], [] => true
  | x :: s, y :: t => String.eqb x y && same_list s t
  | _, _ => false
  end.
Definition same_opt {A} (eqb : A -> A -> bool) (a b : option A) : bool :=
  match a, b with Some x, Some y => eqb x y | None, None => true | _, _ => false end.
(** same representation *)
Definition same_float (x y : spec_float) : bool :=
  match x, y with
  | S754_nan, S754_nan => true
  | S754_infinity s, S754_infinity t => Bool.eqb s t
  | S754_zero s, S754_zero t => Bool.eqb s t
  | S754_finite s m e, S754_finite t n f => Bool.eqb s t && Pos.eqb m n && Z.eqb e f
  | _, _ => false
  end.
Fixpoint same_dict (a b : list (string * nat)) : bool :=
  match a, b with
  | [], [] => true
  | (x, m) :: s, (y, n) :: t => String.eqb x y && Nat.eqb m n && same_dict s t
  | _, _ => false
  end.

(** [s.startswith(p)] *)
Definition v_startswith : list (string * string * bool) := [
  ("aba", "babbba", false);
  ("ba", "baa", true);
  ("abb", "aabbbba", false);
  ("bb", "abaaa", false);
  ("a", "bbab", false);
  ("a", "baabbab", false);
  ("bbb", "ab", false);
  ("a", "a", true);
  ("", "ba", true);
  ("aa", "bab", false);
  ("bb", "aabbba", false);
  ("ab", "aba", true);
  ("b", "abaaa", false);
  ("", "aaaaabaa", true);
  ("", "aa", true);
  ("", "abaabaaa", true);
  ("", "aab", true);
  ("b", "bbbab", true);
  ("baa", "bb", false);
  ("a", "baaba", false);
  ("b", "", false);
  ("b", "babbabba", true);
  ("a", "aaaabb", true);
  ("ba", "bbbba", false);
  ("", "a", true);
  ("ba", "aababaab", false);
  ("a", "b", false);
  ("", "baaa", true);
  ("", "bbb", true);
  ("a", "bbbbabbb", false);
  ("aa", "abbbb", false);
  ("b", "abbabbab", false);
  ("aa", "abbbabba", false);
  ("bab", "a", false);
  ("", "baabab", true);
  ("b", "ab", false);
  ("ab", "a", false);
  ("a", "abaa", true);
  ("bb", "aabba", false);
  ("a", "baa", false);
  ("bab", "bb", false);
  ("bbb", "ababbbb", false);
  ("aa", "baabbbaa", false);
  ("", "abaabb", true);
  ("a", "bbbaa", false);
  ("abb", "baab", false);
  ("ba", "", false);
  ("ab", "aabba", false);
  ("a", "bbabaaa", false);
  ("ab", "baabb", false);
  ("ab", "aaabbbb", false);
  ("aab", "ababbabb", false);
  ("bbb", "baaabaaa", false);
  ("", "", true);
  ("aa", "aaaba", true);
  ("a", "baba", false);
  ("", "babba", true);
  ("", "bb", true);
  ("", "abbaaab", true);
  ("", "b", true)].
Lemma ok_startswith : forallb (fun v => match v with (p, s, r) => Bool.eqb (startswith p s) r end) v_startswith = true.
Proof. vm_compute. reflexivity. Qed.

(** [s.endswith(p)] *)
Definition v_endswith : list (string * string * bool) := [
  ("", "a", true);
  ("aaa", "babbbaa", false);
  ("aa", "aabbabb", false);
  ("b", "babbab", true);
  ("", "abbaa", true);
  ("a", "abbbbbb", false);
  ("aa", "bab", false);
  ("ab", "ba", false);
  ("b", "babbbaa", false);
  ("abb", "aabbbb", false);
  ("aa", "aab", false);
  ("a", "ab", false);
  ("abb", "bbaba", false);
  ("baa", "", false);
  ("", "aa", true);
  ("a", "b", false);
  ("aba", "", false);
  ("bb", "aabb", true);
  ("ba", "aabaaab", false);
  ("b", "ba", false);
  ("b", "a", false);
  ("a", "aabb", false);
  ("aaa", "abba", false);
  ("", "aab", true);
  ("ba", "baabbbbb", false);
  ("ba", "b", false);
  ("aab", "bb", false);
  ("a", "abaaab", false);
  ("b", "", false);
  ("bbb", "aabab", false);
  ("a", "a", true);
  ("", "b", true);
  ("", "bbaa", true);
  ("", "baa", true);
  ("", "aaabb", true);
  ("", "bbabbaa", true);
  ("aba", "aab", false);
  ("ba", "babaabb", false);
  ("b", "baa", false);
  ("ab", "abaa", false);
  ("aaa", "aabaab", false);
  ("bbb", "", false);
  ("aab", "abbaa", false);
  ("", "babbbb", true);
  ("abb", "b", false);
  ("bab", "bbaaabb", false);
  ("aaa", "a", false);
  ("", "baaaa", true);
  ("aa", "bba", false);
  ("bab", "bbabbab", true);
  ("", "", true);
  ("aba", "aa", false);
  ("aba", "bbbba", false);
  ("baa", "bb", false);
  ("bb", "baaababb", true);
  ("abb", "aabaa", false);
  ("abb", "babbbbb", false);
  ("ab", "baa", false);
  ("ba", "ab", false);
  ("b", "aabaa", false)].
Lemma ok_endswith : forallb (fun v => match v with (p, s, r) => Bool.eqb (endswith p s) r end) v_endswith = true.
Proof. vm_compute. reflexivity. Qed.

(** [p in s] *)
Definition v_contains : list (string * string * bool) := [
  ("aa", "bbabbb", false);
  ("aaa", "", false);
  ("bab", "", false);
  ("bb", "ab", false);
  ("aa", "aaaaabb", true);
  ("bab", "abba", false);
  ("a", "baaaa", true);
  ("", "ba", true);
  ("baa", "aabb", false);
  ("", "", true);
  ("", "a", true);
  ("aa", "", false);
  ("baa", "aaaba", false);
  ("", "bbba", true);
  ("", "aabab", true);
  ("", "bbaababb", true);
  ("abb", "", false);
  ("b", "", false);
  ("abb", "baabbaa", true);
  ("", "bbb", true);
  ("", "bbbaab", true);
  ("a", "ababbb", true);
  ("", "aabba", true);
  ("b", "aaab", true);
  ("", "baaaba", true);
  ("a", "babbab", true);
  ("b", "aababab", true);
  ("ab", "abaa", true);
  ("aaa", "aa", false);
  ("bb", "aababbab", true);
  ("ab", "bb", false);
  ("", "aabaabb", true);
  ("", "baaaaaaa", true);
  ("", "bbbbabb", true);
  ("", "bab", true);
  ("", "aaab", true);
  ("a", "aabbbabb", true);
  ("a", "a", true);
  ("aab", "aaaaba", true);
  ("b", "abaa", true);
  ("", "baabba", true);
  ("ba", "baaabba", true);
  ("a", "bb", false);
  ("ba", "b", false);
  ("", "bbabbaba", true);
  ("aba", "baabbaa", false);
  ("bba", "bbbababa", true);
  ("b", "bbabaaaa", true);
  ("a", "bbab", true);
  ("", "b", true);
  ("", "abaaa", true);
  ("", "baaabab", true);
  ("bab", "aba", false);
  ("aaa", "ababbbab", false);
  ("b", "bbb", true);
  ("", "abbbb", true);
  ("aaa", "bbbaabab", false);
  ("", "bbabbbaa", true);
  ("", "baaa", true);
  ("", "babbaa", true)].
Lemma ok_contains : forallb (fun v => match v with (p, s, r) => Bool.eqb (contains p s) r end) v_contains = true.
Proof. vm_compute. reflexivity. Qed.

(** [c in s] *)
Definition v_has_char : list (ascii * string * bool) := [
  ("a"%char, "__b", false);
  ("_"%char, "b_b", true);
  ("a"%char, "", false);
  ("b"%char, "", false);
  ("b"%char, "b_", true);
  ("a"%char, "a", true);
  ("b"%char, "_a_", false);
  ("_"%char, "_b_a", true);
  ("a"%char, "aa_", true);
  ("_"%char, "__bb", true);
  ("_"%char, "__", true);
  ("_"%char, "a_b", true);
  ("a"%char, "bb", false);
  ("b"%char, "bbb_", true);
  ("a"%char, "aab_", true);
  ("_"%char, "_", true);
  ("_"%char, "a_a", true);
  ("a"%char, "a_b_", true);
  ("b"%char, "__a_", false);
  ("b"%char, "__ab", true);
  ("a"%char, "a_b", true);
  ("a"%char, "_ab", true);
  ("b"%char, "bab", true);
  ("a"%char, "bbab", true);
  ("a"%char, "_a_", true);
  ("b"%char, "bbab", true);
  ("a"%char, "aba_", true);
  ("a"%char, "_b", false);
  ("_"%char, "", false);
  ("b"%char, "ba", true);
  ("b"%char, "bb_b", true);
  ("_"%char, "_ab_", true);
  ("a"%char, "a__b", true);
  ("_"%char, "b", false);
  ("a"%char, "b", false);
  ("_"%char, "_a_", true);
  ("a"%char, "a_aa", true);
  ("_"%char, "ba", false);
  ("_"%char, "aa", false);
  ("_"%char, "_b_", true);
  ("a"%char, "_a", true);
  ("a"%char, "_", false);
  ("b"%char, "b", true);
  ("_"%char, "b_bb", true);
  ("_"%char, "a", false);
  ("a"%char, "b_b", false);
  ("_"%char, "_ab", true);
  ("_"%char, "___b", true);
  ("_"%char, "aa_", true);
  ("b"%char, "_", false);
  ("_"%char, "_bab", true);
  ("_"%char, "aaab", false);
  ("a"%char, "_b_b", false);
  ("a"%char, "ba", true);
  ("_"%char, "abaa", false);
  ("b"%char, "baa", true);
  ("b"%char, "ab", true);
  ("a"%char, "aba", true);
  ("a"%char, "b_a", true);
  ("a"%char, "ba_", true)].
Lemma ok_has_char : forallb (fun v => match v with (c, s, r) => Bool.eqb (has_char c s) r end) v_has_char = true.
Proof. vm_compute. reflexivity. Qed.

(** [s.count(c)] *)
Definition v_count : list (ascii * string * nat) := [
  ("_"%char, "___ab", 3);
  ("b"%char, "_bbabb", 4);
  ("b"%char, "a_b_b_", 2);
  ("_"%char, "_baaaa_", 2);
  ("a"%char, "a", 1);
  ("b"%char, "", 0);
  ("b"%char, "_ba_a_a_", 1);
  ("b"%char, "a", 0);
  ("b"%char, "aba", 1);
  ("b"%char, "_", 0);
  ("b"%char, "_a", 0);
  ("b"%char, "aab", 1);
  ("a"%char, "abab", 2);
  ("a"%char, "aa_", 2);
  ("a"%char, "aaa", 3);
  ("a"%char, "aa", 2);
  ("_"%char, "", 0);
  ("_"%char, "bab", 0);
  ("_"%char, "__bb", 2);
  ("b"%char, "bbba_bab", 5);
  ("_"%char, "_", 1);
  ("_"%char, "__a_aaa", 3);
  ("_"%char, "aaab_abb", 1);
  ("a"%char, "_b__a__", 1);
  ("_"%char, "b_a", 1);
  ("_"%char, "aab__", 2);
  ("a"%char, "a__a_", 2);
  ("b"%char, "babba_", 3);
  ("_"%char, "a", 0);
  ("_"%char, "a_aab", 1);
  ("_"%char, "__", 2);
  ("b"%char, "bba_aa__", 2);
  ("_"%char, "b__", 2);
  ("a"%char, "___babb", 1);
  ("_"%char, "_abbba", 1);
  ("_"%char, "a___a", 3);
  ("_"%char, "_b_a_", 3);
  ("_"%char, "__aaa", 2);
  ("a"%char, "_", 0);
  ("b"%char, "ba_aaba", 2);
  ("b"%char, "ab__ab", 2);
  ("a"%char, "", 0);
  ("a"%char, "a__b", 1);
  ("b"%char, "b_a_", 1);
  ("b"%char, "__", 0);
  ("_"%char, "bba_a_", 2);
  ("_"%char, "a_ab", 1);
  ("b"%char, "aaaa__a", 0);
  ("_"%char, "aa", 0);
  ("a"%char, "ba", 1);
  ("_"%char, "bbbbba", 0);
  ("_"%char, "bbabb", 0);
  ("a"%char, "ba_", 1);
  ("_"%char, "_baa___b", 4);
  ("_"%char, "a__b_", 3);
  ("_"%char, "a_", 1);
  ("b"%char, "a_", 0);
  ("b"%char, "_abbbbaa", 4);
  ("b"%char, "abbaa_ab", 3);
  ("b"%char, "a_aab", 1)].
Lemma ok_count : forallb (fun v => match v with (c, s, r) => Nat.eqb (count_char c s) r end) v_count = true.
Proof. vm_compute. reflexivity. Qed.

(** [s.replace(a, b)] *)
Definition v_replace : list (string * string * string * string) := [
  ("bb", "", "aabbaaaaaab", "aaaaaaaab");
  ("aaa", "", "aaaab", "ab");
  ("bb", "cc", "", "");
  ("a", "ab", "baab", "bababb");
  ("aaa", "b", "aa", "aa");
  ("bba", "bc", "aaaaba", "aaaaba");
  ("bb", "", "aaaaaab", "aaaaaab");
  ("ab", "a", "abbaa", "abaa");
  ("ba", "b", "aaa", "aaa");
  ("a", "bb", "ab", "bbb");
  ("b", "", "bbaba", "aa");
  ("bab", "ac", "bab", "ac");
  ("a", "c", "", "");
  ("b", "a", "", "");
  ("ab", "", "baabbaaaaa", "babaaaaa");
  ("aba", "", "baa", "baa");
  ("b", "", "babbba", "aa");
  ("a", "", "baabaab", "bbb");
  ("aa", "a", "abbbbbbab", "abbbbbbab");
  ("bba", "cc", "ab", "ab");
  ("abb", "bb", "aaa", "aaa");
  ("ba", "a", "aaabbaababb", "aaabaaabb");
  ("ab", "b", "aaababaab", "aabbab");
  ("bb", "b", "baabbbbbabb", "baabbbab");
  ("aaa", "", "b", "b");
  ("b", "", "bbbbabbbba", "aa");
  ("bab", "bc", "aaabbaa", "aaabbaa");
  ("bb", "cb", "aab", "aab");
  ("ab", "b", "", "");
  ("bba", "", "ba", "ba");
  ("aa", "b", "", "");
  ("ba", "a", "baaaabaaaa", "aaaaaaaa");
  ("a", "c", "abaabb", "cbccbb");
  ("a", "cc", "ababaaa", "ccbccbcccccc");
  ("a", "ca", "ba", "bca");
  ("aab", "", "babaa", "babaa");
  ("b", "", "bbabab", "aa");
  ("bab", "", "babbbbabb", "bbb");
  ("aaa", "cb", "abbaa", "abbaa");
  ("a", "", "aaababaab", "bbb");
  ("b", "", "abaaaba", "aaaaa");
  ("b", "", "bbabb", "a");
  ("aba", "a", "babbbbaaba", "babbbbaa");
  ("a", "", "abaabba", "bbb");
  ("aaa", "c", "bbabbaaabab", "bbabbcbab");
  ("bba", "", "b", "b");
  ("aba", "ac", "baabaabbbaa", "baacabbbaa");
  ("b", "a", "bbbaababbb", "aaaaaaaaaa");
  ("a", "c", "ab", "cb");
  ("b", "", "bbaababbaba", "aaaaa");
  ("ab", "c", "abaabaa", "cacaa");
  ("aa", "bb", "abbababbaaa", "abbababbbba");
  ("b", "c", "babaaaab", "cacaaaac");
  ("aaa", "cc", "abab", "abab");
  ("bb", "bb", "aabbbbaa", "aabbbbaa");
  ("aa", "c", "bb", "bb");
  ("bbb", "", "bbabbb", "bba");
  ("a", "", "abbabbbabb", "bbbbbbb");
  ("a", "", "aaabbbbaab", "bbbbb");
  ("aa", "", "abbbaaaabaa", "abbbb");
  ("b", "b", "a", "a");
  ("b", "b", "abbbbbbaa", "abbbbbbaa");
  ("b", "aa", "aaabaababb", "aaaaaaaaaaaaaa");
  ("b", "", "", "");
  ("b", "", "bababaaabab", "aaaaaa");
  ("aab", "", "bbbbabaa", "bbbbabaa");
  ("b", "", "bbaaba", "aaa");
  ("b", "", "abbaaabbb", "aaaa");
  ("b", "a", "bababbaaaba", "aaaaaaaaaaa");
  ("abb", "ab", "aaabbba", "aaabba");
  ("aa", "b", "abababab", "abababab");
  ("ba", "", "aba", "a");
  ("aa", "ba", "babab", "babab");
  ("baa", "b", "ababbb", "ababbb");
  ("b", "b", "bab", "bab");
  ("aa", "ac", "", "");
  ("aba", "cb", "bbbabababba", "bbbcbbabba");
  ("bb", "b", "aabab", "aabab");
  ("b", "c", "aaaaabaaaa", "aaaaacaaaa");
  ("b", "", "aaaa", "aaaa");
  ("abb", "", "abbb", "b");
  ("a", "", "ab", "b");
  ("bab", "cb", "abbaba", "abcba");
  ("aab", "b", "abbaa", "abbaa");
  ("aa", "c", "bbb", "bbb");
  ("aa", "", "ababaaab", "ababab");
  ("baa", "a", "aaabababbbb", "aaabababbbb");
  ("bb", "", "baabbaaab", "baaaaab");
  ("a", "ac", "abaab", "acbacacb");
  ("a", "", "abbbabaab", "bbbbb");
  ("baa", "a", "abaaaabaaa", "aaaaaa");
  ("ba", "b", "baababbbaaa", "babbbbaa");
  ("ab", "bb", "a", "a");
  ("abb", "cb", "bababaaaba", "bababaaaba");
  ("bbb", "cb", "abb", "abb");
  ("bab", "c", "aaaaaabab", "aaaaaac");
  ("b", "aa", "abaabbabb", "aaaaaaaaaaaaaa");
  ("baa", "b", "bbbbaba", "bbbbaba");
  ("aaa", "b", "aabab", "aabab");
  ("b", "a", "ab", "aa");
  ("ba", "c", "ba", "c");
  ("aa", "aa", "", "");
  ("aa", "aa", "babbaaab", "babbaaab");
  ("ba", "c", "bbbba", "bbbc");
  ("a", "c", "ababa", "cbcbc");
  ("abb", "ab", "aabbba", "aabba");
  ("aa", "c", "abababbb", "abababbb");
  ("abb", "b", "bba", "bba");
  ("ba", "c", "b", "b");
  ("bab", "a", "a", "a");
  ("b", "ba", "aababb", "aabaababa");
  ("bab", "", "aabba", "aabba");
  ("bb", "", "ba", "ba");
  ("aab", "b", "babaabaaaab", "babbaab");
  ("aa", "a", "aba", "aba");
  ("bab", "", "aabb", "aabb");
  ("bb", "a", "aababb", "aabaa");
  ("bb", "", "abaaaaabbbb", "abaaaaa");
  ("aa", "ac", "aabaabba", "acbacbba");
  ("a", "", "baaaab", "bb")].
Lemma ok_replace : forallb (fun v => match v with (a, b, s, r) => String.eqb (replace a b s) r end) v_replace = true.
Proof. vm_compute. reflexivity. Qed.

(** [s.replace(c, d)] *)
Definition v_replace_char : list (ascii * ascii * string * string) := [
  ("b"%char, "_"%char, "b:", "_:");
  ("a"%char, "_"%char, "::__aa_a", "::______");
  (":"%char, "a"%char, "abba_", "abba_");
  ("a"%char, "a"%char, "aaa", "aaa");
  ("b"%char, "a"%char, "___aa:b", "___aa:a");
  (":"%char, "_"%char, "b:", "b_");
  ("b"%char, "b"%char, "ab", "ab");
  ("b"%char, "a"%char, "ab::a", "aa::a");
  ("b"%char, "a"%char, "", "");
  ("b"%char, "_"%char, "bb:", "__:");
  ("a"%char, "b"%char, ":_baa:", ":_bbb:");
  (":"%char, "b"%char, ":", "b");
  (":"%char, "a"%char, "aa_::bb", "aa_aabb");
  ("b"%char, "b"%char, "__:", "__:");
  ("b"%char, "a"%char, "b__a:::_", "a__a:::_");
  ("a"%char, "b"%char, ":_::", ":_::");
  ("a"%char, "_"%char, "aa_:ba", "___:b_");
  ("b"%char, "a"%char, "_b:", "_a:");
  ("b"%char, "b"%char, ":aa:a", ":aa:a");
  ("b"%char, "a"%char, "_", "_");
  ("a"%char, "b"%char, ":aa", ":bb");
  ("b"%char, "b"%char, "", "");
  ("a"%char, "b"%char, "a", "b");
  ("a"%char, "_"%char, ":__", ":__");
  ("b"%char, "_"%char, "_a_b_", "_a___");
  ("a"%char, "_"%char, "_a", "__");
  ("b"%char, "a"%char, "b:___:a_", "a:___:a_");
  ("a"%char, "a"%char, "_", "_");
  ("b"%char, "b"%char, ":b:a::ab", ":b:a::ab");
  ("b"%char, "a"%char, "::__a_", "::__a_");
  ("b"%char, "_"%char, "::_:a_b", "::_:a__");
  (":"%char, "a"%char, "_b::ab_", "_baaab_");
  (":"%char, "b"%char, "", "");
  ("a"%char, "a"%char, "::a_a", "::a_a");
  (":"%char, "_"%char, "_baab", "_baab");
  ("a"%char, "_"%char, "", "");
  ("b"%char, "a"%char, "ba:a:___", "aa:a:___");
  ("b"%char, "a"%char, "bba_a", "aaa_a");
  ("b"%char, "_"%char, "aaa_", "aaa_");
  ("b"%char, "b"%char, "b", "b");
  (":"%char, "_"%char, ":b::_b", "_b___b");
  ("a"%char, "b"%char, "baba", "bbbb");
  (":"%char, "a"%char, "abb:_", "abba_");
  ("b"%char, "_"%char, "_a", "_a");
  (":"%char, "a"%char, ":b__b:a", "ab__baa");
  ("a"%char, "_"%char, "b:_", "b:_");
  (":"%char, "_"%char, "::", "__");
  ("b"%char, "a"%char, "a_:a_a", "a_:a_a");
  ("b"%char, "a"%char, ":a:_", ":a:_");
  ("b"%char, "_"%char, "", "");
  ("b"%char, "b"%char, "a_ba__aa", "a_ba__aa");
  (":"%char, "_"%char, ":a", "_a");
  ("b"%char, "a"%char, "b_ba_ba", "a_aa_aa");
  (":"%char, "a"%char, ":a", "aa");
  ("b"%char, "a"%char, "b", "a");
  (":"%char, "_"%char, "ba", "ba");
  ("a"%char, "a"%char, "::bb:", "::bb:");
  ("b"%char, "a"%char, "ba:___a", "aa:___a");
  (":"%char, "a"%char, "__bb", "__bb");
  ("a"%char, "_"%char, "_", "_")].
Lemma ok_replace_char : forallb (fun v => match v with (a, b, s, r) => String.eqb (replace_char a b s) r end) v_replace_char = true.
Proof. vm_compute. reflexivity. Qed.

(** [s.split(p)] *)
Definition v_split : list (string * string * list string) := [
  ("ba", "bb", ["bb"]);
  ("aba", "c", ["c"]);
  ("bb", "aab", ["aab"]);
  ("bb", "", [""]);
  ("b", "acbb", ["ac"; ""; ""]);
  ("a", "baaaa", ["b"; ""; ""; ""; ""]);
  ("abb", "abaccabbac", ["abacc"; "ac"]);
  ("aab", "bbabbcaaac", ["bbabbcaaac"]);
  ("a", "cbcbaba", ["cbcb"; "b"; ""]);
  ("bab", "bc", ["bc"]);
  ("a", "bcc", ["bcc"]);
  ("a", "abbbababba", [""; "bbb"; "b"; "bb"; ""]);
  ("ba", "c", ["c"]);
  ("aa", "ccaa", ["cc"; ""]);
  ("bab", "cbb", ["cbb"]);
  ("ba", "bcca", ["bcca"]);
  ("b", "cb", ["c"; ""]);
  ("ab", "cccbccabca", ["cccbcc"; "ca"]);
  ("abb", "bccbba", ["bccbba"]);
  ("ba", "ba", [""; ""]);
  ("a", "bcacabbccb", ["bc"; "c"; "bbccb"]);
  ("bb", "cbc", ["cbc"]);
  ("a", "", [""]);
  ("b", "ca", ["ca"]);
  ("aa", "aaaccbabb", [""; "accbabb"]);
  ("b", "baab", [""; "aa"; ""]);
  ("aa", "cbbb", ["cbbb"]);
  ("aab", "cbcaaac", ["cbcaaac"]);
  ("b", "aaccbacacc", ["aacc"; "acacc"]);
  ("b", "ccc", ["ccc"]);
  ("b", "bcabaacbb", [""; "ca"; "aac"; ""; ""]);
  ("bb", "c", ["c"]);
  ("a", "cbaabcbc", ["cb"; ""; "bcbc"]);
  ("aba", "cbb", ["cbb"]);
  ("a", "bcaaba", ["bc"; ""; "b"; ""]);
  ("ba", "baacaaaacc", [""; "acaaaacc"]);
  ("a", "acbbacbabcb", [""; "cbb"; "cb"; "bcb"]);
  ("aa", "", [""]);
  ("aab", "abaac", ["abaac"]);
  ("a", "aabccbac", [""; ""; "bccb"; "c"]);
  ("ba", "abccababa", ["abcca"; ""; ""]);
  ("aa", "a", ["a"]);
  ("a", "aaaccbcca", [""; ""; ""; "ccbcc"; ""]);
  ("bba", "aaacabbaabb", ["aaaca"; "abb"]);
  ("b", "acba", ["ac"; "a"]);
  ("a", "bbaca", ["bb"; "c"; ""]);
  ("b", "bbcbcbbc", [""; ""; "c"; "c"; ""; "c"]);
  ("bbb", "baabcbaa", ["baabcbaa"]);
  ("bba", "acb", ["acb"]);
  ("b", "bca", [""; "ca"]);
  ("ab", "abaac", [""; "aac"]);
  ("b", "aacbbaabaab", ["aac"; ""; "aa"; "aa"; ""]);
  ("abb", "bbcaabc", ["bbcaabc"]);
  ("bb", "cbb", ["c"; ""]);
  ("aa", "c", ["c"]);
  ("ba", "", [""]);
  ("aba", "caa", ["caa"]);
  ("b", "acccc", ["acccc"]);
  ("bab", "acbbcbccb", ["acbbcbccb"]);
  ("aa", "ccabab", ["ccabab"]);
  ("aa", "bbccac", ["bbccac"]);
  ("b", "cc", ["cc"]);
  ("a", "cabcab", ["c"; "bc"; "b"]);
  ("bb", "b", ["b"]);
  ("b", "aaaaab", ["aaaaa"; ""]);
  ("a", "ababbaa", [""; "b"; "bb"; ""; ""]);
  ("aa", "cbacb", ["cbacb"]);
  ("bab", "acbaaba", ["acbaaba"]);
  ("abb", "abcaabacbc", ["abcaabacbc"]);
  ("bb", "ccbab", ["ccbab"]);
  ("aa", "bb", ["bb"]);
  ("bbb", "acaa", ["acaa"]);
  ("aba", "cabacaacaa", ["c"; "caacaa"]);
  ("bbb", "acbbabcbc", ["acbbabcbc"]);
  ("aa", "cbccababbca", ["cbccababbca"]);
  ("ab", "acca", ["acca"]);
  ("aba", "", [""]);
  ("ba", "cba", ["c"; ""]);
  ("aab", "ccbc", ["ccbc"]);
  ("bb", "acaacacaa", ["acaacacaa"]);
  ("bb", "accbbbccaa", ["acc"; "bccaa"]);
  ("a", "ccaaaba", ["cc"; ""; ""; "b"; ""]);
  ("abb", "cbcc", ["cbcc"]);
  ("ab", "cbababaccb", ["cb"; ""; "accb"]);
  ("bbb", "cbaa", ["cbaa"]);
  ("bab", "acba", ["acba"]);
  ("bba", "bbbabac", ["b"; "bac"]);
  ("bab", "", [""]);
  ("bba", "ccbaaca", ["ccbaaca"]);
  ("b", "babbbcabba", [""; "a"; ""; ""; "ca"; ""; "a"]);
  ("b", "babc", [""; "a"; "c"]);
  ("b", "c", ["c"]);
  ("a", "acca", [""; "cc"; ""]);
  ("bba", "bccc", ["bccc"]);
  ("ab", "bc", ["bc"]);
  ("ab", "acab", ["ac"; ""]);
  ("b", "cccacbbbc", ["cccac"; ""; ""; "c"]);
  ("b", "aaaaaccbbab", ["aaaaacc"; ""; "a"; ""]);
  ("ab", "ccaabc", ["cca"; "c"]);
  ("b", "bbcbbabbacb", [""; ""; "c"; ""; "a"; ""; "ac"; ""]);
  ("a", "babcba", ["b"; "bcb"; ""]);
  ("ba", "cbb", ["cbb"]);
  ("bb", "caaaab", ["caaaab"]);
  ("b", "", [""]);
  ("a", "aaacbaca", [""; ""; ""; "cb"; "c"; ""]);
  ("b", "abcb", ["a"; "c"; ""]);
  ("aa", "aab", [""; "b"]);
  ("aab", "cacbccca", ["cacbccca"]);
  ("ab", "baaaa", ["baaaa"]);
  ("bb", "cbbaaaccabb", ["c"; "aaacca"; ""]);
  ("a", "bcacccbaacc", ["bc"; "cccb"; ""; "cc"]);
  ("b", "ba", [""; "a"]);
  ("bba", "ccbbbb", ["ccbbbb"]);
  ("b", "aaabab", ["aaa"; "a"; ""]);
  ("aa", "cacaabb", ["cac"; "bb"]);
  ("baa", "", [""]);
  ("ab", "aaaa", ["aaaa"]);
  ("abb", "baccacc", ["baccacc"]);
  ("a", "cbabaabbbcc", ["cb"; "b"; ""; "bbbcc"]);
  ("ba", "aca", ["aca"])].
Lemma ok_split : forallb (fun v => match v with (p, s, r) => same_list (split p s) r end) v_split = true.
Proof. vm_compute. reflexivity. Qed.

(** [re.split(', ?', s)] *)
Definition v_re_comma : list (string * list string) := [
  ("a,", ["a"; ""]);
  ("  BBa a,", ["  BBa a"; ""]);
  (",aB,  ", [""; "aB"; " "]);
  ("", [""]);
  (",,a", [""; ""; "a"]);
  (",BB,, ", [""; "BB"; ""; ""]);
  ("B,B,", ["B"; "B"; ""]);
  (",", [""; ""]);
  (",a ", [""; "a "]);
  ("B", ["B"]);
  (" aBBaB,aB", [" aBBaB"; "aB"]);
  ("BBB  a", ["BBB  a"]);
  ("  aB B,,", ["  aB B"; ""; ""]);
  (",  ", [""; " "]);
  ("a, ,", ["a"; ""; ""]);
  (",aa,", [""; "aa"; ""]);
  ("a ,,    ,", ["a "; ""; "   "; ""]);
  ("a", ["a"]);
  (",BaB B,", [""; "BaB B"; ""]);
  ("Baa,aa", ["Baa"; "aa"]);
  (" , B", [" "; "B"]);
  ("B BB BB", ["B BB BB"]);
  ("aB ,", ["aB "; ""]);
  ("BB,aB ", ["BB"; "aB "]);
  (" ", [" "]);
  (",B,B", [""; "B"; "B"]);
  ("Ba", ["Ba"]);
  ("BB,aB,", ["BB"; "aB"; ""]);
  ("B, BB,", ["B"; "BB"; ""]);
  ("aB B , ,B", ["aB B "; ""; "B"]);
  (",,,", [""; ""; ""; ""]);
  (" BaBBBBa", [" BaBBBBa"]);
  (" ,aBa,", [" "; "aBa"; ""]);
  ("BaB", ["BaB"]);
  ("aaaa", ["aaaa"]);
  ("  ,a a", ["  "; "a a"]);
  ("a    a,, ", ["a    a"; ""; ""]);
  (",B,aBBB", [""; "B"; "aBBB"]);
  (",,, ,BBa,", [""; ""; ""; ""; "BBa"; ""]);
  (",a aaaB", [""; "a aaaB"]);
  ("a a , ", ["a a "; ""]);
  (",aaBB,,,a", [""; "aaBB"; ""; ""; "a"]);
  ("B , Ba a", ["B "; "Ba a"]);
  (",,,BB a", [""; ""; ""; "BB a"]);
  (" , aa", [" "; "aa"]);
  ("  B, aa a", ["  B"; "aa a"]);
  (" aa,BB", [" aa"; "BB"]);
  (" B ,,", [" B "; ""; ""]);
  (", B ", [""; "B "]);
  ("aB", ["aB"]);
  ("a  aaB,B", ["a  aaB"; "B"]);
  (" B", [" B"]);
  ("Baaa", ["Baaa"]);
  (", BB , B ", [""; "BB "; "B "]);
  ("BBBB,aaa,", ["BBBB"; "aaa"; ""]);
  (",a,  a", [""; "a"; " a"]);
  ("B,B,B B, ", ["B"; "B"; "B B"; ""]);
  ("B,", ["B"; ""]);
  ("BB B BB", ["BB B BB"]);
  ("aBa,,BB", ["aBa"; ""; "BB"]);
  ("a aB", ["a aB"]);
  (" a,  a,, ", [" a"; " a"; ""; ""]);
  ("B,,      ", ["B"; ""; "     "]);
  (" a,,BBa", [" a"; ""; "BBa"]);
  (",aBB", [""; "aBB"]);
  (",,,, ,  ", [""; ""; ""; ""; ""; " "]);
  ("Baaaa,  ", ["Baaaa"; " "]);
  ("aBBaB ", ["aBBaB "]);
  (" a aBBBa", [" a aBBBa"]);
  ("a ,a", ["a "; "a"]);
  ("BB,  a aa", ["BB"; " a aa"]);
  (", , B", [""; ""; "B"]);
  (",aa,a,aa", [""; "aa"; "a"; "aa"]);
  ("aaaa,Ba", ["aaaa"; "Ba"]);
  ("B,B,a Ba", ["B"; "B"; "a Ba"]);
  ("B,,B, ,", ["B"; ""; "B"; ""; ""]);
  ("a, a B,", ["a"; "a B"; ""]);
  (",a,aa", [""; "a"; "aa"]);
  ("B,, ", ["B"; ""; ""]);
  ("  aB,,,", ["  aB"; ""; ""; ""]);
  (",,a, a, ", [""; ""; "a"; "a"; ""]);
  ("Baa,aB", ["Baa"; "aB"]);
  (" ,,aB ", [" "; ""; "aB "]);
  (", aB ,  ", [""; "aB "; " "]);
  ("BBaBa, ", ["BBaBa"; ""]);
  ("  B  B  ", ["  B  B  "]);
  (" B B", [" B B"]);
  (",, ,B", [""; ""; ""; "B"]);
  (",aaa", [""; "aaa"]);
  ("aB ", ["aB "]);
  (",aBBBB", [""; "aBBBB"]);
  (" ,a,a,B ", [" "; "a"; "a"; "B "]);
  ("  aa,a  a", ["  aa"; "a  a"]);
  (" a", [" a"]);
  (" BBaa,BB", [" BBaa"; "BB"]);
  ("B   ", ["B   "]);
  (" Ba a B,", [" Ba a B"; ""]);
  ("Ba,, a", ["Ba"; ""; "a"]);
  ("BBa  aB, ", ["BBa  aB"; ""]);
  (",,, B,,", [""; ""; ""; "B"; ""; ""]);
  ("a Ba,B", ["a Ba"; "B"]);
  ("Ba ,    ", ["Ba "; "   "]);
  ("a,aB,,a", ["a"; "aB"; ""; "a"]);
  ("a, ,B", ["a"; ""; "B"]);
  (" B  ", [" B  "]);
  (" Ba,B B ,", [" Ba"; "B B "; ""]);
  (", a,BBaB,", [""; "a"; "BBaB"; ""]);
  (" ,B,,B", [" "; "B"; ""; "B"]);
  ("Baa ", ["Baa "]);
  (",aBa", [""; "aBa"]);
  ("B a", ["B a"]);
  (" ,a ", [" "; "a "]);
  (" a ,, ,", [" a "; ""; ""; ""]);
  (",,B,B ", [""; ""; "B"; "B "]);
  (" B a,a,,", [" B a"; "a"; ""; ""]);
  ("B,a,BB, ,", ["B"; "a"; "BB"; ""; ""]);
  (" , a BB", [" "; "a BB"]);
  (", ,", [""; ""; ""]);
  ("   ,,B, ", ["   "; ""; "B"; ""]);
  (" ,a a,B", [" "; "a a"; "B"])].
Lemma ok_re_comma : forallb (fun v => match v with (s, r) => same_list (re_split_comma s) r end) v_re_comma = true.
Proof. vm_compute. reflexivity. Qed.

(** [re.split(', ?| ', s)] *)
Definition v_re_comma_space : list (string * list string) := [
  ("aB a", ["aB"; "a"]);
  ("a,Baa", ["a"; "Baa"]);
  ("a BaB,  ", ["a"; "BaB"; ""; ""]);
  (" ", [""; ""]);
  (",", [""; ""]);
  ("Baa,B", ["Baa"; "B"]);
  (",  B ", [""; ""; "B"; ""]);
  (",aB,B", [""; "aB"; "B"]);
  ("BBaBaB,,a", ["BBaBaB"; ""; "a"]);
  (", ,a", [""; ""; "a"]);
  ("aB", ["aB"]);
  ("", [""]);
  (" a,, , B", [""; "a"; ""; ""; "B"]);
  (",,B ", [""; ""; "B"; ""]);
  ("B", ["B"]);
  (" a", [""; "a"]);
  ("BaB,a", ["BaB"; "a"]);
  ("aaBBB,, ", ["aaBBB"; ""; ""]);
  ("a,BaB,  ", ["a"; "BaB"; ""; ""]);
  ("a ", ["a"; ""]);
  (",aaB,aB", [""; "aaB"; "aB"]);
  ("aBBB a ", ["aBBB"; "a"; ""]);
  (",B", [""; "B"]);
  ("Ba,aB,,a,", ["Ba"; "aB"; ""; "a"; ""]);
  ("a B,, B", ["a"; "B"; ""; "B"]);
  (" BB,,a B", [""; "BB"; ""; "a"; "B"]);
  ("a  B", ["a"; ""; "B"]);
  (",B,a a, B", [""; "B"; "a"; "a"; "B"]);
  (",B,  B", [""; "B"; ""; "B"]);
  ("a,BBa", ["a"; "BBa"]);
  (",B ,,,,", [""; "B"; ""; ""; ""; ""; ""]);
  (" ,B,B ,", [""; ""; "B"; "B"; ""; ""]);
  (" a ,a , ", [""; "a"; ""; "a"; ""; ""]);
  ("aB B", ["aB"; "B"]);
  ("B,aBa", ["B"; "aBa"]);
  (" a,Ba", [""; "a"; "Ba"]);
  (" BBB,BBB", [""; "BBB"; "BBB"]);
  (",,,BBB ", [""; ""; ""; "BBB"; ""]);
  ("BBa,", ["BBa"; ""]);
  ("B,", ["B"; ""]);
  (",aB,", [""; "aB"; ""]);
  ("aBa", ["aBa"]);
  ("BaB,B a", ["BaB"; "B"; "a"]);
  ("Baa a  B", ["Baa"; "a"; ""; "B"]);
  ("BB,", ["BB"; ""]);
  ("a,a", ["a"; "a"]);
  ("   Ba,a,", [""; ""; ""; "Ba"; "a"; ""]);
  ("Ba,  ", ["Ba"; ""; ""]);
  (" ,B a,", [""; ""; "B"; "a"; ""]);
  ("Ba,", ["Ba"; ""]);
  ("BaaB a   ", ["BaaB"; "a"; ""; ""; ""]);
  ("Ba", ["Ba"]);
  ("aB,", ["aB"; ""]);
  (" B", [""; "B"]);
  ("aBB ,", ["aBB"; ""; ""]);
  ("BB, ,", ["BB"; ""; ""]);
  ("a ,B", ["a"; ""; "B"]);
  ("B a,BBa ", ["B"; "a"; "BBa"; ""]);
  ("a,Ba", ["a"; "Ba"]);
  (",a,aa  ", [""; "a"; "aa"; ""; ""]);
  (" a   aa,", [""; "a"; ""; ""; "aa"; ""]);
  ("aa  BB a", ["aa"; ""; "BB"; "a"]);
  (" a,B B B", [""; "a"; "B"; "B"; "B"]);
  ("B, aa", ["B"; "aa"]);
  ("  ", [""; ""; ""]);
  ("aaaBBa,", ["aaaBBa"; ""]);
  ("a, , ", ["a"; ""; ""]);
  ("B,BaBBa", ["B"; "BaBBa"]);
  ("a", ["a"]);
  (" BB", [""; "BB"]);
  ("B,a,", ["B"; "a"; ""]);
  ("a,,  BB ", ["a"; ""; ""; "BB"; ""]);
  ("B a,B", ["B"; "a"; "B"]);
  ("B ,Ba", ["B"; ""; "Ba"]);
  ("B,,a", ["B"; ""; "a"]);
  (",B, aaB", [""; "B"; "aaB"]);
  ("aa aBB  B", ["aa"; "aBB"; ""; "B"]);
  ("a,,", ["a"; ""; ""]);
  (" B B,  ", [""; "B"; "B"; ""; ""]);
  ("a, B,,", ["a"; "B"; ""; ""]);
  (",aB", [""; "aB"]);
  ("a aaaB", ["a"; "aaaB"]);
  ("aa, ,a", ["aa"; ""; "a"]);
  (", aaB ", [""; "aaB"; ""]);
  ("B B  , a,", ["B"; "B"; ""; ""; "a"; ""]);
  (",,,", [""; ""; ""; ""]);
  ("aBB ", ["aBB"; ""]);
  ("BaB,BaB,", ["BaB"; "BaB"; ""]);
  (",a,, ,a", [""; "a"; ""; ""; "a"]);
  ("BaB aa a", ["BaB"; "aa"; "a"]);
  (",aB,   ,", [""; "aB"; ""; ""; ""; ""]);
  (", B", [""; "B"]);
  (" ,  a", [""; ""; ""; "a"]);
  (" B, ", [""; "B"; ""]);
  ("  B", [""; ""; "B"]);
  (",B,BBB", [""; "B"; "BBB"]);
  (",,a,a ", [""; ""; "a"; "a"; ""]);
  (",aBB,", [""; "aBB"; ""]);
  ("B  BB", ["B"; ""; "BB"]);
  (" B,,B B ,", [""; "B"; ""; "B"; "B"; ""; ""]);
  ("aa", ["aa"]);
  ("BB ,", ["BB"; ""; ""]);
  ("B B a", ["B"; "B"; "a"]);
  (",,BB B, ", [""; ""; "BB"; "B"; ""]);
  ("a,,aB,", ["a"; ""; "aB"; ""]);
  (" ,   aa ", [""; ""; ""; ""; "aa"; ""]);
  ("  a B", [""; ""; "a"; "B"]);
  (",B,a ,B ", [""; "B"; "a"; ""; "B"; ""]);
  ("a, ", ["a"; ""]);
  ("BB, ", ["BB"; ""]);
  ("Ba BBB,", ["Ba"; "BBB"; ""]);
  (" a   aa", [""; "a"; ""; ""; "aa"]);
  (" B a,,B", [""; "B"; "a"; ""; "B"]);
  ("BB", ["BB"]);
  ("aB  a,B ", ["aB"; ""; "a"; "B"; ""]);
  ("aBa ,", ["aBa"; ""; ""]);
  (" B,B,a,  ", [""; "B"; "B"; "a"; ""; ""]);
  ("B,Baaa,", ["B"; "Baaa"; ""]);
  (", aBB ,B", [""; "aBB"; ""; "B"]);
  ("B, ", ["B"; ""])].
Lemma ok_re_comma_space : forallb (fun v => match v with (s, r) => same_list (re_split_comma_space s) r end) v_re_comma_space = true.
Proof. vm_compute. reflexivity. Qed.

(** [p.join(l)] *)
Definition v_join : list (string * list string * string) := [
  ("aa", [""; ""; ""], "aaaa");
  (",", ["yy"; "y"], "yy,y");
  ("", ["y"; ""], "y");
  (" ,", ["xy"], "xy");
  ("a", ["y"; "x"; ""], "yaxa");
  ("a", [], "");
  ("", [], "");
  ("aa", [], "");
  ("  ", ["x"], "x");
  (" ", ["x"; ""; "y"], "x  y");
  (",", [], "");
  ("", ["x"; ""; "x"; "y"], "xxy");
  ("a", ["yx"; "yx"; "yy"; "y"], "yxayxayyay");
  ("", [""; ""; "xy"; "x"], "xyx");
  (" ,", ["x"; "yy"; "xx"; "xy"], "x ,yy ,xx ,xy");
  ("a", ["yx"], "yx");
  (" ", ["yx"; ""], "yx ");
  ("", [""; "xy"; ""; ""], "xy");
  ("a", [""; "xx"], "axx");
  ("", [""], "");
  (" ", [], "");
  ("", ["yx"; "x"; "y"], "yxxy");
  (",", [""; "y"; "xx"; ""], ",y,xx,");
  (",", ["yy"; "y"; "x"; "xy"], "yy,y,x,xy");
  ("", ["y"; "xx"; "yx"], "yxxyx");
  ("", ["x"; "xx"; "x"], "xxxx");
  (" ,", [], "");
  ("", [""; "y"; "xy"], "yxy");
  (",,", ["xy"], "xy");
  (",", ["x"; "x"; "yy"; "xy"], "x,x,yy,xy");
  ("", [""; "xx"], "xx");
  ("a", [""; ""; "yy"; "x"], "aayyax");
  (", ", ["y"], "y");
  (" a", ["x"; ""], "x a");
  ("", [""; "xy"; "xx"; "yx"], "xyxxyx");
  ("", [""; "xy"], "xy");
  ("", ["yy"], "yy");
  (" ", ["yy"; "y"; "x"; ""], "yy y x ");
  ("", ["yx"], "yx");
  ("a", [""; ""], "a");
  (",a", [""; ""; ""; "x"], ",a,a,ax");
  ("a", ["yy"; "xy"], "yyaxy");
  ("", ["xy"; ""], "xy");
  (",a", [""], "");
  ("  ", [], "");
  ("", ["y"; "x"], "yx");
  (",a", [""; "xx"; ""], ",axx,a");
  (",", ["x"], "x");
  ("", ["xy"], "xy");
  ("", ["yx"; ""; "y"], "yxy");
  (",", [""; "xx"; ""], ",xx,");
  (" ,", ["x"; "yx"], "x ,yx");
  ("", ["x"; "xy"], "xxy");
  (",", ["x"; ""; "y"; "x"], "x,,y,x");
  (",,", ["yx"; "x"; ""; ""], "yx,,x,,,,");
  (" ,", ["y"; "y"], "y ,y");
  (" a", ["xy"], "xy");
  (" ,", ["yx"; "x"; "yx"; ""], "yx ,x ,yx ,");
  ("", ["x"], "x");
  (",", ["x"; "y"; "y"], "x,y,y")].
Lemma ok_join : forallb (fun v => match v with (p, l, r) => String.eqb (join p l) r end) v_join = true.
Proof. vm_compute. reflexivity. Qed.

(** [s[:s.rindex(c)]] *)
Definition v_before_last : list (ascii * string * option string) := [
  ("_"%char, "aa_bb.", Some ("aa"));
  ("."%char, "_bb", None);
  ("."%char, "_a.aa_a", Some ("_a"));
  ("_"%char, "aaa.a.b", None);
  ("_"%char, ".b..bb", None);
  ("."%char, "", None);
  ("_"%char, "", None);
  ("."%char, "b_._..", Some ("b_._."));
  ("_"%char, "a__.", Some ("a_"));
  ("."%char, "b.", Some ("b"));
  ("."%char, "a", None);
  ("_"%char, ".bba.", None);
  ("."%char, "._a_ab_", Some (""));
  ("_"%char, "b", None);
  ("."%char, "b", None);
  ("_"%char, "_", Some (""));
  ("."%char, ".", Some (""));
  ("."%char, ".._", Some ("."));
  ("."%char, "aaa.._", Some ("aaa."));
  ("."%char, ".b..._", Some (".b.."));
  ("."%char, "baa...", Some ("baa.."));
  ("_"%char, "b___", Some ("b__"));
  ("_"%char, "._a", Some ("."));
  ("_"%char, "___..", Some ("__"));
  ("."%char, ".b", Some (""));
  ("."%char, "_.aa", Some ("_"));
  ("."%char, "ba.", Some ("ba"));
  ("_"%char, "__", Some ("_"));
  ("_"%char, "b.", None);
  ("_"%char, ".a", None);
  ("."%char, "b.__", Some ("b"));
  ("."%char, "__b", None);
  ("_"%char, "_..b", Some (""));
  ("_"%char, "baab", None);
  ("."%char, "a.b_", Some ("a"));
  ("."%char, ".b.._b", Some (".b."));
  ("."%char, "_a___..", Some ("_a___."));
  ("_"%char, "._", Some ("."));
  ("."%char, "._", Some (""));
  ("_"%char, ".b_b_a_", Some (".b_b_a"));
  ("_"%char, "_..a", Some (""));
  ("."%char, "__b.", Some ("__b"));
  ("_"%char, "bb", None);
  ("_"%char, "ab_._bb", Some ("ab_."));
  ("."%char, "..bb_b", Some ("."));
  ("."%char, ".a_._ba", Some (".a_"));
  ("."%char, ".a_.", Some (".a_"));
  ("_"%char, "..", None);
  ("_"%char, ".", None);
  ("_"%char, "b_aa__", Some ("b_aa_"));
  ("_"%char, "_.aaa_", Some ("_.aaa"));
  ("_"%char, "a_ab_a.", Some ("a_ab"));
  ("_"%char, "ba..b", None);
  ("_"%char, "bb_.", Some ("bb"));
  ("."%char, "_bab__.", Some ("_bab__"));
  ("_"%char, "abb", None);
  ("."%char, "aabba_", None);
  ("_"%char, "_..", Some (""));
  ("_"%char, "_a", Some (""));
  ("_"%char, "_a__b", Some ("_a_"))].
Lemma ok_before_last : forallb (fun v => match v with (c, s, r) => same_opt String.eqb (before_last c s) r end) v_before_last = true.
Proof. vm_compute. reflexivity. Qed.

(** [s[s.rfind(c) + 1:]] *)
Definition v_after_last : list (ascii * string * string) := [
  ("."%char, "_aaab__", "_aaab__");
  ("_"%char, "..b.b.b", "..b.b.b");
  ("."%char, "", "");
  ("_"%char, "a__", "");
  ("_"%char, "abba.", "abba.");
  ("_"%char, ".", ".");
  ("_"%char, "bab", "bab");
  ("."%char, "aa", "aa");
  ("."%char, "b_aab", "b_aab");
  ("_"%char, "_ab.", "ab.");
  ("."%char, "a_", "a_");
  ("."%char, "._bb.a_", "a_");
  ("."%char, "a__bb", "a__bb");
  ("_"%char, "a_.aab", ".aab");
  ("."%char, "..", "");
  ("."%char, "a", "a");
  ("."%char, "_", "_");
  ("_"%char, "aa_b", "b");
  ("."%char, "__b", "__b");
  ("_"%char, "", "");
  ("."%char, "a.aa.b", "b");
  ("_"%char, "ba.aaab", "ba.aaab");
  ("."%char, "__bab", "__bab");
  ("_"%char, "a._.", ".");
  ("."%char, ".", "");
  ("_"%char, "__b..a_", "");
  ("."%char, "_.", "");
  ("_"%char, "_", "");
  ("."%char, ".b", "b");
  ("_"%char, "b", "b");
  ("_"%char, "__", "");
  ("_"%char, "_.bb", ".bb");
  ("_"%char, "aabaa_", "");
  ("."%char, "___ab_", "___ab_");
  ("_"%char, "a_b.", "b.");
  ("."%char, ".a.bbb.", "");
  ("."%char, "bb_b", "bb_b");
  ("."%char, ".ba_a", "ba_a");
  ("."%char, "baba", "baba");
  ("."%char, "bb._.", "");
  ("."%char, "._a", "_a");
  ("."%char, "____b__", "____b__");
  ("_"%char, "___b", "b");
  ("."%char, "__.ba", "ba");
  ("_"%char, "a.._.", ".");
  ("_"%char, "a_", "");
  ("."%char, "bb.bb", "bb");
  ("."%char, "__.", "");
  ("."%char, "a.", "");
  ("."%char, "b_aa", "b_aa");
  ("_"%char, "_.a.", ".a.");
  ("."%char, "a._", "_");
  ("_"%char, "a", "a");
  ("."%char, "..__", "__");
  ("_"%char, "_a._a", "a");
  ("_"%char, "_..b", "..b");
  ("_"%char, ".aaba.", ".aaba.");
  ("."%char, "...__a", "__a");
  ("."%char, "aaa_ba.", "");
  ("."%char, ".ba", "ba")].
Lemma ok_after_last : forallb (fun v => match v with (c, s, r) => String.eqb (after_last c s) r end) v_after_last = true.
Proof. vm_compute. reflexivity. Qed.

(** [s[:n]], [s[n:]], [s[:-n]] *)
Definition v_slices : list (nat * string * string * string * string) := [
  (5, "bbacdbab", "bbacd", "bab", "bba");
  (5, "adaaabd", "adaaa", "bd", "ad");
  (5, "aaadaa", "aaada", "a", "a");
  (3, "", "", "", "");
  (2, "ad", "ad", "", "");
  (5, "ba", "ba", "", "");
  (1, "bdcb", "b", "dcb", "bdc");
  (6, "dcdbda", "dcdbda", "", "");
  (7, "", "", "", "");
  (3, "ba", "ba", "", "");
  (7, "cddbd", "cddbd", "", "");
  (6, "ddcdad", "ddcdad", "", "");
  (7, "bdddadbd", "bdddadb", "d", "b");
  (5, "aacdb", "aacdb", "", "");
  (2, "", "", "", "");
  (6, "c", "c", "", "");
  (3, "dda", "dda", "", "");
  (1, "cacdb", "c", "acdb", "cacd");
  (2, "cdaaba", "cd", "aaba", "cdaa");
  (2, "dadddcbb", "da", "dddcbb", "dadddc");
  (7, "a", "a", "", "");
  (1, "cbc", "c", "bc", "cb");
  (4, "cdda", "cdda", "", "");
  (1, "adcd", "a", "dcd", "adc");
  (4, "dbca", "dbca", "", "");
  (6, "caacb", "caacb", "", "");
  (2, "babd", "ba", "bd", "ba");
  (7, "b", "b", "", "");
  (1, "", "", "", "");
  (1, "da", "d", "a", "d");
  (2, "bcccbbdc", "bc", "ccbbdc", "bcccbb");
  (6, "d", "d", "", "");
  (5, "", "", "", "");
  (6, "dc", "dc", "", "");
  (7, "dcab", "dcab", "", "");
  (5, "baddbba", "baddb", "ba", "ba");
  (1, "a", "a", "", "");
  (6, "cabbbabd", "cabbba", "bd", "ca");
  (6, "cbddaa", "cbddaa", "", "");
  (3, "bb", "bb", "", "");
  (7, "acbaabcc", "acbaabc", "c", "a");
  (1, "babdca", "b", "abdca", "babdc");
  (6, "ccdccccb", "ccdccc", "cb", "cc");
  (7, "aacaaaa", "aacaaaa", "", "");
  (1, "ddca", "d", "dca", "ddc");
  (3, "dbc", "dbc", "", "");
  (6, "da", "da", "", "");
  (2, "c", "c", "", "");
  (6, "dbcbbb", "dbcbbb", "", "");
  (7, "cacd", "cacd", "", "");
  (2, "dacbbbcc", "da", "cbbbcc", "dacbbb");
  (1, "dbacdbd", "d", "bacdbd", "dbacdb");
  (5, "cdcb", "cdcb", "", "");
  (7, "dbacbbb", "dbacbbb", "", "");
  (6, "addccd", "addccd", "", "");
  (6, "cbbcbb", "cbbcbb", "", "");
  (5, "bbb", "bbb", "", "");
  (3, "caabacc", "caa", "bacc", "caab");
  (3, "ccdad", "ccd", "ad", "cc");
  (2, "dadacaaa", "da", "dacaaa", "dadaca")].
Lemma ok_slices : forallb (fun v => match v with (n, s, a, b, c) => String.eqb (stake n s) a && String.eqb (sdrop n s) b && String.eqb (drop_end n s) c end) v_slices = true.
Proof. vm_compute. reflexivity. Qed.

(** [c.lower()], [c.upper()], [c.islower()], [c.isdigit()], [c.isspace()] for all ASCII characters *)
Definition v_case : list (N * string * string * bool * bool * bool) := [
  (0%N, cs [0]%N, cs [0]%N, false, false, false);
  (1%N, cs [1]%N, cs [1]%N, false, false, false);
  (2%N, cs [2]%N, cs [2]%N, false, false, false);
  (3%N, cs [3]%N, cs [3]%N, false, false, false);
  (4%N, cs [4]%N, cs [4]%N, false, false, false);
  (5%N, cs [5]%N, cs [5]%N, false, false, false);
  (6%N, cs [6]%N, cs [6]%N, false, false, false);
  (7%N, cs [7]%N, cs [7]%N, false, false, false);
  (8%N, cs [8]%N, cs [8]%N, false, false, false);
  (9%N, cs [9]%N, cs [9]%N, false, false, true);
  (10%N, cs [10]%N, cs [10]%N, false, false, true);
  (11%N, cs [11]%N, cs [11]%N, false, false, true);
  (12%N, cs [12]%N, cs [12]%N, false, false, true);
  (13%N, cs [13]%N, cs [13]%N, false, false, true);
  (14%N, cs [14]%N, cs [14]%N, false, false, false);
  (15%N, cs [15]%N, cs [15]%N, false, false, false);
  (16%N, cs [16]%N, cs [16]%N, false, false, false);
  (17%N, cs [17]%N, cs [17]%N, false, false, false);
  (18%N, cs [18]%N, cs [18]%N, false, false, false);
  (19%N, cs [19]%N, cs [19]%N, false, false, false);
  (20%N, cs [20]%N, cs [20]%N, false, false, false);
  (21%N, cs [21]%N, cs [21]%N, false, false, false);
  (22%N, cs [22]%N, cs [22]%N, false, false, false);
  (23%N, cs [23]%N, cs [23]%N, false, false, false);
  (24%N, cs [24]%N, cs [24]%N, false, false, false);
  (25%N, cs [25]%N, cs [25]%N, false, false, false);
  (26%N, cs [26]%N, cs [26]%N, false, false, false);
  (27%N, cs [27]%N, cs [27]%N, false, false, false);
  (28%N, cs [28]%N, cs [28]%N, false, false, true);
  (29%N, cs [29]%N, cs [29]%N, false, false, true);
  (30%N, cs [30]%N, cs [30]%N, false, false, true);
  (31%N, cs [31]%N, cs [31]%N, false, false, true);
  (32%N, " ", " ", false, false, true);
  (33%N, "!", "!", false, false, false);
  (34%N, """", """", false, false, false);
  (35%N, "#", "#", false, false, false);
  (36%N, "$", "$", false, false, false);
  (37%N, "%", "%", false, false, false);
  (38%N, "&", "&", false, false, false);
  (39%N, "'", "'", false, false, false);
  (40%N, "(", "(", false, false, false);
  (41%N, ")", ")", false, false, false);
  (42%N, "*", "*", false, false, false);
  (43%N, "+", "+", false, false, false);
  (44%N, ",", ",", false, false, false);
  (45%N, "-", "-", false, false, false);
  (46%N, ".", ".", false, false, false);
  (47%N, "/", "/", false, false, false);
  (48%N, "0", "0", false, true, false);
  (49%N, "1", "1", false, true, false);
  (50%N, "2", "2", false, true, false);
  (51%N, "3", "3", false, true, false);
  (52%N, "4", "4", false, true, false);
  (53%N, "5", "5", false, true, false);
  (54%N, "6", "6", false, true, false);
  (55%N, "7", "7", false, true, false);
  (56%N, "8", "8", false, true, false);
  (57%N, "9", "9", false, true, false);
  (58%N, ":", ":", false, false, false);
  (59%N, ";", ";", false, false, false);
  (60%N, "<", "<", false, false, false);
  (61%N, "=", "=", false, false, false);
  (62%N, ">", ">", false, false, false);
  (63%N, "?", "?", false, false, false);
  (64%N, "@", "@", false, false, false);
  (65%N, "a", "A", false, false, false);
  (66%N, "b", "B", false, false, false);
  (67%N, "c", "C", false, false, false);
  (68%N, "d", "D", false, false, false);
  (69%N, "e", "E", false, false, false);
  (70%N, "f", "F", false, false, false);
  (71%N, "g", "G", false, false, false);
  (72%N, "h", "H", false, false, false);
  (73%N, "i", "I", false, false, false);
  (74%N, "j", "J", false, false, false);
  (75%N, "k", "K", false, false, false);
  (76%N, "l", "L", false, false, false);
  (77%N, "m", "M", false, false, false);
  (78%N, "n", "N", false, false, false);
  (79%N, "o", "O", false, false, false);
  (80%N, "p", "P", false, false, false);
  (81%N, "q", "Q", false, false, false);
  (82%N, "r", "R", false, false, false);
  (83%N, "s", "S", false, false, false);
  (84%N, "t", "T", false, false, false);
  (85%N, "u", "U", false, false, false);
  (86%N, "v", "V", false, false, false);
  (87%N, "w", "W", false, false, false);
  (88%N, "x", "X", false, false, false);
  (89%N, "y", "Y", false, false, false);
  (90%N, "z", "Z", false, false, false);
  (91%N, "[", "[", false, false, false);
  (92%N, "\", "\", false, false, false);
  (93%N, "]", "]", false, false, false);
  (94%N, "^", "^", false, false, false);
  (95%N, "_", "_", false, false, false);
  (96%N, "`", "`", false, false, false);
  (97%N, "a", "A", true, false, false);
  (98%N, "b", "B", true, false, false);
  (99%N, "c", "C", true, false, false);
  (100%N, "d", "D", true, false, false);
  (101%N, "e", "E", true, false, false);
  (102%N, "f", "F", true, false, false);
  (103%N, "g", "G", true, false, false);
  (104%N, "h", "H", true, false, false);
  (105%N, "i", "I", true, false, false);
  (106%N, "j", "J", true, false, false);
  (107%N, "k", "K", true, false, false);
  (108%N, "l", "L", true, false, false);
  (109%N, "m", "M", true, false, false);
  (110%N, "n", "N", true, false, false);
  (111%N, "o", "O", true, false, false);
  (112%N, "p", "P", true, false, false);
  (113%N, "q", "Q", true, false, false);
  (114%N, "r", "R", true, false, false);
  (115%N, "s", "S", true, false, false);
  (116%N, "t", "T", true, false, false);
  (117%N, "u", "U", true, false, false);
  (118%N, "v", "V", true, false, false);
  (119%N, "w", "W", true, false, false);
  (120%N, "x", "X", true, false, false);
  (121%N, "y", "Y", true, false, false);
  (122%N, "z", "Z", true, false, false);
  (123%N, "{", "{", false, false, false);
  (124%N, "|", "|", false, false, false);
  (125%N, "}", "}", false, false, false);
  (126%N, "~", "~", false, false, false);
  (127%N, cs [127]%N, cs [127]%N, false, false, false)].
Lemma ok_case : forallb (fun v => match v with (n, a, b, x, y, z) => let c := ascii_of_N n in String.eqb (lower (str1 c)) a && String.eqb (upper (str1 c)) b && Bool.eqb (is_lower_ascii c) x && Bool.eqb (is_digit c) y && Bool.eqb (is_space c) z end) v_case = true.
Proof. vm_compute. reflexivity. Qed.

(** [s.strip()] *)
Definition v_strip : list (string * string) := [
  (cs [10; 98; 10]%N, "b");
  (cs [12; 97; 13; 9]%N, "a");
  (cs [98; 31; 13; 28; 31; 9; 10; 12]%N, "b");
  (cs [32; 28; 11; 98; 32; 98; 31; 31]%N, "b b");
  ("", "");
  (cs [10; 32; 32; 13]%N, "");
  (cs [10; 11]%N, "");
  (cs [28; 10]%N, "");
  (cs [13; 31; 13; 97; 9; 13; 31; 32]%N, "a");
  (cs [13; 13; 28]%N, "");
  (cs [11; 28; 32; 9; 28]%N, "");
  (cs [12; 9; 11; 12; 28; 9; 32; 13]%N, "");
  (cs [13; 98; 12; 28; 12]%N, "b");
  (cs [31; 98; 12; 12; 11; 10; 32; 10]%N, "b");
  (cs [11]%N, "");
  (cs [31; 13; 98; 10]%N, "b");
  (cs [31; 31; 31; 98; 13; 98; 31; 10]%N, cs [98; 13; 98]%N);
  ("a", "a");
  (cs [31; 28; 13; 97; 9]%N, "a");
  (cs [9; 32; 98; 97; 13; 12; 13; 31]%N, "ba");
  (cs [11; 11; 32; 10; 31; 11]%N, "");
  (cs [9]%N, "");
  (cs [31; 32]%N, "");
  (cs [11; 31; 97; 98]%N, "ab");
  (cs [97; 13]%N, "a");
  (cs [31; 13; 32; 32; 32]%N, "");
  (cs [12; 13; 98; 9; 98; 28; 10]%N, cs [98; 9; 98]%N);
  (cs [12; 31; 28; 32; 98]%N, "b");
  (cs [13; 28; 13; 13; 28]%N, "");
  (cs [10; 13; 31; 98; 98; 12; 13]%N, "bb");
  (cs [12; 9]%N, "");
  (cs [13; 12; 11; 28; 97]%N, "a");
  (cs [10; 31; 97; 98; 13; 10; 31; 32]%N, "ab");
  (cs [28; 12; 97; 97; 11; 28]%N, "aa");
  (cs [32; 12; 10; 32; 9; 28; 9]%N, "");
  (cs [10; 32]%N, "");
  (cs [12; 97; 12; 31]%N, "a");
  (cs [98; 13]%N, "b");
  (cs [10; 32; 10; 13; 31; 32]%N, "");
  (cs [31; 32; 11; 12; 98; 9; 13]%N, "b");
  (cs [11; 9; 9; 32; 32; 28; 12; 32]%N, "");
  (cs [12; 98; 12; 11; 31; 13]%N, "b");
  (cs [11; 12; 31; 9; 97; 11; 13]%N, "a");
  (cs [32; 9; 13; 98; 12; 97]%N, cs [98; 12; 97]%N);
  (cs [97; 28; 11; 28; 28; 97; 9]%N, cs [97; 28; 11; 28; 28; 97]%N);
  (cs [98; 32; 32; 28]%N, "b");
  (cs [97; 11; 98; 32; 28; 98; 28; 98]%N, cs [97; 11; 98; 32; 28; 98; 28; 98]%N);
  (cs [9; 11; 13; 12; 10; 12; 10]%N, "");
  (cs [10; 97; 13; 10; 13; 13; 32; 98]%N, cs [97; 13; 10; 13; 13; 32; 98]%N);
  (cs [9; 12; 31; 13; 97]%N, "a");
  (cs [31; 98; 9; 32; 10; 13]%N, "b");
  (cs [13; 13; 10; 11]%N, "");
  (cs [9; 32]%N, "");
  (cs [31; 11]%N, "");
  (cs [12; 13; 98; 11; 31]%N, "b");
  (cs [31; 12; 32; 9; 13; 31; 98]%N, "b");
  (cs [31]%N, "");
  (cs [10; 98; 28]%N, "b");
  (cs [32; 9; 12; 13; 10; 98; 12; 28]%N, "b");
  (cs [28; 31; 9; 98; 32; 9; 12]%N, "b");
  (cs [13; 32; 10]%N, "");
  (cs [32; 9; 12]%N, "");
  (cs [10; 98; 12; 11; 9; 28; 97; 12]%N, cs [98; 12; 11; 9; 28; 97]%N);
  (cs [98; 10; 32; 98]%N, cs [98; 10; 32; 98]%N);
  (cs [97; 13; 32; 12; 98; 97]%N, cs [97; 13; 32; 12; 98; 97]%N);
  (cs [28; 97; 13; 9; 32]%N, "a");
  (cs [10; 31]%N, "");
  (cs [28; 31; 11; 9; 31; 9; 9]%N, "");
  (cs [13; 12; 13; 11; 13; 9; 10]%N, "");
  (cs [98; 28; 97; 11; 98; 12]%N, cs [98; 28; 97; 11; 98]%N);
  (cs [13; 31; 12; 13; 97; 31]%N, "a");
  ("  ", "");
  (cs [31; 31; 10; 11; 32; 9]%N, "");
  (cs [13; 10; 10; 9; 10; 9]%N, "");
  (cs [13]%N, "");
  (cs [13; 11; 32; 10; 13; 32; 12; 9]%N, "");
  ("b", "b");
  (cs [13; 11; 10; 12; 12; 13; 11; 31]%N, "");
  (cs [9; 11; 97; 32; 13]%N, "a");
  (cs [10; 32; 98; 13; 97; 32; 10]%N, cs [98; 13; 97]%N);
  (cs [10]%N, "");
  (" ", "");
  (cs [13; 28; 12; 10; 9; 13]%N, "");
  (cs [97; 10; 97; 98; 9; 12]%N, cs [97; 10; 97; 98]%N);
  (cs [32; 13; 11; 12; 28; 12]%N, "");
  (cs [28; 31; 9; 98]%N, "b");
  (cs [31; 10; 98; 10; 11; 9; 98]%N, cs [98; 10; 11; 9; 98]%N);
  (cs [28; 10; 10; 10; 31]%N, "");
  (cs [32; 32; 28]%N, "");
  (cs [32; 31; 10; 11; 10]%N, "");
  (cs [28; 28; 13; 97; 97]%N, "aa");
  (cs [97; 31]%N, "a");
  (cs [98; 97; 13; 10; 10; 11]%N, "ba");
  (cs [98; 9; 10; 31]%N, "b");
  (cs [97; 10; 13; 98; 11; 13; 32]%N, cs [97; 10; 13; 98]%N);
  (cs [12; 98]%N, "b");
  (cs [12; 32; 31; 13; 10]%N, "");
  (cs [9; 13; 28; 31; 10]%N, "");
  (cs [13; 32; 97; 31; 9]%N, "a");
  (cs [12; 97; 12; 10]%N, "a")].
Lemma ok_strip : forallb (fun v => match v with (s, r) => String.eqb (strip s) r end) v_strip = true.
Proof. vm_compute. reflexivity. Qed.

(** [str(n)] *)
Definition v_nat_str : list (N * string) := [
  (2045499450593210077%N, "2045499450593210077");
  (57279328581947%N, "57279328581947");
  (21909466105%N, "21909466105");
  (98413620719642151%N, "98413620719642151");
  (8166924731083%N, "8166924731083");
  (299132859476%N, "299132859476");
  (67239661301%N, "67239661301");
  (2261%N, "2261");
  (50990316%N, "50990316");
  (987338941794324215986%N, "987338941794324215986");
  (93765349896%N, "93765349896");
  (89170734708%N, "89170734708");
  (75436363702615724497%N, "75436363702615724497");
  (215%N, "215");
  (111200107%N, "111200107");
  (97%N, "97");
  (355618735596216912%N, "355618735596216912");
  (611973904%N, "611973904");
  (93816273413149762%N, "93816273413149762");
  (56377046566%N, "56377046566");
  (246259%N, "246259");
  (64571588224287356%N, "64571588224287356");
  (1859437163%N, "1859437163");
  (938363378975590103192%N, "938363378975590103192");
  (98849%N, "98849");
  (63309210463353799124%N, "63309210463353799124");
  (550407710500007%N, "550407710500007");
  (23719714875%N, "23719714875");
  (5329657311%N, "5329657311");
  (844855331%N, "844855331");
  (342923768875655803352%N, "342923768875655803352");
  (390693%N, "390693");
  (994480775%N, "994480775");
  (21738194413018%N, "21738194413018");
  (8%N, "8");
  (830210764406%N, "830210764406");
  (961745%N, "961745");
  (882358%N, "882358");
  (2175944076737718961%N, "2175944076737718961");
  (14912236112472297222%N, "14912236112472297222");
  (651836859649933%N, "651836859649933");
  (44515595%N, "44515595");
  (2%N, "2");
  (756%N, "756");
  (880222882635841364011%N, "880222882635841364011");
  (30078135835232678322%N, "30078135835232678322");
  (797867919690943759915%N, "797867919690943759915");
  (8429%N, "8429");
  (40349753319504643771%N, "40349753319504643771");
  (886213595798%N, "886213595798");
  (752911%N, "752911");
  (639895683%N, "639895683");
  (794565032553%N, "794565032553");
  (2880115588568696083%N, "2880115588568696083");
  (201133%N, "201133");
  (76612492334707145590%N, "76612492334707145590");
  (293041418006482715054%N, "293041418006482715054");
  (41361935%N, "41361935");
  (899387410008126%N, "899387410008126");
  (3792427824904365848%N, "3792427824904365848")].
Lemma ok_nat_str : forallb (fun v => match v with (n, r) => String.eqb (N_str n) r end) v_nat_str = true.
Proof. vm_compute. reflexivity. Qed.

(** [str(z)] *)
Definition v_int_str : list (Z * string) := [
  ((98126734)%Z, "98126734");
  ((3412894417)%Z, "3412894417");
  ((-929898)%Z, "-929898");
  ((-998125)%Z, "-998125");
  ((-869649)%Z, "-869649");
  ((-445159)%Z, "-445159");
  ((-859728)%Z, "-859728");
  ((-80870)%Z, "-80870");
  ((4818575)%Z, "4818575");
  ((17453174)%Z, "17453174");
  ((5090708)%Z, "5090708");
  ((-709238)%Z, "-709238");
  ((449125938)%Z, "449125938");
  ((-75421)%Z, "-75421");
  ((-146286)%Z, "-146286");
  ((-884446)%Z, "-884446");
  ((1267166)%Z, "1267166");
  ((-859860)%Z, "-859860");
  ((-744983)%Z, "-744983");
  ((5045260)%Z, "5045260");
  ((516394011)%Z, "516394011");
  ((2363851432)%Z, "2363851432");
  ((71414949160)%Z, "71414949160");
  ((-425150)%Z, "-425150");
  ((3662889)%Z, "3662889");
  ((4336612)%Z, "4336612");
  ((-130824)%Z, "-130824");
  ((9034259023)%Z, "9034259023");
  ((70410089)%Z, "70410089");
  ((811563)%Z, "811563");
  ((29778668133)%Z, "29778668133");
  ((-233353)%Z, "-233353");
  ((75639)%Z, "75639");
  ((21201824835)%Z, "21201824835");
  ((-630901)%Z, "-630901");
  ((952347213)%Z, "952347213");
  ((56110008275)%Z, "56110008275");
  ((9942875566)%Z, "9942875566");
  ((96086190)%Z, "96086190");
  ((-622406)%Z, "-622406");
  ((-511322)%Z, "-511322");
  ((-111488)%Z, "-111488");
  ((3787803060)%Z, "3787803060");
  ((-275825)%Z, "-275825");
  ((-814705)%Z, "-814705");
  ((92298942933)%Z, "92298942933");
  ((4033228549)%Z, "4033228549");
  ((-476329)%Z, "-476329");
  ((-820698)%Z, "-820698");
  ((-41124)%Z, "-41124");
  ((-966772)%Z, "-966772");
  ((4993000124)%Z, "4993000124");
  ((641404898)%Z, "641404898");
  ((467463772)%Z, "467463772");
  ((23796407)%Z, "23796407");
  ((1603625)%Z, "1603625");
  ((-168538)%Z, "-168538");
  ((3867734)%Z, "3867734");
  ((34804689251)%Z, "34804689251");
  ((-865296)%Z, "-865296")].
Lemma ok_int_str : forallb (fun v => match v with (z, r) => String.eqb (Z_str z) r end) v_int_str = true.
Proof. vm_compute. reflexivity. Qed.

(** [str(t)] *)
Definition v_tuple_str : list (list nat * string) := [
  ([65; 126; 97], "(65, 126, 97)");
  ([27], "(27,)");
  ([69; 124; 157; 123], "(69, 124, 157, 123)");
  ([], "()");
  ([60], "(60,)");
  ([32; 72; 74; 41], "(32, 72, 74, 41)");
  ([35; 44; 2; 141], "(35, 44, 2, 141)");
  ([133; 186; 198], "(133, 186, 198)");
  ([147; 113; 37; 138], "(147, 113, 37, 138)");
  ([44], "(44,)");
  ([83; 185; 172], "(83, 185, 172)");
  ([69; 155; 14; 94], "(69, 155, 14, 94)");
  ([116; 114; 97; 50], "(116, 114, 97, 50)");
  ([80; 130; 67; 100], "(80, 130, 67, 100)");
  ([156], "(156,)");
  ([100; 15], "(100, 15)");
  ([26; 131; 177; 57], "(26, 131, 177, 57)");
  ([54; 85; 146; 79], "(54, 85, 146, 79)");
  ([167; 14; 172], "(167, 14, 172)");
  ([40; 124], "(40, 124)");
  ([154; 82; 127; 82], "(154, 82, 127, 82)");
  ([91], "(91,)");
  ([90; 187; 106; 3], "(90, 187, 106, 3)");
  ([16; 99; 3; 122], "(16, 99, 3, 122)");
  ([157; 1], "(157, 1)");
  ([48], "(48,)");
  ([69; 51; 191], "(69, 51, 191)");
  ([56; 57; 143], "(56, 57, 143)");
  ([142; 133; 63], "(142, 133, 63)");
  ([179; 13], "(179, 13)");
  ([126; 35; 35], "(126, 35, 35)");
  ([112; 63; 78], "(112, 63, 78)");
  ([11; 195], "(11, 195)");
  ([14; 153], "(14, 153)");
  ([171; 39; 57], "(171, 39, 57)");
  ([157], "(157,)");
  ([110; 126; 150; 125], "(110, 126, 150, 125)");
  ([67; 74; 21], "(67, 74, 21)");
  ([13], "(13,)");
  ([11; 184; 88; 146], "(11, 184, 88, 146)");
  ([68; 60; 128; 89], "(68, 60, 128, 89)");
  ([53; 155; 71; 51], "(53, 155, 71, 51)");
  ([147; 165], "(147, 165)");
  ([93; 162; 95], "(93, 162, 95)");
  ([106; 109; 62], "(106, 109, 62)");
  ([96; 83], "(96, 83)");
  ([91; 115; 145], "(91, 115, 145)");
  ([83; 167; 71; 64], "(83, 167, 71, 64)");
  ([173; 28; 38], "(173, 28, 38)");
  ([62; 113; 56; 186], "(62, 113, 56, 186)");
  ([137; 65; 35], "(137, 65, 35)");
  ([1], "(1,)");
  ([58; 141; 40; 132], "(58, 141, 40, 132)");
  ([86; 0], "(86, 0)");
  ([67; 157; 179; 107], "(67, 157, 179, 107)");
  ([34; 191; 57], "(34, 191, 57)");
  ([188; 2; 187], "(188, 2, 187)");
  ([31; 172; 51; 154], "(31, 172, 51, 154)");
  ([37], "(37,)");
  ([86; 41; 52], "(86, 41, 52)")].
Lemma ok_tuple_str : forallb (fun v => match v with (l, r) => String.eqb (tuple_str l) r end) v_tuple_str = true.
Proof. vm_compute. reflexivity. Qed.

(** [str(l)] *)
Definition v_list_str : list (list nat * string) := [
  ([], "[]");
  ([41; 64], "[41, 64]");
  ([188; 64; 30; 96], "[188, 64, 30, 96]");
  ([62], "[62]");
  ([164; 111], "[164, 111]");
  ([46], "[46]");
  ([9; 135; 131; 181], "[9, 135, 131, 181]");
  ([120; 100], "[120, 100]");
  ([199], "[199]");
  ([141; 142; 108; 184], "[141, 142, 108, 184]");
  ([160; 0; 103], "[160, 0, 103]");
  ([74; 174], "[74, 174]");
  ([163; 127], "[163, 127]");
  ([68; 33; 20], "[68, 33, 20]");
  ([187; 112], "[187, 112]");
  ([187], "[187]");
  ([32; 141; 29; 43], "[32, 141, 29, 43]");
  ([0; 62; 84], "[0, 62, 84]");
  ([142; 67], "[142, 67]");
  ([127; 68], "[127, 68]");
  ([163; 110; 134], "[163, 110, 134]");
  ([6; 197; 51], "[6, 197, 51]");
  ([143], "[143]");
  ([75; 159; 185], "[75, 159, 185]");
  ([104; 77; 105], "[104, 77, 105]");
  ([197], "[197]");
  ([39; 137; 193], "[39, 137, 193]");
  ([137; 85; 86; 5], "[137, 85, 86, 5]");
  ([131; 31; 161; 34], "[131, 31, 161, 34]");
  ([29; 102; 20], "[29, 102, 20]");
  ([65; 129; 74], "[65, 129, 74]");
  ([95; 174; 149], "[95, 174, 149]");
  ([179; 135; 151; 88], "[179, 135, 151, 88]");
  ([65; 74], "[65, 74]");
  ([69; 196; 29; 159], "[69, 196, 29, 159]");
  ([39; 112; 190], "[39, 112, 190]");
  ([154], "[154]");
  ([120; 181; 77], "[120, 181, 77]");
  ([195], "[195]");
  ([131; 31; 173], "[131, 31, 173]");
  ([103; 19], "[103, 19]");
  ([47; 153; 176], "[47, 153, 176]");
  ([8; 63; 103], "[8, 63, 103]");
  ([73; 115; 102; 144], "[73, 115, 102, 144]");
  ([140; 82; 157; 149], "[140, 82, 157, 149]");
  ([179], "[179]");
  ([21], "[21]");
  ([184], "[184]");
  ([178; 42; 127], "[178, 42, 127]");
  ([107], "[107]");
  ([72], "[72]");
  ([5; 159], "[5, 159]");
  ([15; 40], "[15, 40]");
  ([80], "[80]");
  ([83; 134; 167; 19], "[83, 134, 167, 19]");
  ([117], "[117]");
  ([198; 190; 117; 60], "[198, 190, 117, 60]");
  ([24; 194; 174; 3], "[24, 194, 174, 3]");
  ([119], "[119]");
  ([23; 138; 43; 145], "[23, 138, 43, 145]")].
Lemma ok_list_str : forallb (fun v => match v with (l, r) => String.eqb (list_str l) r end) v_list_str = true.
Proof. vm_compute. reflexivity. Qed.

(** [str(l)] for texts without quotation marks *)
Definition v_texts_str : list (list string * string) := [
  (["."; "a "; "1aa"], "['.', 'a ', '1aa']");
  (["11 "], "['11 ']");
  ([".  "; "1"], "['.  ', '1']");
  (["."; ".a"], "['.', '.a']");
  ([], "[]");
  ([""; ".1"; "."], "['', '.1', '.']");
  (["1"; ""; "."], "['1', '', '.']");
  ([".1"; ".."; ""], "['.1', '..', '']");
  (["a1 "; " 1"], "['a1 ', ' 1']");
  ([""], "['']");
  (["."; "1.1"; " 1."], "['.', '1.1', ' 1.']");
  (["a1"; ""], "['a1', '']");
  (["11"; "1a"], "['11', '1a']");
  (["  "], "['  ']");
  (["1 1"; "  a"], "['1 1', '  a']");
  (["a11"; "."], "['a11', '.']");
  ([".11"; " .1"; ""], "['.11', ' .1', '']");
  (["1"; "1"; "."], "['1', '1', '.']");
  ([" a"; "."], "[' a', '.']");
  (["."; ".a"; "1."], "['.', '.a', '1.']");
  ([".."; " "], "['..', ' ']");
  ([" 1."; " "], "[' 1.', ' ']");
  (["1a"; ""; "  ."], "['1a', '', '  .']");
  (["a"], "['a']");
  ([""; "a."; "1."], "['', 'a.', '1.']");
  ([""; "1"], "['', '1']");
  (["."; ""], "['.', '']");
  (["a 1"], "['a 1']");
  (["a11"; ""; ""], "['a11', '', '']");
  ([".1"], "['.1']");
  (["1."], "['1.']");
  (["."; " a "], "['.', ' a ']");
  ([""; "1a."; ""], "['', '1a.', '']");
  (["."; "1a "; "."], "['.', '1a ', '.']");
  ([" "; "  "], "[' ', '  ']");
  ([" 1"], "[' 1']");
  (["1"; "aa"], "['1', 'aa']");
  (["."; "a"; "."], "['.', 'a', '.']");
  ([".a "; "a "], "['.a ', 'a ']");
  ([". 1"; ""], "['. 1', '']");
  ([" "; "."], "[' ', '.']");
  (["1a"; "."], "['1a', '.']");
  (["aa1"; " 1"], "['aa1', ' 1']");
  ([""; ".."], "['', '..']");
  (["11 "; ""], "['11 ', '']");
  (["1"], "['1']");
  (["1a"; "1."; "a a"], "['1a', '1.', 'a a']");
  ([" "; ""; "a "], "[' ', '', 'a ']");
  ([""; "1"; " "], "['', '1', ' ']");
  (["a.1"; "11"; "1"], "['a.1', '11', '1']");
  ([""; "a"; "1.."], "['', 'a', '1..']");
  (["..a"], "['..a']");
  (["11"; ".a"; "aa"], "['11', '.a', 'aa']");
  ([""; " 1"; ""], "['', ' 1', '']");
  ([""; "a"], "['', 'a']");
  ([".a."; ""], "['.a.', '']");
  ([""; ". 1"], "['', '. 1']");
  (["."; " "], "['.', ' ']");
  (["   "], "['   ']");
  ([" .1"], "[' .1']")].
Lemma ok_texts_str : forallb (fun v => match v with (l, r) => String.eqb (str_list l) r end) v_texts_str = true.
Proof. vm_compute. reflexivity. Qed.

(** [int(s)], None: ValueError *)
Definition v_int : list (string * option Z) := [
  ("_0", None);
  ("21", Some ((21)%Z));
  ("a+", None);
  ("", None);
  ("a- +7", None);
  ("1", Some ((1)%Z));
  ("- _", None);
  ("  ", None);
  ("01", Some ((1)%Z));
  ("_7-10_", None);
  ("7-", None);
  ("_", None);
  ("71a7", None);
  ("1a1", None);
  ("2", Some ((2)%Z));
  ("--02", None);
  ("a11-22", None);
  ("12 +72", None);
  ("120+", None);
  ("--", None);
  ("+ 7_-", None);
  ("7", Some ((7)%Z));
  ("7a1", None);
  ("01+__a", None);
  ("_0 7", None);
  ("_7012", None);
  ("27a ", None);
  ("_71", None);
  ("122", Some ((122)%Z));
  ("-a_01 ", None);
  ("20-", None);
  ("_17-_", None);
  ("+  -+ ", None);
  ("a", None);
  (" aa", None);
  (" ", None);
  ("7_7 + ", None);
  ("__7-", None);
  ("a7-", None);
  ("2 2+", None);
  ("1+", None);
  ("2-2 0", None);
  ("-", None);
  ("-- a1", None);
  ("a7721", None);
  ("200_", None);
  ("72", Some ((72)%Z));
  ("+7+ _", None);
  (" a1711", None);
  ("21 ", Some ((21)%Z));
  ("+1 ", Some ((1)%Z));
  ("a170", None);
  ("a7", None);
  ("07", Some ((7)%Z));
  ("2071a7", None);
  (" a_", None);
  ("+_", None);
  ("a7a", None);
  ("11-2", None);
  ("20", Some ((20)%Z));
  ("1 1+2", None);
  ("0", Some ((0)%Z));
  ("2+_21 ", None);
  ("07-2_", None);
  ("+", None);
  ("+++1", None);
  ("2217", Some ((2217)%Z));
  ("2  ", Some ((2)%Z));
  ("7 ", Some ((7)%Z));
  ("a0_0-7", None);
  ("2_+ ", None);
  ("201001", Some ((201001)%Z));
  ("2  2", None);
  ("007", Some ((7)%Z));
  ("__ +22", None);
  ("_aa2", None);
  (" 2+1", None);
  ("0_1_7", Some ((17)%Z));
  ("a+_-", None);
  ("07 1a_", None);
  ("2-20 ", None);
  ("__", None);
  ("1+_a0", None);
  ("_+0+a", None);
  ("-000", Some ((0)%Z));
  ("-a1 ", None);
  ("++--20", None);
  (" 70-a7", None);
  ("1-", None);
  ("a0", None);
  (" 2", Some ((2)%Z));
  ("-00 ", Some ((0)%Z));
  ("1727+", None);
  ("0a2 ", None);
  ("2a+", None);
  ("a7-2-", None);
  ("a1", None);
  ("1a", None);
  ("0+7a2", None);
  ("_a", None);
  ("-+", None);
  ("120", Some ((120)%Z));
  ("a+-2", None);
  ("-7--+a", None);
  (" 0_7a", None);
  ("-a-0a0", None);
  ("0-+++", None);
  ("71_", None);
  ("1-_ _", None);
  (" +--0", None);
  (" +", None);
  ("0+", None);
  ("aa+7 ", None);
  ("207", Some ((207)%Z));
  ("-a+2-", None);
  ("-a-_7", None);
  (" -", None);
  ("0a", None);
  ("_a7", None);
  (" a  ", None);
  (" _-071", None);
  ("127  +", None);
  ("+_1+ ", None);
  ("7 - 72", None);
  ("__ a_7", None);
  ("+-", None);
  ("01a2_", None);
  ("0017a", None);
  ("0a7+_", None);
  ("-0a", None);
  ("a1-+", None);
  ("1 7 -", None);
  (" +a7", None);
  ("0a002_", None);
  ("1 7", None);
  ("_++ -1", None);
  ("01_a1", None);
  ("-112", Some ((-112)%Z));
  ("aa222", None);
  ("a+0", None);
  ("+0+ a", None);
  ("1a2-", None);
  ("0+a1a", None);
  ("_-71_7", None);
  ("7 7", None);
  ("270a", None);
  (" 2_-7", None);
  ("a2_0a", None);
  ("+17a", None);
  ("71++", None);
  ("+7_", None);
  ("_ 0_", None);
  ("0a7a0-", None);
  ("1 2_a", None);
  ("00+", None);
  (" - a", None);
  ("-11_20", Some ((-1120)%Z));
  ("0 ", Some ((0)%Z));
  (" 1", Some ((1)%Z));
  ("12+", None);
  ("7+", None);
  ("_a0", None);
  ("7-1 10", None);
  ("0a-27 ", None);
  ("17a ", None);
  ("2-1", None);
  ("10", Some ((10)%Z));
  ("-a2 7+", None);
  ("a_2+", None);
  ("--1 ", None);
  ("+a- ", None);
  ("7a--07", None);
  ("0a -2a", None);
  (" _1", None);
  ("+27a1a", None);
  ("77_1", Some ((771)%Z));
  (" 712- ", None);
  ("112++", None);
  ("+020", Some ((20)%Z));
  ("707", Some ((707)%Z));
  ("+++  ", None);
  ("+aa17a", None);
  ("2+0", None);
  ("aa", None);
  ("0a212 ", None);
  ("220", Some ((220)%Z));
  ("+11", Some ((11)%Z));
  (" 7a1+", None);
  (" 210", Some ((210)%Z));
  ("1 ", Some ((1)%Z));
  ("01a", None);
  (" 7_71_", None);
  ("2 ", Some ((2)%Z));
  (" a a+", None);
  ("00_+_", None);
  ("-07-+", None);
  ("+__a2+", None);
  (" a", None);
  ("-_7", None);
  ("27-1", None);
  ("000", Some ((0)%Z));
  ("1  0", None);
  ("02_0-", None);
  ("1a+", None);
  ("70+", None);
  ("a2+17+", None);
  ("+77", Some ((77)%Z));
  ("----0", None);
  (" _a+2_", None);
  ("  +02", Some ((2)%Z));
  ("7a_22", None);
  ("__aa", None);
  ("_7+02", None);
  ("-2_", None);
  ("2-+a", None);
  ("2 1a+-", None);
  ("77_0", Some ((770)%Z));
  (" a a2 ", None);
  ("+222_+", None);
  ("-a", None);
  ("+_ ", None);
  (" 22", Some ((22)%Z));
  (" _", None);
  ("711", Some ((711)%Z));
  ("-1+", None);
  ("2-1-", None);
  ("1+7-a+", None);
  ("1a17", None);
  ("1a+a", None);
  ("-2", Some ((-2)%Z));
  ("_a1_1", None);
  ("1 ++ _", None);
  ("_+-7a+", None);
  ("a77_7", None);
  ("7 +020", None);
  (" 0+", None);
  ("+a70a", None);
  ("-+0+07", None);
  ("-0", Some ((0)%Z));
  ("01+", None);
  ("0- -", None);
  (" -_1+", None);
  ("-a+ ", None);
  ("-10_-", None);
  ("+2a21", None);
  ("2+-a7-", None);
  ("1_", None);
  ("_2+-a2", None);
  ("10_+", None);
  ("_10", None);
  ("27-a ", None);
  ("-1", Some ((-1)%Z));
  ("20a1", None);
  ("7-+_+7", None);
  ("0a7_0", None);
  ("  +-a1", None);
  ("7__20_", None);
  ("07_a_", None);
  ("2a_-", None);
  ("-a0_", None);
  ("+ _1", None);
  (" -a-7+", None);
  ("701+_ ", None);
  ("21+", None);
  ("-2a021", None);
  ("+0_", None);
  ("-_", None);
  (" a220", None);
  ("a7 700", None);
  ("1a-", None);
  ("2a", None);
  ("++27", None);
  ("17", Some ((17)%Z));
  ("2-", None);
  ("7_2_", None);
  (" a_7", None);
  ("+__1", None);
  ("_0+", None);
  ("1+2a2", None);
  (" -7_", None);
  ("-1 +_", None);
  ("+- a11", None);
  ("722 _", None);
  ("_1a ", None);
  ("7  ", Some ((7)%Z));
  ("1_1", Some ((11)%Z));
  ("a02", None);
  ("2+1a", None);
  ("aa0", None);
  ("-a a17", None);
  ("a 2", None);
  ("7a", None);
  ("a 0a+a", None);
  ("2-+-2", None);
  ("7_07-", None);
  ("0_-1_2", None);
  ("1+2 2", None);
  ("-02+- ", None);
  ("-a a02", None);
  ("- 7", None)].
Lemma ok_int : forallb (fun v => match v with (s, r) => same_opt Z.eqb (int_of s) r end) v_int = true.
Proof. vm_compute. reflexivity. Qed.

(** [str(float(s))] of plain decimals; others are rejected *)
Definition v_float_str : list (string * option string) := [
  ("131", Some ("131.0"));
  ("06.30", Some ("6.3"));
  ("..", None);
  ("26.25", Some ("26.25"));
  ("029.210", Some ("29.21"));
  ("28.29", Some ("28.29"));
  ("111", Some ("111.0"));
  ("122", Some ("122.0"));
  ("11", Some ("11.0"));
  ("101.", None);
  ("1.", None);
  ("7.10", Some ("7.1"));
  ("8.25", Some ("8.25"));
  ("0", Some ("0.0"));
  ("17.7", Some ("17.7"));
  ("202", Some ("202.0"));
  ("14.9", Some ("14.9"));
  ("03.160", Some ("3.16"));
  ("204", Some ("204.0"));
  ("05.130", Some ("5.13"));
  ("04.230", Some ("4.23"));
  ("205", Some ("205.0"));
  ("145", Some ("145.0"));
  ("5.23", Some ("5.23"));
  ("117", Some ("117.0"));
  ("189", Some ("189.0"));
  ("238", Some ("238.0"));
  ("17.13", Some ("17.13"));
  ("170", Some ("170.0"));
  ("012.10", Some ("12.1"));
  ("09.140", Some ("9.14"));
  ("014.280", Some ("14.28"));
  ("018.130", Some ("18.13"));
  ("28.12", Some ("28.12"));
  (".21", None);
  ("239", Some ("239.0"));
  ("0.19", Some ("0.19"));
  ("15", Some ("15.0"));
  ("021.200", Some ("21.2"));
  ("10.3", Some ("10.3"));
  ("2.17", Some ("2.17"));
  ("192", Some ("192.0"));
  (".2", None);
  ("011.00", Some ("11.0"));
  ("02", Some ("2.0"));
  ("231", Some ("231.0"));
  ("66", Some ("66.0"));
  ("168", Some ("168.0"));
  ("3.24", Some ("3.24"));
  ("015.240", Some ("15.24"));
  ("011.290", Some ("11.29"));
  ("27.26", Some ("27.26"));
  ("108", Some ("108.0"));
  ("29.6", Some ("29.6"));
  ("15.4", Some ("15.4"));
  ("08.270", Some ("8.27"));
  ("299", Some ("299.0"));
  ("024.250", Some ("24.25"));
  ("173", Some ("173.0"));
  ("64", Some ("64.0"));
  ("13.26", Some ("13.26"));
  ("18.10", Some ("18.1"));
  ("014.260", Some ("14.26"));
  ("023.150", Some ("23.15"));
  ("81", Some ("81.0"));
  ("016.10", Some ("16.1"));
  ("021.160", Some ("21.16"));
  ("014.90", Some ("14.9"));
  ("2.", None);
  ("1", Some ("1.0"));
  ("4.11", Some ("4.11"));
  ("..1", None);
  ("190", Some ("190.0"));
  ("11.", None);
  ("107", Some ("107.0"));
  ("16.17", Some ("16.17"));
  ("10.14", Some ("10.14"));
  ("", None);
  ("24.12", Some ("24.12"));
  (".012", None);
  ("287", Some ("287.0"));
  ("277", Some ("277.0"));
  ("161", Some ("161.0"));
  ("019.100", Some ("19.1"));
  ("7.24", Some ("7.24"));
  ("020.190", Some ("20.19"));
  (".121", None);
  ("25.3", Some ("25.3"));
  ("21.22", Some ("21.22"));
  ("13.13", Some ("13.13"));
  ("03.60", Some ("3.6"));
  ("36", Some ("36.0"));
  ("75", Some ("75.0"));
  ("13.18", Some ("13.18"));
  ("016.130", Some ("16.13"));
  (".122", None);
  ("10.13", Some ("10.13"));
  ("92", Some ("92.0"));
  ("9.27", Some ("9.27"));
  ("03.170", Some ("3.17"));
  ("027.120", Some ("27.12"));
  ("5.21", Some ("5.21"));
  ("18.12", Some ("18.12"));
  ("7", Some ("7.0"));
  ("06.20", Some ("6.2"));
  (".1", None);
  ("010.110", Some ("10.11"));
  ("247", Some ("247.0"));
  ("029.130", Some ("29.13"));
  ("0.", None);
  ("01", Some ("1.0"));
  (".01", None);
  ("74", Some ("74.0"));
  ("7.4", Some ("7.4"));
  ("...0", None);
  ("265", Some ("265.0"));
  ("12.0", Some ("12.0"));
  ("016.200", Some ("16.2"));
  ("102", Some ("102.0"));
  ("019.160", Some ("19.16"));
  ("4.4", Some ("4.4"));
  ("029.120", Some ("29.12"));
  ("029.110", Some ("29.11"));
  ("1210", Some ("1210.0"));
  ("27.29", Some ("27.29"));
  ("235", Some ("235.0"));
  ("020.150", Some ("20.15"));
  ("19.9", Some ("19.9"));
  ("33", Some ("33.0"));
  ("..2", None);
  ("57", Some ("57.0"));
  ("2", Some ("2.0"));
  ("26.5", Some ("26.5"));
  ("05.230", Some ("5.23"));
  ("22.2", Some ("22.2"));
  ("8.21", Some ("8.21"));
  ("55", Some ("55.0"));
  ("21.", None);
  ("21", Some ("21.0"));
  ("24.10", Some ("24.1"));
  ("28", Some ("28.0"));
  ("024.70", Some ("24.7"));
  ("027.50", Some ("27.5"));
  ("27.8", Some ("27.8"));
  ("28.5", Some ("28.5"));
  ("025.20", Some ("25.2"));
  ("8.20", Some ("8.2"));
  ("20.27", Some ("20.27"));
  ("195", Some ("195.0"));
  ("212", Some ("212.0"));
  ("26", Some ("26.0"));
  ("3", Some ("3.0"));
  ("11.24", Some ("11.24"));
  ("10.29", Some ("10.29"));
  ("2.1", Some ("2.1"));
  ("00.210", Some ("0.21"));
  ("22.27", Some ("22.27"));
  ("02.150", Some ("2.15"));
  ("26.11", Some ("26.11"));
  ("24.27", Some ("24.27"));
  ("255", Some ("255.0"));
  ("15.0", Some ("15.0"));
  ("16", Some ("16.0"));
  ("174", Some ("174.0"));
  ("154", Some ("154.0"));
  ("95", Some ("95.0"));
  ("203", Some ("203.0"));
  ("024.60", Some ("24.6"));
  ("013.260", Some ("13.26"));
  ("25.29", Some ("25.29"));
  ("53", Some ("53.0"));
  ("27", Some ("27.0"));
  ("024.10", Some ("24.1"));
  ("02.1", Some ("2.1"));
  ("07.140", Some ("7.14"));
  ("242", Some ("242.0"));
  ("224", Some ("224.0"));
  (".11", None);
  ("194", Some ("194.0"));
  ("13", Some ("13.0"));
  ("22..", None);
  ("02.20", Some ("2.2"));
  ("171", Some ("171.0"));
  ("2.20", Some ("2.2"));
  ("022.170", Some ("22.17"));
  ("1.0", Some ("1.0"));
  ("52", Some ("52.0"));
  ("1020", Some ("1020.0"));
  ("10.", None);
  ("13.7", Some ("13.7"));
  ("162", Some ("162.0"));
  ("1.15", Some ("1.15"));
  ("22", Some ("22.0"));
  ("172", Some ("172.0"));
  ("029.70", Some ("29.7"));
  (".10", None);
  ("214", Some ("214.0"));
  ("9.20", Some ("9.2"));
  ("26.6", Some ("26.6"));
  ("149", Some ("149.0"))].
Lemma ok_float_str : forallb (fun v => match v with (s, r) => same_opt String.eqb (float_str s) r end) v_float_str = true.
Proof. vm_compute. reflexivity. Qed.

(** [float(a) <= float(b)], [float(a) < float(b)] *)
Definition v_float_le : list (string * string * bool * bool) := [
  ("1.10", "01", false, false);
  ("03", "1.30", false, false);
  ("2.4", "0.0", false, false);
  ("0.2", "0.8", true, true);
  ("01", "2.4", true, true);
  ("1.00", "2.11", true, true);
  ("1.9", "2.10", true, true);
  ("03", "03", true, false);
  ("02", "01", false, false);
  ("3.00", "00", false, false);
  ("00", "1.20", true, true);
  ("3.00", "0.30", false, false);
  ("03", "0.00", false, false);
  ("2.20", "1.20", false, false);
  ("02", "0.30", false, false);
  ("00", "0.20", true, true);
  ("02", "3.0", true, true);
  ("3.30", "00", false, false);
  ("1.5", "02", true, true);
  ("0.7", "3.10", true, true);
  ("1.10", "0.0", false, false);
  ("1.5", "2.30", true, true);
  ("1.00", "2.2", true, true);
  ("1.7", "2.8", true, true);
  ("1.10", "03", true, true);
  ("0.6", "2.0", true, true);
  ("1.00", "1.00", true, false);
  ("03", "1.8", false, false);
  ("2.2", "2.10", false, false);
  ("1.20", "0.20", false, false);
  ("01", "1.10", true, true);
  ("00", "00", true, false);
  ("1.8", "00", false, false);
  ("02", "03", true, true);
  ("0.00", "3.00", true, true);
  ("0.11", "00", false, false);
  ("3.20", "01", false, false);
  ("2.5", "0.10", false, false);
  ("0.0", "1.4", true, true);
  ("03", "1.00", false, false);
  ("02", "0.10", false, false);
  ("2.20", "02", false, false);
  ("1.30", "00", false, false);
  ("1.6", "2.0", true, true);
  ("0.00", "00", true, false);
  ("00", "3.20", true, true);
  ("3.10", "01", false, false);
  ("2.11", "02", false, false);
  ("2.30", "03", true, true);
  ("01", "0.11", false, false);
  ("03", "1.3", false, false);
  ("01", "00", false, false);
  ("2.20", "3.2", true, true);
  ("0.0", "1.3", true, true);
  ("02", "1.30", false, false);
  ("2.9", "00", false, false);
  ("03", "0.20", false, false);
  ("1.00", "1.1", true, true);
  ("0.8", "0.3", false, false);
  ("2.4", "2.9", true, true);
  ("02", "0.20", false, false);
  ("2.30", "00", false, false);
  ("2.20", "3.11", true, true);
  ("1.2", "01", false, false);
  ("3.20", "2.20", false, false);
  ("1.10", "1.30", true, true);
  ("00", "1.3", true, true);
  ("1.3", "0.30", false, false);
  ("00", "3.00", true, true);
  ("03", "1.9", false, false);
  ("0.10", "2.30", true, true);
  ("00", "2.10", true, true);
  ("1.9", "2.20", true, true);
  ("01", "02", true, true);
  ("2.7", "01", false, false);
  ("3.7", "3.5", false, false);
  ("2.3", "0.30", false, false);
  ("0.2", "2.5", true, true);
  ("2.00", "01", false, false);
  ("1.11", "3.00", true, true);
  ("3.1", "3.20", true, true);
  ("2.5", "1.2", false, false);
  ("0.9", "2.3", true, true);
  ("1.10", "02", true, true);
  ("2.0", "2.30", true, true);
  ("0.1", "3.10", true, true);
  ("00", "2.7", true, true);
  ("2.30", "2.6", true, true);
  ("3.00", "2.8", false, false);
  ("3.2", "02", false, false);
  ("1.8", "03", true, true);
  ("1.30", "0.4", false, false);
  ("2.11", "3.3", true, true);
  ("0.5", "3.9", true, true);
  ("2.8", "1.00", false, false);
  ("0.0", "3.10", true, true);
  ("0.10", "1.0", true, true);
  ("1.30", "3.30", true, true);
  ("3.10", "00", false, false);
  ("00", "03", true, true)].
Lemma ok_float_le : forallb (fun v => match v with (a, b, x, y) => match parse_float a, parse_float b with Some p, Some q => Bool.eqb (dec_leb p q) x && Bool.eqb (dec_ltb p q) y | _, _ => false end end) v_float_le = true.
Proof. vm_compute. reflexivity. Qed.

(** [float(z)] for integers *)
Definition v_float_of_int : list (Z * spec_float) := [
  ((-11959554244677463549433936481516008888043442470914275702843)%Z, S754_finite true 8580559358502849 (140));
  ((-6846238076629940663923323363407)%Z, S754_finite true 6080680915792006 (50));
  ((-1140728496123796499511027982158067)%Z, S754_finite true 7915394007766672 (57));
  ((-1669234383117826982902633816984031898937101764768545)%Z, S754_finite true 5023169504136529 (118));
  ((3171048253623352336782100443107850284)%Z, S754_finite false 5371964696304380 (69));
  ((775003269484128809149433844680225766925509)%Z, S754_finite false 5008341243613132 (87));
  ((-21700590346961009884871823784218645738307)%Z, S754_finite true 8975153807980764 (81));
  ((5098196499872304597991299314753699749980264)%Z, S754_finite false 8236580671250146 (89));
  ((5843927222593788)%Z, S754_finite false 5843927222593788 (0));
  ((-127489976370537316941162627280160523210)%Z, S754_finite true 6749263151907333 (74));
  ((-96401838242206399031890611085993206768271968362404770061)%Z, S754_finite true 8853110645515436 (133));
  ((-289140983086)%Z, S754_finite true 4737285866881024 (-14));
  ((49011329578)%Z, S754_finite false 6424012990447616 (-17));
  ((1060287800136)%Z, S754_finite false 8685877658714112 (-13));
  ((-1685874601099563318059)%Z, S754_finite true 6431101231001142 (18));
  ((-4750349503139681518)%Z, S754_finite true 4639013186659845 (10));
  ((30457)%Z, S754_finite false 8371956411793408 (-38));
  ((-490725932818339293473177619974163129)%Z, S754_finite true 6650576530707739 (66));
  ((-3268434909318955271798860130)%Z, S754_finite true 5945248466230542 (39));
  ((-151754915113518730929147186390367565372790951)%Z, S754_finite true 7661665261324044 (94));
  ((1820546)%Z, S754_finite false 7819185530863616 (-32));
  ((178482470025699719490059)%Z, S754_finite false 5319192112258068 (25));
  ((-167185442357813571519023996589715592972868584969)%Z, S754_finite true 8242878712385007 (104));
  ((28044898534404764622877235587834)%Z, S754_finite false 6227218415234496 (52));
  ((-32813258792609074856971217926867956157591667413)%Z, S754_finite true 6471274258597230 (102));
  ((-875786073638252231742009029051346783095301453)%Z, S754_finite true 5526987158641819 (97));
  ((-33246493179072338955063694096)%Z, S754_finite true 7559377349724022 (42));
  ((-150760627232519998830284)%Z, S754_finite true 8986033632309437 (24));
  ((-113643275)%Z, S754_finite true 7626471086489600 (-26));
  ((613)%Z, S754_finite false 5392005022613504 (-43));
  ((-165469306877474648239221947811148922055217073795260)%Z, S754_finite true 7967057324808230 (114));
  ((-20753479427203474049031507592489268)%Z, S754_finite true 9000386992642891 (61));
  ((5702325346523110842560504794)%Z, S754_finite false 5186234690448246 (40));
  ((-1649684226096721870049449567759391463117427638796260687)%Z, S754_finite true 4847986221043335 (128));
  ((3751844195116729157094258967888834569)%Z, S754_finite false 6355871292457323 (69));
  ((369)%Z, S754_finite false 6491516650389504 (-44));
  ((-129792)%Z, S754_finite true 8919238324518912 (-36));
  ((-176447291765692753825556626233088356741420507359760169553603)%Z, S754_finite true 7912170207537222 (144));
  ((4660597059879)%Z, S754_finite false 4772451389316096 (-10));
  ((5678420919171336872804870957852710836754687684)%Z, S754_finite false 8958968533046861 (99));
  ((-852293497933471818804376163503736408125606212386336)%Z, S754_finite true 5129554903364419 (117));
  ((-103638038)%Z, S754_finite true 6955030997368832 (-26));
  ((-12746101296990064576968407798155401059926)%Z, S754_finite true 5271663939253591 (81));
  ((-2594214665250396230034021225911447252983414382979560586)%Z, S754_finite true 7623711709555431 (128));
  ((-3641)%Z, S754_finite true 8006643673464832 (-41));
  ((-90331366280630288610085154389353708094808161321908034)%Z, S754_finite true 8494720861195182 (123));
  ((-239491564546007469007263510)%Z, S754_finite true 6970121890364898 (35));
  ((-12535496324946376278629339)%Z, S754_finite true 5837295355715964 (31));
  ((-80754148709151016)%Z, S754_finite true 5047134294321938 (4));
  ((17339484698578293)%Z, S754_finite false 8669742349289146 (1));
  ((-734654852033860706250845414849919)%Z, S754_finite true 5097692074253623 (57));
  ((4939320643354)%Z, S754_finite false 5057864338794496 (-10));
  ((-30169446253073)%Z, S754_finite true 7723378240786688 (-8));
  ((-636822575624131495014660320563550332774861132483535084)%Z, S754_finite true 7485813401222655 (126));
  ((-24645734232)%Z, S754_finite true 6460731354513408 (-18));
  ((-13336686074862586622950424548954650261039863954202042)%Z, S754_finite true 5016703724701196 (121));
  ((1556677869)%Z, S754_finite false 6529180212658176 (-22));
  ((-126861723313170687087583002768634)%Z, S754_finite true 7042240308295405 (54));
  ((258594323716835603907430699245417813658769991363573509)%Z, S754_finite false 6079523333677003 (125));
  ((134021962005471908745846)%Z, S754_finite false 7988331437437052 (24))].
Lemma ok_float_of_int : forallb (fun v => match v with (z, r) => same_float (f_of_Z z) r end) v_float_of_int = true.
Proof. vm_compute. reflexivity. Qed.

(** [x - y], [x * y], [abs(x)], [x <= y], [x == y] *)
Definition v_arith : list (spec_float * spec_float * spec_float * spec_float * spec_float * bool * bool) := [
  (S754_infinity true, S754_infinity true, S754_nan, S754_infinity false, S754_infinity false, true, true);
  (S754_finite true 8905297568366687 (-84), S754_finite true 8905298637002395 (-84), S754_finite false 8964366049214464 (-107), S754_finite false 8804549788985105 (-115), S754_finite false 8905297568366687 (-84), false, false);
  (S754_finite false 6755399441055744 (-52), S754_finite false 6755399441055745 (-52), S754_finite true 4503599627370496 (-104), S754_finite false 5066549580791809 (-51), S754_finite false 6755399441055744 (-52), true, false);
  (S754_finite false 5788089790934517 (164), S754_finite false 5788090369743496 (164), S754_finite true 4855401631711232 (141), S754_finite false 7438935418350994 (380), S754_finite false 5788089790934517 (164), true, false);
  (S754_finite true 6355741978350275 (-507), S754_finite true 6355741978350274 (-507), S754_finite true 4503599627370496 (-559), S754_finite false 8969593089461516 (-962), S754_finite false 6355741978350275 (-507), true, false);
  (S754_finite true 8192686569560157 (531), S754_finite true 7644792601430568 (633), S754_finite false 7644792601430568 (633), S754_infinity false, S754_finite false 8192686569560157 (531), false, false);
  (S754_finite true 5514539006849264 (-1057), S754_finite true 5514538510540753 (-1057), S754_finite true 65052149153792 (-1074), S754_zero false, S754_finite false 5514539006849264 (-1057), true, false);
  (S754_finite true 5066549580791808 (-52), S754_finite true 5066549124802346 (-52), S754_finite true 7650233697697792 (-76), S754_finite false 5699867765402639 (-52), S754_finite false 5066549580791808 (-52), true, false);
  (S754_finite true 8229737617306333 (565), S754_finite true 7959503939061616 (-585), S754_finite true 8229737617306333 (565), S754_finite false 7272474731578140 (33), S754_finite false 8229737617306333 (565), true, false);
  (S754_finite true 4962470823272533 (234), S754_finite true 5066549580791808 (-50), S754_finite true 4962470823272533 (234), S754_finite false 5582779676181600 (236), S754_finite false 4962470823272533 (234), true, false);
  (S754_finite true 5646766093581676 (-254), S754_finite false 5646766093581676 (-254), S754_finite true 5646766093581676 (-253), S754_finite true 7080107015250117 (-456), S754_finite false 5646766093581676 (-254), true, false);
  (S754_finite true 6755399441055744 (-53), S754_finite true 6755398833069794 (-53), S754_finite true 5100155804057600 (-76), S754_finite false 5066549124802346 (-53), S754_finite false 6755399441055744 (-53), true, false);
  (S754_finite false 8972886968577039 (366), S754_finite false 6192449487634432 (-52), S754_finite false 8972886968577039 (366), S754_finite false 6168859790896714 (367), S754_finite false 8972886968577039 (366), false, false);
  (S754_finite false 8296966135398676 (-110), S754_finite false 8296965388671724 (-110), S754_finite false 6263999683362816 (-133), S754_finite false 7642735428568438 (-167), S754_finite false 8296966135398676 (-110), false, false);
  (S754_zero true, S754_zero true, S754_zero false, S754_zero false, S754_zero false, true, true);
  (S754_finite false 6267281695738117 (631), S754_finite false 6267281695738117 (631), S754_zero false, S754_infinity false, S754_finite false 6267281695738117 (631), true, true);
  (S754_finite false 7503163862602788 (-884), S754_finite false 4553813511026915 (800), S754_finite true 4553813511026915 (800), S754_finite false 7586822053477931 (-32), S754_finite false 7503163862602788 (-884), true, false);
  (S754_finite true 6436203935517637 (655), S754_finite true 6436204707862109 (655), S754_finite false 6478895016574976 (632), S754_infinity false, S754_finite false 6436203935517637 (655), false, false);
  (S754_nan, S754_finite false 4503599627370496 (-52), S754_nan, S754_nan, S754_nan, false, false);
  (S754_finite true 8601518552814599 (-879), S754_finite true 8601519584996825 (-879), S754_finite false 8658572078481408 (-902), S754_zero false, S754_finite false 8601518552814599 (-879), false, false);
  (S754_finite false 7137405485062713 (-847), S754_finite true 7137405485062713 (-847), S754_finite false 7137405485062713 (-846), S754_zero true, S754_finite false 7137405485062713 (-847), false, false);
  (S754_finite false 6896136929411072 (-50), S754_finite false 6896136929411073 (-50), S754_finite true 4503599627370496 (-102), S754_finite false 5279854836580353 (-47), S754_finite false 6896136929411072 (-50), true, false);
  (S754_finite false 7036874417766400 (-51), S754_finite false 7036875121453842 (-51), S754_finite true 5902958105460736 (-74), S754_finite false 5497558688635814 (-49), S754_finite false 7036874417766400 (-51), true, false);
  (S754_finite false 6020167235631633 (-655), S754_finite false 5910974510923776 (-51), S754_finite true 5910974510923776 (-51), S754_finite false 7901469496766518 (-654), S754_finite false 6020167235631633 (-655), true, false);
  (S754_finite true 7448755436838810 (-344), S754_finite true 7448756181714354 (-344), S754_finite false 6248468947402752 (-367), S754_finite false 6159957333799092 (-635), S754_finite false 7448755436838810 (-344), false, false);
  (S754_finite true 6333186975989760 (-50), S754_finite false 6333186975989760 (-50), S754_finite true 6333186975989760 (-49), S754_finite true 8906044184985600 (-48), S754_finite false 6333186975989760 (-50), true, false);
  (S754_finite false 8039009219912161 (135), S754_finite false 8039009219912161 (135), S754_zero false, S754_finite false 7174890596965159 (323), S754_finite false 8039009219912161 (135), true, true);
  (S754_finite true 8333940618905336 (703), S754_finite true 8333940618905336 (703), S754_zero false, S754_infinity false, S754_finite false 8333940618905336 (703), true, true);
  (S754_finite true 7318349394477056 (-51), S754_finite true 7318350272678983 (-51), S754_finite false 7366891710447616 (-74), S754_finite false 5946159596551674 (-49), S754_finite false 7318349394477056 (-51), false, false);
  (S754_finite false 4503599627370496 (-1074), S754_finite false 4503599627370496 (-1074), S754_zero false, S754_zero false, S754_finite false 4503599627370496 (-1074), true, true);
  (S754_finite false 5621983538706998 (-315), S754_finite false 5621984100905352 (-315), S754_finite true 4716061609951232 (-338), S754_finite false 7018097674152368 (-578), S754_finite false 5621983538706998 (-315), true, false);
  (S754_finite false 6473924464345088 (-51), S754_finite false 6473923881691886 (-51), S754_finite false 4887649311522816 (-74), S754_finite false 4653132789966043 (-49), S754_finite false 6473924464345088 (-51), false, false);
  (S754_finite false 6581600667420188 (-109), S754_finite false 6581600075076128 (-109), S754_finite false 4968942120468480 (-132), S754_finite false 4809204528701128 (-165), S754_finite false 6581600667420188 (-109), false, false);
  (S754_finite true 4513495723045842 (-495), S754_finite true 4513495723045842 (-495), S754_zero false, S754_finite false 4523413564151004 (-938), S754_finite false 4513495723045842 (-495), true, true);
  (S754_finite true 5921086262669345 (-1000), S754_finite false 7931763981757661 (-584), S754_finite true 7931763981757661 (-584), S754_zero true, S754_finite false 5921086262669345 (-1000), true, false);
  (S754_finite true 7932902820886169 (762), S754_finite true 7932903772834507 (762), S754_finite false 7985521443733504 (739), S754_infinity false, S754_finite false 7932902820886169 (762), false, false);
  (S754_finite false 7136619665552999 (167), S754_finite false 7136619665552999 (167), S754_zero false, S754_finite false 5654514662140930 (387), S754_finite false 7136619665552999 (167), true, true);
  (S754_finite true 8115197100926398 (-188), S754_finite true 8115197100926397 (-188), S754_finite true 4503599627370496 (-240), S754_finite false 7311531822971529 (-323), S754_finite false 8115197100926398 (-188), true, false);
  (S754_finite true 8992304955616685 (-926), S754_finite true 5526317301017081 (211), S754_finite false 5526317301017081 (211), S754_finite false 5517178986141471 (-662), S754_finite false 8992304955616685 (-926), false, false);
  (S754_finite false 5629499534213120 (-52), S754_finite false 5629499534213120 (-52), S754_zero false, S754_finite false 7036874417766400 (-52), S754_finite false 5629499534213120 (-52), true, true);
  (S754_finite false 5151949967423511 (83), S754_finite true 6338091440374752 (790), S754_finite false 6338091440374752 (790), S754_finite true 7250540165985239 (925), S754_finite false 5151949967423511 (83), false, false);
  (S754_finite false 6580245301579710 (-928), S754_finite false 6580245301579710 (-928), S754_zero false, S754_zero false, S754_finite false 6580245301579710 (-928), true, true);
  (S754_finite false 8162774324609024 (-51), S754_finite false 8162775304141942 (-51), S754_finite true 8216917672198144 (-74), S754_finite false 7397515119378635 (-49), S754_finite false 8162774324609024 (-51), true, false);
  (S754_finite false 7611717626997901 (940), S754_finite false 7611718388169664 (940), S754_finite true 6385171540475904 (917), S754_infinity false, S754_finite false 7611717626997901 (940), true, false);
  (S754_finite true 7205156600977817 (758), S754_finite true 7205156600977817 (758), S754_zero false, S754_infinity false, S754_finite false 7205156600977817 (758), true, true);
  (S754_finite false 7525076570314451 (277), S754_finite false 7525076570314452 (277), S754_finite true 4503599627370496 (225), S754_finite false 6286835206769704 (607), S754_finite false 7525076570314451 (277), true, false);
  (S754_finite true 6755399441055744 (-50), S754_finite true 6755398833069794 (-50), S754_finite true 5100155804057600 (-73), S754_finite false 5066549124802346 (-47), S754_finite false 6755399441055744 (-50), true, false);
  (S754_finite true 6051711999279104 (-50), S754_finite true 6051712725484544 (-50), S754_finite false 6091852763627520 (-73), S754_finite false 8131988974869856 (-48), S754_finite false 6051711999279104 (-50), false, false);
  (S754_finite true 7840128914417243 (185), S754_finite false 6855510782406662 (-322), S754_finite true 7840128914417243 (185), S754_finite true 5967236516940050 (-84), S754_finite false 7840128914417243 (185), true, false);
  (S754_finite false 8642719035056089 (62), S754_finite false 8642719035056090 (62), S754_finite true 4503599627370496 (10), S754_finite false 8292987665350456 (177), S754_finite false 8642719035056089 (62), true, false);
  (S754_finite false 6192449487634432 (-50), S754_finite false 6192449487634432 (-50), S754_zero false, S754_finite false 8514618045497344 (-48), S754_finite false 6192449487634432 (-50), true, true);
  (S754_finite true 5428953768076571 (204), S754_finite true 5428953768076571 (204), S754_zero false, S754_finite false 6544440326530853 (460), S754_finite false 5428953768076571 (204), true, true);
  (S754_finite true 8103230786389789 (783), S754_finite true 8103231596712868 (783), S754_finite false 6797482663084032 (760), S754_infinity false, S754_finite false 8103230786389789 (783), false, false);
  (S754_finite true 7757249264901789 (409), S754_finite true 7757249264901789 (409), S754_zero false, S754_finite false 6680757742329940 (871), S754_finite false 7757249264901789 (409), true, true);
  (S754_finite false 8851632590347277 (832), S754_finite false 8851632590347278 (832), S754_finite true 4503599627370496 (780), S754_infinity false, S754_finite false 8851632590347277 (832), true, false);
  (S754_finite true 4783416218204636 (435), S754_finite true 4783416792214582 (435), S754_finite false 4815144425095168 (412), S754_finite false 5080618917199603 (922), S754_finite false 4783416218204636 (435), false, false);
  (S754_finite true 4680999124345068 (-141), S754_finite true 4680999592444981 (-141), S754_finite false 7853413349982208 (-165), S754_finite false 4865386980700176 (-230), S754_finite false 4680999124345068 (-141), false, false);
  (S754_finite true 6228124206274117 (241), S754_finite true 6228124206274117 (241), S754_zero false, S754_finite false 8613006114716626 (534), S754_finite false 6228124206274117 (241), true, true);
  (S754_finite true 7596810888620344 (-1004), S754_finite true 7596811800237650 (-1004), S754_finite false 7647200226050048 (-1027), S754_zero false, S754_finite false 7596810888620344 (-1004), false, false);
  (S754_finite false 8444249301319680 (-51), S754_finite false 8444250145744611 (-51), S754_finite true 7083549731586048 (-74), S754_finite false 7916484511635573 (-49), S754_finite false 8444249301319680 (-51), true, false);
  (S754_finite false 6363275737471490 (-722), S754_finite false 6363275164776674 (-722), S754_finite false 4804112315056128 (-745), S754_zero false, S754_finite false 6363275737471490 (-722), false, false);
  (S754_finite false 5032977141034391 (-213), S754_finite false 5032976688066448 (-213), S754_finite false 7599541020786688 (-237), S754_finite false 5624580051132846 (-374), S754_finite false 5032977141034391 (-213), false, false);
  (S754_finite true 7387035097141474 (754), S754_finite true 7387034432308315 (754), S754_finite true 5577024756252672 (731), S754_infinity false, S754_finite false 7387035097141474 (754), true, false);
  (S754_finite true 8444249301319680 (-52), S754_finite true 8444249301319679 (-52), S754_finite true 4503599627370496 (-104), S754_finite false 7916483719987199 (-51), S754_finite false 8444249301319680 (-52), true, false);
  (S754_finite false 6473924464345088 (-51), S754_finite true 6473924464345088 (-51), S754_finite false 6473924464345088 (-50), S754_finite true 4653133208748032 (-49), S754_finite false 6473924464345088 (-51), false, false);
  (S754_finite false 4503599627370496 (-51), S754_finite false 4503599627370497 (-51), S754_finite true 4503599627370496 (-103), S754_finite false 4503599627370497 (-50), S754_finite false 4503599627370496 (-51), true, false);
  (S754_finite false 8444249301319680 (-51), S754_finite false 8444250314629596 (-51), S754_finite true 8500259667836928 (-74), S754_finite false 7916484669965246 (-49), S754_finite false 8444249301319680 (-51), true, false);
  (S754_finite true 6295307261986000 (-278), S754_finite true 6295306695408346 (-278), S754_finite true 4752797840965632 (-301), S754_finite false 8799825303114794 (-504), S754_finite false 6295307261986000 (-278), true, false);
  (S754_finite false 4976879262640914 (-716), S754_finite true 4976879262640914 (-716), S754_finite false 4976879262640914 (-715), S754_zero true, S754_finite false 4976879262640914 (-716), false, false);
  (S754_finite true 5348024557502464 (-50), S754_finite true 5348025199265411 (-50), S754_finite false 5383497791307776 (-73), S754_finite false 6350779924127676 (-48), S754_finite false 5348024557502464 (-50), false, false);
  (S754_finite true 6121244478617878 (-869), S754_finite true 6121245213167215 (-869), S754_finite false 6161846444752896 (-892), S754_zero false, S754_finite false 6121244478617878 (-869), false, false);
  (S754_finite true 6299725978033397 (-921), S754_finite true 6299725978033397 (-921), S754_zero false, S754_zero false, S754_finite false 6299725978033397 (-921), true, true);
  (S754_finite false 9000793578992596 (-1017), S754_finite false 9000793578992596 (-1017), S754_zero false, S754_zero false, S754_finite false 9000793578992596 (-1017), true, true);
  (S754_finite false 5316644193256747 (-1036), S754_finite true 5316644193256747 (-1036), S754_finite false 5316644193256747 (-1035), S754_zero true, S754_finite false 5316644193256747 (-1036), false, false);
  (S754_finite true 5936336364183405 (-571), S754_finite false 7521462778547562 (-661), S754_finite true 5936336364183405 (-571), S754_zero true, S754_finite false 5936336364183405 (-571), true, false);
  (S754_finite true 7715819453105115 (-256), S754_finite true 7715820224687061 (-256), S754_finite false 6472498484871168 (-279), S754_finite false 6609587964312691 (-459), S754_finite false 7715819453105115 (-256), false, false);
  (S754_finite true 5685372761952131 (-791), S754_finite true 5685372250268582 (-791), S754_finite true 8584625425219584 (-815), S754_zero false, S754_finite false 5685372761952131 (-791), true, false);
  (S754_finite true 6192449487634432 (-50), S754_finite true 6192448930313978 (-50), S754_finite true 4675142818988032 (-73), S754_finite false 8514617279181720 (-48), S754_finite false 6192449487634432 (-50), true, false);
  (S754_finite false 4785074604081152 (-51), S754_finite false 7022967168277989 (915), S754_finite true 7022967168277989 (915), S754_finite false 7461902616295363 (916), S754_finite false 4785074604081152 (-51), true, false);
  (S754_finite true 7599824371187712 (-51), S754_finite false 7599824371187712 (-51), S754_finite true 7599824371187712 (-50), S754_finite true 6412351813189632 (-49), S754_finite false 7599824371187712 (-51), true, false);
  (S754_finite false 5066549580791808 (-51), S754_finite true 4785074604081152 (-51), S754_finite false 4925812092436480 (-50), S754_finite true 5383208929591296 (-50), S754_finite false 5066549580791808 (-51), false, false);
  (S754_finite true 6473924464345088 (-51), S754_finite false 4503599627370496 (-1074), S754_finite true 6473924464345088 (-51), S754_finite true 6473924464345088 (-1073), S754_finite false 6473924464345088 (-51), true, false);
  (S754_finite true 7144682428676879 (193), S754_finite false 7144682428676879 (193), S754_finite true 7144682428676879 (194), S754_finite true 5667298520100522 (439), S754_finite false 7144682428676879 (193), true, false);
  (S754_finite false 6230438896173499 (635), S754_finite false 6230438335433998 (635), S754_finite false 4703823864004608 (612), S754_infinity false, S754_finite false 6230438896173499 (635), false, false);
  (S754_finite false 4503599627370496 (-1074), S754_finite false 4503599627370497 (-1074), S754_finite true 1 (-1074), S754_zero false, S754_finite false 4503599627370496 (-1074), true, false);
  (S754_finite false 6937524160870800 (964), S754_finite false 6937523536493625 (964), S754_finite false 5237655365222400 (941), S754_infinity false, S754_finite false 6937524160870800 (964), false, false);
  (S754_finite false 6606421297423873 (-272), S754_finite false 6606421958066003 (-272), S754_finite true 5541867856855040 (-295), S754_finite false 4845546932978447 (-491), S754_finite false 6606421297423873 (-272), true, false);
  (S754_finite false 7541715931627397 (-802), S754_finite false 8223120571195778 (-349), S754_finite true 8223120571195778 (-349), S754_finite false 410390371 (-1074), S754_finite false 7541715931627397 (-802), true, false);
  (S754_finite false 5066549580791808 (-52), S754_finite true 5066549580791808 (-52), S754_finite false 5066549580791808 (-51), S754_finite true 5699868278390784 (-52), S754_finite false 5066549580791808 (-52), false, false);
  (S754_finite false 7318349394477056 (-52), S754_finite false 7318348735825610 (-52), S754_finite false 5525168789127168 (-75), S754_finite false 5946158347858308 (-51), S754_finite false 7318349394477056 (-52), false, false);
  (S754_finite false 1 (-1074), S754_finite false 1 (-1074), S754_zero false, S754_zero false, S754_finite false 1 (-1074), true, true);
  (S754_finite true 8725724278030336 (-51), S754_finite false 8725724278030336 (-51), S754_finite true 8725724278030336 (-50), S754_finite true 8453045394341888 (-49), S754_finite false 8725724278030336 (-51), true, false);
  (S754_finite true 8978592004911131 (-514), S754_finite false 8978592004911131 (-514), S754_finite true 8978592004911131 (-513), S754_finite true 8950075612929496 (-975), S754_finite false 8978592004911131 (-514), true, false);
  (S754_finite true 5118018094937882 (431), S754_finite false 5118018094937882 (431), S754_finite true 5118018094937882 (432), S754_finite true 5816260633142797 (914), S754_finite false 5118018094937882 (431), true, false);
  (S754_finite false 6238312909123628 (44), S754_finite false 6238312909123629 (44), S754_finite true 4503599627370496 (-8), S754_finite false 8641209515078631 (140), S754_finite false 6238312909123628 (44), true, false);
  (S754_finite true 6755399441055744 (-50), S754_finite true 6755400116595688 (-50), S754_finite false 5666839778557952 (-73), S754_finite false 5066550087446766 (-47), S754_finite false 6755399441055744 (-50), false, false);
  (S754_finite false 8025502382082245 (432), S754_finite false 8025501659787031 (432), S754_finite false 6059051410522112 (409), S754_finite false 7150800250602199 (917), S754_finite false 8025502382082245 (432), false, false);
  (S754_finite false 4700568090591420 (580), S754_finite false 4700568654659591 (580), S754_finite true 4731746771795968 (557), S754_infinity false, S754_finite false 4700568090591420 (580), true, false);
  (S754_finite true 6110204450497751 (354), S754_finite true 6110204450497751 (354), S754_zero false, S754_finite false 8289946157731825 (760), S754_finite false 6110204450497751 (354), true, true);
  (S754_finite true 6229797045090750 (754), S754_finite true 7881299347898368 (-52), S754_finite true 6229797045090750 (754), S754_finite false 5451072414454406 (755), S754_finite false 6229797045090750 (754), true, false);
  (S754_finite false 4785074604081152 (-50), S754_finite false 4785074604081153 (-50), S754_finite true 4503599627370496 (-102), S754_finite false 5084141766836225 (-48), S754_finite false 4785074604081152 (-50), true, false);
  (S754_finite true 4715856512511411 (122), S754_finite true 4715856512511410 (122), S754_finite true 4503599627370496 (70), S754_finite false 4938117169971675 (296), S754_finite false 4715856512511411 (122), true, false);
  (S754_finite false 7408320566445869 (-265), S754_finite true 7408320566445869 (-265), S754_finite false 7408320566445869 (-264), S754_finite true 6093260742104350 (-477), S754_finite false 7408320566445869 (-265), false, false);
  (S754_finite true 6755399441055744 (-54), S754_finite true 6755399441055743 (-54), S754_finite true 4503599627370496 (-106), S754_finite false 5066549580791807 (-55), S754_finite false 6755399441055744 (-54), true, false);
  (S754_finite false 8508399749899461 (873), S754_finite false 8508400600739436 (873), S754_finite true 7137363021004800 (850), S754_infinity false, S754_finite false 8508399749899461 (873), true, false);
  (S754_finite false 6593843502800458 (518), S754_finite false 6593843502800458 (518), S754_zero false, S754_infinity false, S754_finite false 6593843502800458 (518), true, true);
  (S754_finite false 4503599627370496 (-1074), S754_finite false 4503600077730459 (-1074), S754_finite true 450359963 (-1074), S754_zero false, S754_finite false 4503599627370496 (-1074), true, false);
  (S754_finite false 6755399441055744 (-54), S754_zero true, S754_finite false 6755399441055744 (-54), S754_zero true, S754_finite false 6755399441055744 (-54), false, false);
  (S754_finite false 8106543066085776 (872), S754_finite false 8106543066085777 (872), S754_finite true 4503599627370496 (820), S754_infinity false, S754_finite false 8106543066085776 (872), true, false);
  (S754_finite false 5307697848211883 (747), S754_finite false 5307697848211884 (747), S754_finite true 4503599627370496 (695), S754_infinity false, S754_finite false 5307697848211883 (747), true, false);
  (S754_finite false 9007199254740991 (971), S754_finite true 9007199254740991 (971), S754_infinity false, S754_infinity true, S754_finite false 9007199254740991 (971), false, false);
  (S754_finite true 6614661952700416 (-50), S754_finite true 6614661952700415 (-50), S754_finite true 4503599627370496 (-102), S754_finite false 4857642371514367 (-47), S754_finite false 6614661952700416 (-50), true, false);
  (S754_finite true 7217923563074648 (-184), S754_finite true 7217924284867005 (-184), S754_finite false 6054833140269056 (-207), S754_finite false 5784087183905471 (-315), S754_finite false 7217923563074648 (-184), false, false);
  (S754_finite false 7915828579017378 (240), S754_finite false 7915829370600236 (240), S754_finite true 6640278295281664 (217), S754_finite false 6956696147855378 (533), S754_finite false 7915828579017378 (240), true, false);
  (S754_finite false 4975559391744590 (-782), S754_finite false 4975559391744591 (-782), S754_finite true 4503599627370496 (-834), S754_zero false, S754_finite false 4975559391744590 (-782), true, false);
  (S754_finite true 8034035547241019 (343), S754_finite true 6192449487634432 (-52), S754_finite true 8034035547241019 (343), S754_finite false 5523399438728201 (344), S754_finite false 8034035547241019 (343), true, false);
  (S754_nan, S754_nan, S754_nan, S754_nan, S754_nan, false, false);
  (S754_finite false 4503599627370496 (-51), S754_finite true 4503599627370496 (-51), S754_finite false 4503599627370496 (-50), S754_finite true 4503599627370496 (-50), S754_finite false 4503599627370496 (-51), false, false);
  (S754_finite false 6075831541719562 (-13), S754_finite false 6075830994894723 (-13), S754_finite false 4587099219034112 (-36), S754_finite false 8196937706581299 (26), S754_finite false 6075831541719562 (-13), false, false);
  (S754_finite true 6755399441055744 (-52), S754_finite true 6755399441055743 (-52), S754_finite true 4503599627370496 (-104), S754_finite false 5066549580791807 (-51), S754_finite false 6755399441055744 (-52), true, false);
  (S754_finite false 6834430164541910 (-15), S754_finite false 5762519927234778 (-177), S754_finite false 6834430164541910 (-15), S754_finite false 8744902583061535 (-140), S754_finite false 6834430164541910 (-15), false, false);
  (S754_finite true 4785074604081152 (-50), S754_finite true 4785075178290104 (-50), S754_finite false 4816813808418816 (-73), S754_finite false 5084142376933236 (-48), S754_finite false 4785074604081152 (-50), false, false);
  (S754_finite false 4853067721156433 (967), S754_finite false 4853067721156433 (967), S754_zero false, S754_infinity false, S754_finite false 4853067721156433 (967), true, true);
  (S754_finite true 7337636039111374 (-100), S754_finite true 7337635378724130 (-100), S754_finite true 5539729718116352 (-123), S754_finite false 5977540440048036 (-147), S754_finite false 7337636039111374 (-100), true, false);
  (S754_finite false 6027455323058889 (313), S754_finite false 5404317469945445 (-175), S754_finite false 6027455323058889 (313), S754_finite false 7232943599993562 (190), S754_finite false 6027455323058889 (313), false, false);
  (S754_finite false 4503599627370496 (-52), S754_finite false 4503600167802451 (-52), S754_finite true 4533471821168640 (-75), S754_finite false 4503600167802451 (-52), S754_finite false 4503599627370496 (-52), true, false);
  (S754_finite true 5488762045857792 (-50), S754_finite false 8933483872462726 (-448), S754_finite true 5488762045857792 (-50), S754_finite true 5443841734781974 (-445), S754_finite false 5488762045857792 (-50), true, false);
  (S754_infinity false, S754_infinity false, S754_nan, S754_infinity false, S754_infinity false, true, true);
  (S754_finite true 4665088798427549 (-21), S754_finite true 4665088798427549 (-21), S754_zero false, S754_finite false 4832368615751246 (10), S754_finite false 4665088798427549 (-21), true, true);
  (S754_finite true 7518556609719376 (957), S754_finite true 7518557511946169 (957), S754_finite false 7568426893574144 (934), S754_infinity false, S754_finite false 7518556609719376 (957), false, false);
  (S754_finite true 7951383235671932 (-972), S754_finite false 7951383235671932 (-972), S754_finite true 7951383235671932 (-971), S754_zero true, S754_finite false 7951383235671932 (-972), true, false);
  (S754_finite false 4503599627370496 (-1074), S754_finite false 5770237022568448 (-50), S754_finite true 5770237022568448 (-50), S754_finite false 5770237022568448 (-1072), S754_finite false 4503599627370496 (-1074), true, false);
  (S754_finite false 5348024557502464 (-50), S754_finite false 4503599627370496 (-1074), S754_finite false 5348024557502464 (-50), S754_finite false 5348024557502464 (-1072), S754_finite false 5348024557502464 (-50), false, false);
  (S754_finite true 7498631634062601 (291), S754_finite true 7498632533898397 (291), S754_finite false 7548369757011968 (268), S754_finite false 6242726683469870 (635), S754_finite false 7498631634062601 (291), false, false);
  (S754_finite true 8545629776412880 (-980), S754_finite true 8545629776412880 (-980), S754_zero false, S754_zero false, S754_finite false 8545629776412880 (-980), true, true);
  (S754_finite false 4503599627370496 (-51), S754_finite false 4503600077730459 (-51), S754_finite true 7555786377003008 (-75), S754_finite false 4503600077730459 (-50), S754_finite false 4503599627370496 (-51), true, false);
  (S754_finite false 6614661952700416 (-50), S754_finite false 6614662746459850 (-50), S754_finite true 6658536738127872 (-73), S754_finite false 4857642954431452 (-47), S754_finite false 6614661952700416 (-50), true, false);
  (S754_finite false 8447944931271888 (49), S754_finite false 8447945776066382 (49), S754_finite true 7086649850724352 (26), S754_finite false 7923415334796208 (151), S754_finite false 8447944931271888 (49), true, false);
  (S754_finite true 6249882235955079 (-377), S754_finite false 6249882235955079 (-377), S754_finite true 6249882235955079 (-376), S754_finite true 8673290522078072 (-702), S754_finite false 6249882235955079 (-377), true, false);
  (S754_finite true 5413793317574784 (-771), S754_finite true 5413793317574784 (-771), S754_zero false, S754_zero false, S754_finite false 5413793317574784 (-771), true, true);
  (S754_finite false 8276358989419687 (762), S754_finite false 8276359817055586 (762), S754_finite true 6942713123438592 (739), S754_infinity false, S754_finite false 8276358989419687 (762), true, false);
  (S754_finite true 5919219193683862 (945), S754_finite true 5919219785605782 (945), S754_finite false 4965400953487360 (922), S754_infinity false, S754_finite false 5919219193683862 (945), false, false);
  (S754_finite false 7881299347898368 (-51), S754_finite false 7881298638581427 (-51), S754_finite false 5950181765808128 (-74), S754_finite false 6896136308758749 (-49), S754_finite false 7881299347898368 (-51), false, false);
  (S754_finite false 4949814496038596 (-819), S754_finite true 7195735549333880 (-892), S754_finite false 4949814496038596 (-819), S754_zero true, S754_finite false 4949814496038596 (-819), false, false);
  (S754_finite false 8157132354148079 (612), S754_finite false 8157131620006167 (612), S754_finite false 6158428716138496 (589), S754_infinity false, S754_finite false 8157132354148079 (612), false, false);
  (S754_finite false 5629499534213120 (-51), S754_finite false 5629499534213121 (-51), S754_finite true 4503599627370496 (-103), S754_finite false 7036874417766401 (-50), S754_finite false 5629499534213120 (-51), true, false);
  (S754_finite true 8298393219499971 (-95), S754_finite false 8298393219499971 (-95), S754_finite true 8298393219499971 (-94), S754_finite true 7645365454660779 (-137), S754_finite false 8298393219499971 (-95), true, false);
  (S754_finite false 8988995971787262 (-784), S754_finite false 8988995971787262 (-784), S754_zero false, S754_zero false, S754_finite false 8988995971787262 (-784), true, true);
  (S754_finite false 6683001819408816 (-501), S754_finite false 6683001819408816 (-501), S754_zero false, S754_finite false 4958535062351726 (-949), S754_finite false 6683001819408816 (-501), true, true);
  (S754_finite true 6851073136275202 (496), S754_nan, S754_nan, S754_nan, S754_finite false 6851073136275202 (496), false, false);
  (S754_finite false 8312490449797718 (-732), S754_finite false 7389162571918566 (36), S754_finite true 7389162571918566 (36), S754_finite false 6819249977038735 (-643), S754_finite false 8312490449797718 (-732), true, false);
  (S754_finite false 8530437177871456 (-81), S754_finite false 8530438201523917 (-81), S754_finite true 8587019223564288 (-104), S754_finite false 8078911670518723 (-109), S754_finite false 8530437177871456 (-81), true, false);
  (S754_finite false 4800223434454666 (-980), S754_finite false 4800223002434557 (-980), S754_finite false 7248094685036544 (-1004), S754_zero false, S754_finite false 4800223434454666 (-980), false, false);
  (S754_finite false 5071765654772827 (-4), S754_finite false 5071766263384705 (-4), S754_finite true 5105406468685824 (-27), S754_finite false 5711611171503886 (44), S754_finite false 5071765654772827 (-4), true, false);
  (S754_finite true 8444249301319680 (-52), S754_finite true 8444250314629596 (-52), S754_finite false 8500259667836928 (-75), S754_finite false 7916484669965246 (-51), S754_finite false 8444249301319680 (-52), false, false);
  (S754_finite true 7376255785812224 (-71), S754_finite false 7376255785812224 (-71), S754_finite true 7376255785812224 (-70), S754_finite true 6040629043383240 (-89), S754_finite false 7376255785812224 (-71), true, false);
  (S754_finite false 7703657206243895 (632), S754_finite false 7703657206243895 (632), S754_zero false, S754_infinity false, S754_finite false 7703657206243895 (632), true, true);
  (S754_infinity false, S754_finite false 4503599627370496 (-52), S754_infinity false, S754_infinity false, S754_infinity false, false, false);
  (S754_finite false 4503599627370496 (-1074), S754_finite false 4503599222046530 (-1074), S754_finite false 405323966 (-1074), S754_zero false, S754_finite false 4503599627370496 (-1074), false, false);
  (S754_finite true 7318349394477056 (-51), S754_finite false 4785074604081152 (-50), S754_finite true 8444249301319680 (-50), S754_finite true 7775746231631872 (-49), S754_finite false 7318349394477056 (-51), true, false);
  (S754_finite false 6940803308289254 (-434), S754_finite false 6940803308289255 (-434), S754_finite true 4503599627370496 (-486), S754_finite false 5348471728212518 (-815), S754_finite false 6940803308289254 (-434), true, false);
  (S754_finite false 5348024557502464 (-51), S754_zero false, S754_finite false 5348024557502464 (-51), S754_zero false, S754_finite false 5348024557502464 (-51), false, false);
  (S754_finite false 6578177555803686 (-942), S754_finite true 6578177555803686 (-942), S754_finite false 6578177555803686 (-941), S754_zero true, S754_finite false 6578177555803686 (-942), false, false);
  (S754_finite true 5697512008306065 (-817), S754_finite true 5697511495529984 (-817), S754_finite true 8602955070570496 (-841), S754_zero false, S754_finite false 5697512008306065 (-817), true, false);
  (S754_finite true 6473924464345088 (-51), S754_finite true 8854946331023443 (584), S754_finite false 8854946331023443 (584), S754_finite false 6364492675423100 (586), S754_finite false 6473924464345088 (-51), false, false);
  (S754_finite false 7646441878906680 (-186), S754_finite true 6755399441055744 (-50), S754_finite false 6755399441055744 (-50), S754_finite true 5734831409180010 (-183), S754_finite false 7646441878906680 (-186), false, false);
  (S754_finite false 7881299347898368 (-51), S754_finite false 6137183185779404 (532), S754_finite true 6137183185779404 (532), S754_finite false 5370035287556978 (534), S754_finite false 7881299347898368 (-51), true, false);
  (S754_finite true 8513138272664426 (205), S754_finite true 8513138272664425 (205), S754_finite true 4503599627370496 (153), S754_finite false 8046177418730575 (463), S754_finite false 8513138272664426 (205), true, false);
  (S754_finite true 5770237022568448 (-50), S754_finite true 7996360762635879 (-308), S754_finite true 5770237022568448 (-50), S754_finite false 5122668613563610 (-305), S754_finite false 5770237022568448 (-50), true, false);
  (S754_finite false 6703130480046868 (615), S754_finite false 6703131284422525 (615), S754_finite true 6747592071315456 (592), S754_infinity false, S754_finite false 6703130480046868 (615), true, false);
  (S754_finite false 6896136929411072 (-50), S754_finite false 6896137619024765 (-50), S754_finite true 5784898942009344 (-73), S754_finite false 5279855364565836 (-47), S754_finite false 6896136929411072 (-50), true, false);
  (S754_finite false 5770237022568448 (-50), S754_finite false 5770237022568448 (-50), S754_zero false, S754_finite false 7393116185165824 (-48), S754_finite false 5770237022568448 (-50), true, true);
  (S754_finite true 6755399441055744 (-52), S754_finite true 6755400251703676 (-52), S754_finite false 6800207727558656 (-75), S754_finite false 5066550188777757 (-51), S754_finite false 6755399441055744 (-52), false, false);
  (S754_finite false 8562275212839759 (725), S754_finite false 8562276069067281 (725), S754_finite true 7182557040869376 (702), S754_infinity false, S754_finite false 8562275212839759 (725), true, false);
  (S754_finite true 6315541810169535 (-861), S754_finite true 6315542568034552 (-861), S754_finite false 6357432544526336 (-884), S754_zero false, S754_finite false 6315541810169535 (-861), false, false);
  (S754_finite false 4681665258165402 (872), S754_finite false 4681665258165402 (872), S754_zero false, S754_infinity false, S754_finite false 4681665258165402 (872), true, true);
  (S754_finite false 6309241514592751 (-788), S754_finite false 6309241514592752 (-788), S754_finite true 4503599627370496 (-840), S754_zero false, S754_finite false 6309241514592751 (-788), true, false);
  (S754_finite true 4734912209274770 (-512), S754_finite true 4734912209274770 (-512), S754_zero false, S754_finite false 4978105401129814 (-972), S754_finite false 4734912209274770 (-512), true, true);
  (S754_finite true 8916095391068771 (-750), S754_finite false 5977367830177667 (-223), S754_finite true 5977367830177667 (-223), S754_finite true 5916909380384565 (-920), S754_finite false 8916095391068771 (-750), true, false);
  (S754_finite false 7929511358378244 (-645), S754_finite false 7929512151329380 (-645), S754_finite true 6651756243058688 (-668), S754_zero false, S754_finite false 7929511358378244 (-645), true, false);
  (S754_finite true 8136051855929197 (-772), S754_finite true 8136051855929197 (-772), S754_zero false, S754_zero false, S754_finite false 8136051855929197 (-772), true, true);
  (S754_finite true 5629499534213120 (-53), S754_finite false 5629499534213120 (-53), S754_finite true 5629499534213120 (-52), S754_finite true 7036874417766400 (-54), S754_finite false 5629499534213120 (-53), true, false);
  (S754_finite true 5066549580791808 (-51), S754_finite false 6823053898778423 (683), S754_finite true 6823053898778423 (683), S754_finite true 7675935636125726 (684), S754_finite false 5066549580791808 (-51), true, false);
  (S754_finite false 5690162252643603 (672), S754_finite false 5690161740529000 (672), S754_finite false 8591857311285248 (648), S754_infinity false, S754_finite false 5690162252643603 (672), false, false);
  (S754_finite true 5227691837840918 (94), S754_finite false 8422355268180690 (339), S754_finite true 8422355268180690 (339), S754_finite true 4888254011666221 (486), S754_finite false 5227691837840918 (94), true, false);
  (S754_finite true 8974404244072601 (-444), S754_finite true 8974403436376219 (-444), S754_finite true 6775448331616256 (-467), S754_finite false 8941727834547661 (-835), S754_finite false 8974404244072601 (-444), true, false);
  (S754_finite false 9007199254740991 (971), S754_infinity false, S754_infinity true, S754_infinity false, S754_finite false 9007199254740991 (971), true, false);
  (S754_finite true 6755399441055744 (-50), S754_finite false 7119674860941868 (-77), S754_finite true 6755399494101455 (-50), S754_finite true 5339756145706401 (-74), S754_finite false 6755399441055744 (-50), true, false);
  (S754_finite true 4503599627370496 (-53), S754_finite true 9007199254740991 (-54), S754_finite true 4503599627370496 (-106), S754_finite false 9007199254740991 (-55), S754_finite false 4503599627370496 (-53), true, false);
  (S754_finite false 7318349394477056 (-52), S754_finite false 7318350272678983 (-52), S754_finite true 7366891710447616 (-75), S754_finite false 5946159596551674 (-51), S754_finite false 7318349394477056 (-52), true, false);
  (S754_finite true 5800027462265114 (68), S754_finite true 5800028158268409 (68), S754_finite false 5838498808463360 (45), S754_finite false 7469652141238231 (188), S754_finite false 5800027462265114 (68), false, false);
  (S754_finite true 4503599627370496 (-50), S754_finite true 4503600167802451 (-50), S754_finite false 4533471821168640 (-73), S754_finite false 4503600167802451 (-48), S754_finite false 4503599627370496 (-50), false, false);
  (S754_finite true 8785482169824933 (441), S754_finite true 8785482169824933 (441), S754_zero false, S754_finite false 8569222770961261 (935), S754_finite false 8785482169824933 (441), true, true);
  (S754_finite false 6729658009718514 (-822), S754_finite false 6729658817277475 (-822), S754_finite true 6774295560716288 (-845), S754_zero false, S754_finite false 6729658009718514 (-822), true, false);
  (S754_finite true 6192449487634432 (-51), S754_finite true 6192448930313978 (-51), S754_finite true 4675142818988032 (-74), S754_finite false 8514617279181720 (-50), S754_finite false 6192449487634432 (-51), true, false);
  (S754_finite false 1 (-1074), S754_finite false 9007199254740991 (971), S754_finite true 9007199254740991 (971), S754_finite false 9007199254740991 (-103), S754_finite false 1 (-1074), true, false);
  (S754_finite false 6010962308487486 (-169), S754_finite false 6010962308487486 (-169), S754_zero false, S754_finite false 8022841918377478 (-286), S754_finite false 6010962308487486 (-169), true, true);
  (S754_finite true 5189753211343966 (-288), S754_finite true 5189752744266177 (-288), S754_finite true 7836264954855424 (-312), S754_finite false 5980446353834113 (-524), S754_finite false 5189753211343966 (-288), true, false);
  (S754_finite false 8608336604811071 (-87), S754_finite false 8608337465644732 (-87), S754_finite true 7221196135333888 (-110), S754_finite false 8227137472624614 (-121), S754_finite false 8608336604811071 (-87), true, false);
  (S754_finite true 6871641536108112 (604), S754_finite false 6871641536108112 (604), S754_finite true 6871641536108112 (605), S754_infinity true, S754_finite false 6871641536108112 (604), true, false)].
Lemma ok_arith : forallb (fun v => match v with (x, y, a, b, c, p, q) => same_float (f_sub x y) a && same_float (f_mul x y) b && same_float (f_abs x) c && Bool.eqb (f_leb x y) p && Bool.eqb (f_eqb x y) q end) v_arith = true.
Proof. vm_compute. reflexivity. Qed.

(** the formula of numpy.isclose, evaluated by Python *)
Definition v_isclose : list (spec_float * spec_float * bool) := [
  (S754_finite false 7142897391898694 (168), S754_finite true 7142897391898694 (168), false);
  (S754_finite false 9007199254740991 (971), S754_finite false 9007198444093058 (971), true);
  (S754_finite false 6192449487634432 (-50), S754_finite false 6192448930313978 (-50), true);
  (S754_finite true 5066549580791808 (-52), S754_finite false 7378877110832665 (66), false);
  (S754_finite false 5629499534213120 (-53), S754_finite false 5629500209753064 (-53), false);
  (S754_finite false 7932329848118404 (-924), S754_finite false 7932329134208718 (-924), true);
  (S754_finite true 6192449487634432 (-50), S754_finite true 6192449487634432 (-50), true);
  (S754_finite true 5494430628293051 (-1005), S754_finite false 5088632816224056 (-428), false);
  (S754_zero true, S754_finite false 1 (-1074), false);
  (S754_finite true 7153473970949342 (527), S754_finite false 7153473970949342 (527), false);
  (S754_finite true 6473924464345088 (-50), S754_finite true 6473924464345088 (-50), true);
  (S754_finite false 5981752831083938 (-973), S754_finite true 8796788710571411 (160), false);
  (S754_infinity false, S754_infinity false, true);
  (S754_finite true 6192449487634432 (-51), S754_finite false 6192449487634432 (-51), false);
  (S754_finite true 7443806495649143 (-168), S754_finite false 7443806495649143 (-168), false);
  (S754_finite false 7143542652285650 (90), S754_finite false 7143542009366811 (90), true);
  (S754_finite false 4503599627370496 (-51), S754_finite false 4503599627370496 (-51), true);
  (S754_finite false 5206387682288684 (65), S754_finite false 4705381392969028 (433), false);
  (S754_finite false 6614661952700416 (-50), S754_finite false 6614661952700416 (-50), true);
  (S754_finite true 4672997150321702 (249), S754_finite true 4672996729751958 (249), true);
  (S754_finite false 6712371847838189 (848), S754_finite false 7849743412913066 (231), false);
  (S754_infinity true, S754_finite false 4503599627370496 (-52), false);
  (S754_finite true 6896136929411072 (-50), S754_finite true 6896136929411071 (-50), true);
  (S754_finite false 7750658630094033 (-824), S754_finite false 7750657932534756 (-824), true);
  (S754_finite true 7948167707936885 (-385), S754_finite true 5153907363198966 (-257), false);
  (S754_infinity true, S754_infinity true, true);
  (S754_nan, S754_nan, true);
  (S754_finite true 8054185015536575 (398), S754_finite true 8054185820955077 (398), true);
  (S754_finite true 5772787503617646 (780), S754_finite true 5772788080896397 (780), true);
  (S754_finite true 4503599627370496 (-55), S754_finite true 9007198444093059 (-56), true);
  (S754_finite false 8781654809394814 (565), S754_finite false 8781655687560295 (565), true);
  (S754_finite false 8216597528437820 (-191), S754_finite false 8590642723063632 (850), false);
  (S754_finite true 7483870523778490 (-320), S754_finite false 7483870523778490 (-320), false);
  (S754_finite false 9007199254740991 (971), S754_finite true 9007199254740991 (971), false);
  (S754_finite false 9007199254740991 (971), S754_infinity false, false);
  (S754_finite true 5629499534213120 (-53), S754_finite true 5629500209753064 (-53), false);
  (S754_finite true 5329513712771767 (-214), S754_finite true 8146480488353394 (-605), false);
  (S754_finite false 6473924464345088 (-50), S754_finite false 6473924464345088 (-50), true);
  (S754_finite true 4925812092436480 (-50), S754_finite true 4925811649113392 (-50), true);
  (S754_finite true 8827102251450020 (-80), S754_finite true 8466923874944658 (-733), false);
  (S754_finite false 7881299347898368 (-53), S754_finite false 7881300293654289 (-53), false);
  (S754_finite false 7318349394477056 (-52), S754_finite false 7318349394477056 (-52), true);
  (S754_finite true 8433372012885453 (-535), S754_finite true 8433373024890094 (-535), false);
  (S754_finite true 5617477599428000 (-261), S754_finite false 5617477599428000 (-261), false);
  (S754_finite true 6018726023375561 (171), S754_finite true 6018726023375561 (171), true);
  (S754_finite false 5123845484766141 (-830), S754_finite false 5123845997150690 (-830), true);
  (S754_finite false 5629499534213120 (-51), S754_finite false 7400661185835834 (155), false);
  (S754_finite true 5247420725577493 (649), S754_finite true 5247420253309628 (649), true);
  (S754_zero false, S754_zero true, true);
  (S754_finite false 6065869910656212 (-605), S754_finite false 6065869910656213 (-605), true);
  (S754_finite false 8021399667930502 (-721), S754_finite true 8021399667930502 (-721), false);
  (S754_finite false 5770237022568448 (-50), S754_finite false 5770237714996890 (-50), false);
  (S754_finite true 6332483613778907 (-165), S754_finite true 6332483043855382 (-165), true);
  (S754_finite false 4925812092436480 (-50), S754_finite true 7042633974542144 (559), false);
  (S754_finite false 8104506356187938 (747), S754_finite false 8104507166638574 (747), true);
  (S754_finite true 8162774324609024 (-51), S754_finite true 8162774324609023 (-51), true);
  (S754_finite false 5066549580791808 (-52), S754_finite true 5066549580791808 (-52), false);
  (S754_finite false 6518772686092737 (140), S754_finite false 6518772099403195 (140), true);
  (S754_finite false 5066549580791808 (-50), S754_finite false 5066549580791809 (-50), true);
  (S754_finite true 6614661952700416 (-50), S754_finite true 6614661952700415 (-50), true);
  (S754_finite false 4644172411307943 (712), S754_finite false 4644172411307944 (712), true);
  (S754_finite false 6242556491191436 (-1039), S754_finite true 7036874417766400 (-51), false);
  (S754_finite true 5184621254460775 (630), S754_finite true 8162774324609024 (-51), false);
  (S754_finite false 5629499534213120 (-51), S754_finite true 5629499534213120 (-51), false);
  (S754_finite false 5629499534213120 (-50), S754_finite false 5629500209753064 (-50), false);
  (S754_finite true 6840140498494594 (-819), S754_finite true 6840140498494594 (-819), true);
  (S754_finite false 6265178753433967 (-718), S754_finite false 6265178753433967 (-718), true);
  (S754_finite false 5066549580791808 (-52), S754_finite false 5066550087446766 (-52), true);
  (S754_finite false 5629499534213120 (-50), S754_finite false 5629500097163074 (-50), true);
  (S754_finite false 8863967878790788 (-1036), S754_finite false 8863967878790789 (-1036), true);
  (S754_finite true 8390523612679954 (-588), S754_finite true 8390522857532829 (-588), true);
  (S754_finite true 7881299347898368 (-52), S754_finite true 7881300136028303 (-52), true);
  (S754_finite false 1 (-1074), S754_finite false 1 (-1074), true);
  (S754_finite false 8868237444952937 (-430), S754_finite true 8868237444952937 (-430), false);
  (S754_finite true 5629499534213120 (-50), S754_finite true 5629500209753064 (-50), false);
  (S754_finite true 4785074604081152 (-50), S754_finite false 4785074604081152 (-50), false);
  (S754_finite true 6755399441055744 (-53), S754_finite true 6755399441055744 (-53), true);
  (S754_finite true 6192449487634432 (-50), S754_finite false 6192449487634432 (-50), false);
  (S754_finite false 5349769094710968 (-477), S754_finite false 5349769094710969 (-477), true);
  (S754_finite false 7098305425880758 (82), S754_finite false 7098306135711301 (82), true);
  (S754_finite true 8364637390049394 (758), S754_finite true 8364637390049394 (758), true);
  (S754_finite false 4958152196580051 (-355), S754_finite false 4958151750346353 (-355), true);
  (S754_finite false 6755399441055744 (-50), S754_finite false 6755399441055744 (-50), true);
  (S754_zero false, S754_finite true 5920430385606665 (731), false);
  (S754_finite false 6273867949602170 (349), S754_finite true 6273867949602170 (349), false);
  (S754_finite false 5348024557502464 (-51), S754_finite true 5629499534213120 (-52), false);
  (S754_finite true 7506555315963777 (-656), S754_finite false 6192449487634432 (-52), false);
  (S754_finite false 7318349394477056 (-51), S754_finite false 7164742256664123 (219), false);
  (S754_finite true 7864562591237574 (77), S754_finite true 7864562591237573 (77), true);
  (S754_finite false 7629589481725935 (-1035), S754_finite false 7629590244684884 (-1035), true);
  (S754_finite true 5378055884554854 (85), S754_finite true 5378055884554853 (85), true);
  (S754_finite false 1 (-1074), S754_finite true 1 (-1074), false);
  (S754_finite true 4968412204208084 (-87), S754_finite true 4968412204208083 (-87), true);
  (S754_finite true 6191708750688452 (751), S754_finite true 6191709493693502 (751), false);
  (S754_finite false 8908183318742352 (432), S754_finite false 8908183318742353 (432), true);
  (S754_finite true 5348024557502464 (-50), S754_finite true 5348024076180254 (-50), true);
  (S754_finite true 4805541827178332 (-544), S754_finite false 4805541827178332 (-544), false);
  (S754_finite false 5348024557502464 (-51), S754_finite false 5348024557502465 (-51), true);
  (S754_finite true 8162774324609024 (-51), S754_finite false 8162774324609024 (-51), false);
  (S754_finite true 5348024557502464 (-50), S754_finite true 5348024557502463 (-50), true);
  (S754_finite false 4503599627370496 (-55), S754_finite false 4503599627370496 (-55), true);
  (S754_finite true 7539292431574348 (-680), S754_finite false 7539292431574348 (-680), false);
  (S754_finite true 7065833799561641 (-4), S754_finite true 7065834506145021 (-4), true);
  (S754_finite true 4578641569694592 (35), S754_finite false 6755399441055744 (-51), false);
  (S754_finite true 8401585603523301 (755), S754_finite true 8401586611713573 (755), false);
  (S754_finite true 8322204817055013 (-655), S754_finite false 8322204817055013 (-655), false);
  (S754_finite true 5594868490549967 (-315), S754_finite true 5594868490549967 (-315), true);
  (S754_finite true 5452763700019937 (834), S754_finite true 5452763700019937 (834), true);
  (S754_finite true 5629499534213120 (-52), S754_finite true 5629500097163074 (-52), true);
  (S754_finite false 5629499534213120 (-51), S754_finite false 5629499534213120 (-51), true);
  (S754_finite false 4925812092436480 (-50), S754_finite true 7575476582282030 (-574), false);
  (S754_finite false 8783130022655874 (-317), S754_finite false 8783129232174172 (-317), true);
  (S754_finite false 5581853558606538 (647), S754_finite false 5581853056239718 (647), true);
  (S754_finite false 6755399441055744 (-53), S754_finite false 6755398833069794 (-53), true);
  (S754_finite true 5488762045857792 (-50), S754_finite true 5488762594733997 (-50), true);
  (S754_finite false 4503599627370496 (-1074), S754_finite false 4503600077730459 (-1074), true);
  (S754_finite false 6013977866051913 (-568), S754_finite true 6013977866051913 (-568), false);
  (S754_finite false 8499621000478788 (150), S754_finite false 8499621000478788 (150), true);
  (S754_finite true 7428222895839603 (-493), S754_finite false 4503599627370496 (-50), false);
  (S754_infinity false, S754_finite false 4503599627370496 (-52), false);
  (S754_finite true 7318349394477056 (-51), S754_finite false 7318349394477056 (-51), false);
  (S754_finite true 6229647289110875 (831), S754_finite true 6229647289110874 (831), true);
  (S754_finite true 7318349394477056 (-51), S754_finite true 7318350272678983 (-51), false);
  (S754_finite true 8467790591581130 (720), S754_finite false 7881299347898368 (-51), false);
  (S754_finite true 8809279329368510 (-592), S754_finite true 8809279329368509 (-592), true);
  (S754_finite false 7230296366787256 (-201), S754_finite false 7230297234422820 (-201), false);
  (S754_finite true 6752648416927239 (-716), S754_finite true 6752649227245049 (-716), false);
  (S754_nan, S754_finite false 4503599627370496 (-52), false);
  (S754_finite true 5207287069147136 (-50), S754_finite false 5207287069147136 (-50), false);
  (S754_finite false 6900208413500572 (403), S754_finite false 6900208413500573 (403), true);
  (S754_finite true 6731543786527239 (-675), S754_finite true 6731543180688298 (-675), true);
  (S754_finite false 5256026364597418 (-967), S754_finite false 5256025891555045 (-967), true);
  (S754_finite false 5064957739638796 (-1061), S754_finite false 5064958347433724 (-1061), false);
  (S754_finite false 6333186975989760 (-50), S754_finite true 7024756848097361 (871), false);
  (S754_finite false 6324792066438896 (910), S754_finite false 6324792066438896 (910), true);
  (S754_finite true 5396584954261885 (-903), S754_finite true 5396584468569239 (-903), true);
  (S754_finite false 7599824371187712 (-51), S754_finite false 7599823687203519 (-51), true);
  (S754_finite true 8645001903832816 (665), S754_finite true 8645002768333007 (665), true);
  (S754_finite true 4503599627370496 (-52), S754_finite true 4503600077730459 (-52), true);
  (S754_finite false 8923594602425585 (876), S754_finite false 8923594602425586 (876), true);
  (S754_finite true 8466576191449293 (90), S754_finite true 8466575429457436 (90), true);
  (S754_finite true 6614661952700416 (-50), S754_finite true 6614662614166612 (-50), true);
  (S754_finite false 6410276396424998 (-693), S754_finite false 6410277165658165 (-693), false);
  (S754_finite false 4665715976624401 (298), S754_finite false 4665715556709963 (298), true);
  (S754_finite true 7446239156018632 (-489), S754_finite true 7446239900642548 (-489), true);
  (S754_finite false 5207287069147136 (-50), S754_finite true 5207287069147136 (-50), false);
  (S754_finite false 6473924464345088 (-50), S754_finite false 6473925111737535 (-50), true);
  (S754_finite false 4503599627370496 (-52), S754_finite true 5629499534213120 (-51), false);
  (S754_finite true 6755399441055744 (-50), S754_finite true 6755400251703676 (-50), false);
  (S754_finite true 7767009142423746 (-707), S754_finite true 7767009142423745 (-707), true);
  (S754_finite false 7944307211575836 (-351), S754_finite false 7944307211575837 (-351), true);
  (S754_finite false 5207287069147136 (-50), S754_finite false 5207286600491300 (-50), true);
  (S754_zero true, S754_finite true 4763416270919753 (-496), false);
  (S754_finite false 4503599627370496 (-50), S754_finite false 9007198444093059 (-51), true);
  (S754_finite false 6685854056794252 (876), S754_finite true 6685854056794252 (876), false);
  (S754_finite false 7470042697175543 (-424), S754_finite false 7470042697175543 (-424), true);
  (S754_finite true 4503599627370496 (-50), S754_finite true 9007199254740991 (-51), true);
  (S754_finite true 6016549027373042 (220), S754_finite true 6016549027373041 (220), true);
  (S754_finite true 8843523296220497 (-500), S754_finite true 8843522500303400 (-500), true);
  (S754_finite true 8396615493906990 (-563), S754_finite false 8162774324609024 (-51), false);
  (S754_finite true 7496758695911026 (-1003), S754_finite false 5054008508248282 (-422), false);
  (S754_finite true 6755399441055744 (-51), S754_finite false 8172066242516353 (197), false);
  (S754_finite false 6506006638913119 (646), S754_finite false 6506007289513783 (646), true);
  (S754_nan, S754_finite false 4503599627370496 (-52), false);
  (S754_finite true 5530563987589972 (570), S754_finite true 5530563987589971 (570), true);
  (S754_finite true 8721646868153127 (-308), S754_finite true 8721647914750751 (-308), false);
  (S754_finite true 5066549580791808 (-50), S754_finite true 5066550087446766 (-50), true);
  (S754_finite false 7242276855052985 (-174), S754_finite false 7242277579280671 (-174), true);
  (S754_finite false 6843898273099958 (-898), S754_finite true 6843898273099958 (-898), false);
  (S754_finite false 8536976171855748 (629), S754_finite false 8729369251524906 (-637), false);
  (S754_finite true 7318349394477056 (-52), S754_finite false 7318349394477056 (-52), false);
  (S754_finite false 1 (-1074), S754_finite false 2 (-1074), false);
  (S754_finite true 6083314992975326 (217), S754_finite true 6083315722973125 (217), false);
  (S754_finite false 6897982738544758 (122), S754_finite false 6897983566302686 (122), false);
  (S754_finite false 4785074604081152 (-51), S754_finite true 4785074604081152 (-51), false);
  (S754_finite true 4893659758750352 (459), S754_finite true 4893659318320974 (459), true);
  (S754_finite false 8658981980332571 (-745), S754_finite false 8658983019410408 (-745), false);
  (S754_finite true 7881299347898368 (-51), S754_finite true 7881299347898367 (-51), true);
  (S754_finite true 4683576402861032 (-340), S754_finite true 4683576402861031 (-340), true);
  (S754_finite true 8454946884702870 (-412), S754_finite true 8454947730197559 (-412), true);
  (S754_finite false 6608860180854947 (-143), S754_finite true 6608860180854947 (-143), false);
  (S754_finite true 6755399441055744 (-51), S754_finite true 6755399441055743 (-51), true);
  (S754_finite true 5425606588046673 (621), S754_finite true 8444249301319680 (-51), false);
  (S754_finite true 7014485862793909 (-875), S754_finite false 8474832035203000 (568), false);
  (S754_finite true 8781793612239851 (-767), S754_finite false 8781793612239851 (-767), false);
  (S754_finite true 4503599627370496 (-53), S754_finite true 4503600167802451 (-53), false);
  (S754_finite true 7779038988348351 (-435), S754_finite true 7779038988348350 (-435), true);
  (S754_finite true 6830194225543001 (-530), S754_finite true 6830194225543001 (-530), true);
  (S754_finite true 5629499534213120 (-52), S754_finite true 5629499534213119 (-52), true);
  (S754_finite false 8204709386207210 (452), S754_finite false 8204709386207211 (452), true);
  (S754_finite false 7605500435291942 (451), S754_finite false 7605500435291943 (451), true);
  (S754_finite false 7891761323644181 (230), S754_finite false 7891762112820314 (230), true);
  (S754_finite true 8583818277677056 (228), S754_finite true 8583819307735249 (228), false);
  (S754_finite true 4757283129116663 (59), S754_finite false 4757283129116663 (59), false);
  (S754_finite true 8482905176267714 (-21), S754_finite true 8482904412806248 (-21), true);
  (S754_finite false 7010859994210217 (-1010), S754_finite false 7010859994210217 (-1010), true);
  (S754_finite true 5873147467750668 (-109), S754_finite false 5873147467750668 (-109), false);
  (S754_finite false 4785074604081152 (-51), S754_finite false 7222935984174489 (-560), false);
  (S754_finite true 8071571581247758 (-81), S754_finite true 8071571581247757 (-81), true);
  (S754_finite false 5051338791102480 (521), S754_finite false 5051338336481989 (521), true)].
Lemma ok_isclose : forallb (fun v => match v with (x, y, r) => Bool.eqb (isclose x y) r end) v_isclose = true.
Proof. vm_compute. reflexivity. Qed.

(** [1e-7] and the fill value *)
Definition v_constants : list (spec_float * spec_float) := [
  (S754_finite false 7555786372591432 (-76), S754_finite false 8444249301319680 (70))].
Lemma ok_constants : forallb (fun v => match v with (x, y) => same_float rtol64 x && same_float fill64 y end) v_constants = true.
Proof. vm_compute. reflexivity. Qed.

(** [pathlib.PurePosixPath(s).with_suffix('.sofa')]; None: ValueError *)
Definition v_with_suffix : list (string * option string) := [
  ("..a./.sofa", Some ("..a./.sofa.sofa"));
  ("", None);
  ("a.b..////", Some ("a.b...sofa"));
  ("a.b.", Some ("a.b..sofa"));
  (".sofa///", Some (".sofa.sofa"));
  ("/", None);
  (".b../b", Some (".b../b.sofa"));
  ("//", None);
  ("a.b///", Some ("a.sofa"));
  ("/..//..", Some ("/../...sofa"));
  ("..sofa", Some ("..sofa"));
  ("././.b", Some (".b.sofa"));
  ("/a", Some ("/a.sofa"));
  ("//..", Some ("//...sofa"));
  ("..//", Some ("...sofa"));
  ("///./a", Some ("/a.sofa"));
  ("a..", Some ("a...sofa"));
  ("a/a.b", Some ("a/a.sofa"));
  ("ab/.sofab", Some ("ab/.sofab.sofa"));
  ("b//", Some ("b.sofa"));
  ("/a.b////.", Some ("/a.sofa"));
  (".a.ba.sofaa.sofa", Some (".a.ba.sofaa.sofa"));
  ("a.b/", Some ("a.sofa"));
  ("a../b", Some ("a../b.sofa"));
  ("a", Some ("a.sofa"));
  ("//a/a", Some ("//a/a.sofa"));
  (".sofa/", Some (".sofa.sofa"));
  ("./a", Some ("a.sofa"));
  ("/..a.b//", Some ("/..a.sofa"));
  (".sofab/.", Some (".sofab.sofa"));
  ("//a..a.b./", Some ("//a..a.b..sofa"));
  ("//./", None);
  ("a.ba.////", Some ("a.ba..sofa"));
  ("b//ba", Some ("b/ba.sofa"));
  ("b../a.b///", Some ("b../a.sofa"));
  ("a.ba.baa.b", Some ("a.ba.baa.sofa"));
  ("..a.b", Some ("..a.sofa"));
  ("//b", Some ("//b.sofa"));
  (".sofa/./a.ba/", Some (".sofa/a.sofa"));
  ("...sofa.sofa", Some ("...sofa.sofa"));
  (".sofaa/a//./", Some (".sofaa/a.sofa"));
  ("..a.sofa./..a.b", Some ("..a.sofa./..a.sofa"));
  ("..a", Some ("..sofa"));
  ("////a.b.sofa", Some ("/a.b.sofa"));
  ("..a./..a.b..", Some ("..a./..a.b...sofa"));
  (".sofa././aa..", Some (".sofa./aa...sofa"));
  ("aba/a.b", Some ("aba/a.sofa"));
  ("a.sofa", Some ("a.sofa"));
  (".sofa", Some (".sofa.sofa"));
  (".", None);
  ("aa.b.././b", Some ("aa.b../b.sofa"));
  ("//.sofa./b..//", Some ("//.sofa./b...sofa"));
  ("./../.", Some ("...sofa"));
  ("//.//", None);
  ("./", None);
  ("/a.b.//", Some ("/a.b..sofa"));
  ("/a.b", Some ("/a.sofa"));
  ("a.bab", Some ("a.sofa"));
  ("/////..", Some ("/...sofa"));
  ("a/ab..", Some ("a/ab...sofa"));
  ("b/.sofaa/.sofa", Some ("b/.sofaa/.sofa.sofa"));
  ("../...sofa", Some ("../...sofa"));
  ("a//..a", Some ("a/..sofa"));
  ("/bb//./.sofa", Some ("/bb/.sofa.sofa"));
  ("//a.b.", Some ("//a.b..sofa"));
  (".//", None);
  ("/a//", Some ("/a.sofa"));
  (".sofa/a./", Some (".sofa/a..sofa"));
  ("bbb.", Some ("bbb..sofa"));
  ("..a.bb", Some ("..a.sofa"));
  ("/////", None);
  ("b/", Some ("b.sofa"));
  ("//a.b.../", Some ("//a.b....sofa"));
  ("/b/a.b.sofa.sofa", Some ("/b/a.b.sofa.sofa"));
  (".a.b", Some (".a.sofa"));
  ("/.a.b../..", Some ("/.a.b../...sofa"));
  ("a.b//", Some ("a.sofa"));
  (".sofa.///", Some (".sofa..sofa"));
  ("///....", Some ("/.....sofa"));
  ("a//...sofa", Some ("a/...sofa"));
  ("aa./", Some ("aa..sofa"));
  ("a.b.//./", Some ("a.b..sofa"));
  ("./bb", Some ("bb.sofa"));
  ("//././a.b", Some ("//a.sofa"));
  ("ba.bb./...", Some ("ba.bb./....sofa"));
  ("/../", Some ("/...sofa"));
  ("b//.../a.b", Some ("b/.../a.sofa"));
  (".sofaa.ba", Some (".sofaa.sofa"));
  ("/b//.sofa", Some ("/b/.sofa.sofa"));
  ("//...//", Some ("//....sofa"));
  ("/ab/b", Some ("/ab/b.sofa"));
  ("a.b///.", Some ("a.sofa"));
  (".///..", Some ("...sofa"));
  ("a.b/////", Some ("a.sofa"));
  ("////", None);
  ("/./b/", Some ("/b.sofa"));
  ("///", None);
  ("/b///", Some ("/b.sofa"));
  ("/a./", Some ("/a..sofa"));
  ("a.ba.ba./", Some ("a.ba.ba..sofa"));
  ("..///././", Some ("...sofa"));
  ("...sofa.sofa//", Some ("...sofa.sofa"));
  ("..", Some ("...sofa"));
  ("......sofa", Some ("......sofa"));
  ("aa.bb///", Some ("aa.sofa"));
  ("a///.//", Some ("a.sofa"));
  ("/.sofa//a.b.b", Some ("/.sofa/a.b.sofa"));
  ("a.ba/", Some ("a.sofa"));
  (".sofa/.sofab//", Some (".sofa/.sofab.sofa"));
  ("././", None);
  ("a.b.///b", Some ("a.b./b.sofa"));
  ("...", Some ("....sofa"));
  ("//a", Some ("//a.sofa"));
  ("bb/a./..", Some ("bb/a./...sofa"));
  ("./ba.sofa///", Some ("ba.sofa"));
  ("./b/", Some ("b.sofa"));
  ("a.b./a", Some ("a.b./a.sofa"));
  ("a.b..//", Some ("a.b...sofa"));
  ("aa.ba.b", Some ("aa.ba.sofa"));
  ("//aba.b", Some ("//aba.sofa"));
  ("/..", Some ("/...sofa"));
  ("/..././a.b", Some ("/.../a.sofa"));
  ("aa", Some ("aa.sofa"));
  ("/./a.ba.b/", Some ("/a.ba.sofa"));
  ("./a..a.b./.", Some ("a..a.b..sofa"));
  ("//.///", None);
  ("ba./..", Some ("ba./...sofa"));
  ("a.b", Some ("a.sofa"));
  ("../", Some ("...sofa"));
  ("a.b/././", Some ("a.sofa"));
  ("//b../a.b", Some ("//b../a.sofa"));
  (".sofa//a/", Some (".sofa/a.sofa"));
  ("/.a.b/a.b", Some ("/.a.b/a.sofa"));
  ("..//a.bb", Some ("../a.sofa"));
  ("//..ba.b..", Some ("//..ba.b...sofa"));
  ("//./.sofa", Some ("//.sofa.sofa"));
  ("b..sofa./", Some ("b..sofa..sofa"));
  ("////.", None);
  ("/a.b.sofaa", Some ("/a.b.sofa"));
  ("b//b", Some ("b/b.sofa"));
  ("a.b..sofa//", Some ("a.b..sofa"));
  ("..ba//.sofa", Some ("..ba/.sofa.sofa"));
  ("./b", Some ("b.sofa"));
  ("./.../", Some ("....sofa"));
  ("./.", None);
  ("..a//ba", Some ("..a/ba.sofa"));
  (".sofa/..", Some (".sofa/...sofa"));
  ("////a.b/", Some ("/a.sofa"));
  (".///b../", Some ("b...sofa"));
  ("b.sofa/a/..", Some ("b.sofa/a/...sofa"));
  ("b", Some ("b.sofa"));
  ("a.", Some ("a..sofa"));
  ("a/aa.aa", Some ("a/aa.sofa"));
  ("/b.", Some ("/b..sofa"));
  ("aba", Some ("aba.sofa"));
  ("/b.aa", Some ("/b.sofa"));
  ("/bb/a.a", Some ("/bb/a.sofa"));
  ("..b", Some ("..sofa"));
  ("ab.b", Some ("ab.sofa"));
  ("ba..", Some ("ba...sofa"));
  ("ab..", Some ("ab...sofa"));
  ("/aa.a", Some ("/aa.sofa"));
  ("a", Some ("a.sofa"));
  ("b.", Some ("b..sofa"));
  ("a/a", Some ("a/a.sofa"));
  ("b/.a", Some ("b/.a.sofa"));
  (".b/a/.a", Some (".b/a/.a.sofa"));
  ("/a", Some ("/a.sofa"));
  (".a.ba", Some (".a.sofa"));
  (".", None);
  ("ab", Some ("ab.sofa"));
  ("bb", Some ("bb.sofa"));
  ("b...ba", Some ("b...sofa"));
  (".a../.a", Some (".a../.a.sofa"));
  (".a.b/ba", Some (".a.b/ba.sofa"));
  ("b/a.a", Some ("b/a.sofa"));
  ("aa.b..a", Some ("aa.b..sofa"));
  ("b.a.", Some ("b.a..sofa"));
  ("bab", Some ("bab.sofa"));
  ("/a/aa", Some ("/a/aa.sofa"));
  ("/b.bb.a", Some ("/b.bb.sofa"));
  ("/b/a", Some ("/b/a.sofa"));
  ("ba/b", Some ("ba/b.sofa"));
  ("..", Some ("...sofa"));
  ("bb/a", Some ("bb/a.sofa"));
  ("aa", Some ("aa.sofa"));
  ("..abaa", Some ("..sofa"));
  ("aaa.a/b", Some ("aaa.a/b.sofa"));
  ("ba.bb", Some ("ba.sofa"));
  (".b.bb.", Some (".b.bb..sofa"));
  (".b.", Some (".b..sofa"));
  ("ba", Some ("ba.sofa"));
  (".a", Some (".a.sofa"));
  ("abaa", Some ("abaa.sofa"));
  ("a/ba", Some ("a/ba.sofa"));
  (".b..ab", Some (".b..sofa"));
  (".aa", Some (".aa.sofa"));
  ("b./.ba", Some ("b./.ba.sofa"));
  (".bb..a", Some (".bb..sofa"));
  ("a./a", Some ("a./a.sofa"));
  ("a.b.", Some ("a.b..sofa"));
  (".b", Some (".b.sofa"));
  ("../b.a", Some ("../b.sofa"));
  ("aaba.", Some ("aaba..sofa"));
  (".a/a./a", Some (".a/a./a.sofa"));
  ("/a....a", Some ("/a....sofa"));
  ("b.ab", Some ("b.sofa"));
  ("/aba", Some ("/aba.sofa"));
  ("/ab./b", Some ("/ab./b.sofa"));
  ("/a.", Some ("/a..sofa"));
  ("/bb.b", Some ("/bb.sofa"));
  ("/a/a", Some ("/a/a.sofa"));
  ("b/a.b", Some ("b/a.sofa"));
  (".a.ba.b", Some (".a.ba.sofa"));
  (".ab", Some (".ab.sofa"));
  ("a...b", Some ("a...sofa"));
  ("a/bbaa", Some ("a/bbaa.sofa"));
  ("/a...", Some ("/a....sofa"));
  ("baaa", Some ("baaa.sofa"));
  ("ba.b", Some ("ba.sofa"));
  ("a.b", Some ("a.sofa"));
  ("/bbaa.", Some ("/bbaa..sofa"));
  ("b..aab", Some ("b..sofa"));
  (".a.b.", Some (".a.b..sofa"));
  (".b/b", Some (".b/b.sofa"));
  ("a/baa", Some ("a/baa.sofa"));
  ("a.a", Some ("a.sofa"));
  ("aba/aa", Some ("aba/aa.sofa"));
  ("a/b", Some ("a/b.sofa"));
  (".baa", Some (".baa.sofa"));
  (".ba", Some (".ba.sofa"));
  ("..b./.b", Some ("..b./.b.sofa"));
  ("/b.ab.", Some ("/b.ab..sofa"));
  ("/bab/b", Some ("/bab/b.sofa"));
  ("bb.", Some ("bb..sofa"));
  ("..bb..", Some ("..bb...sofa"));
  ("a...", Some ("a....sofa"));
  ("a.b/b", Some ("a.b/b.sofa"));
  ("/ab/ba", Some ("/ab/ba.sofa"));
  ("....ab", Some ("....sofa"));
  ("bba", Some ("bba.sofa"));
  ("..a", Some ("..sofa"));
  ("/a.bbab", Some ("/a.sofa"));
  ("...", Some ("....sofa"));
  ("a/baa.a", Some ("a/baa.sofa"));
  (".ab.", Some (".ab..sofa"));
  ("b..ba", Some ("b..sofa"));
  ("b.a", Some ("b.sofa"));
  (".a/.ab", Some (".a/.ab.sofa"));
  ("bbb", Some ("bbb.sofa"));
  ("b..aa/a", Some ("b..aa/a.sofa"));
  ("aaa", Some ("aaa.sofa"));
  ("/.a..", Some ("/.a...sofa"));
  ("ababaa", Some ("ababaa.sofa"));
  ("a./.b.", Some ("a./.b..sofa"));
  ("b.b.", Some ("b.b..sofa"));
  ("/aaaaa.", Some ("/aaaaa..sofa"));
  ("/.b/a/a", Some ("/.b/a/a.sofa"));
  ("ba.", Some ("ba..sofa"));
  (".bba", Some (".bba.sofa"));
  ("...a.", Some ("...a..sofa"));
  ("..aba", Some ("..sofa"));
  ("a/b.", Some ("a/b..sofa"));
  ("aa/..", Some ("aa/...sofa"));
  ("b.bb", Some ("b.sofa"));
  ("baa", Some ("baa.sofa"));
  ("bb/.a/b", Some ("bb/.a/b.sofa"));
  ("aa...", Some ("aa....sofa"));
  ("..a/aa", Some ("..a/aa.sofa"));
  ("b.ab/.a", Some ("b.ab/.a.sofa"));
  ("/bb", Some ("/bb.sofa"));
  (".a.", Some (".a..sofa"));
  ("a..", Some ("a...sofa"));
  ("/.ba", Some ("/.ba.sofa"));
  ("/.a", Some ("/.a.sofa"));
  ("/aa", Some ("/aa.sofa"));
  ("a.b/.a", Some ("a.b/.a.sofa"));
  ("aa.", Some ("aa..sofa"));
  ("b/abaa", Some ("b/abaa.sofa"));
  ("..aa", Some ("..sofa"));
  (".b/..b", Some (".b/..sofa"));
  ("/b", Some ("/b.sofa"));
  ("b/b.a.a", Some ("b/b.a.sofa"));
  ("a/aa.", Some ("a/aa..sofa"));
  ("..baa/b", Some ("..baa/b.sofa"));
  ("/..b", Some ("/..sofa"));
  ("b/aba.b", Some ("b/aba.sofa"));
  (".a.bbb.", Some (".a.bbb..sofa"));
  ("b..b/a", Some ("b..b/a.sofa"));
  ("aaaba.b", Some ("aaaba.sofa"));
  ("bba/..b", Some ("bba/..sofa"));
  ("ab.a..", Some ("ab.a...sofa"));
  ("bbb/a.", Some ("bbb/a..sofa"));
  ("/b.bba", Some ("/b.sofa"));
  ("/bba", Some ("/bba.sofa"));
  ("a.a/bba", Some ("a.a/bba.sofa"));
  ("aab", Some ("aab.sofa"));
  ("b/ab", Some ("b/ab.sofa"));
  (".aabb.", Some (".aabb..sofa"));
  (".baaab.", Some (".baaab..sofa"));
  ("...a./b", Some ("...a./b.sofa"));
  ("/abbb", Some ("/abbb.sofa"));
  (".aab/b", Some (".aab/b.sofa"));
  ("..ab", Some ("..sofa"));
  ("baaa/ba", Some ("baaa/ba.sofa"));
  ("b/a", Some ("b/a.sofa"));
  ("b/ba.b", Some ("b/ba.sofa"));
  ("bb.b.a", Some ("bb.b.sofa"));
  ("b.b", Some ("b.sofa"));
  (".a/b/ba", Some (".a/b/ba.sofa"));
  ("....", Some (".....sofa"));
  ("..b/bb", Some ("..b/bb.sofa"));
  ("abbbbb", Some ("abbbbb.sofa"));
  ("bbbb/b", Some ("bbbb/b.sofa"));
  ("a.aa", Some ("a.sofa"));
  (".ba/a", Some (".ba/a.sofa"));
  (".a/ab.b", Some (".a/ab.sofa"));
  ("bb.a", Some ("bb.sofa"))].
Lemma ok_with_suffix : forallb (fun v => match v with (s, r) => same_opt String.eqb (match sofa_path s with Ok p => Some p | Err _ => None end) r end) v_with_suffix = true.
Proof. vm_compute. reflexivity. Qed.

(** [readlines()] without the line ends *)
Definition v_lines : list (string * list string) := [
  (cs [9]%N, [cs [9]%N]);
  ("", []);
  (cs [13; 10; 10]%N, [""; ""]);
  (cs [11; 9]%N, [cs [11; 9]%N]);
  (cs [9; 97; 97; 97; 10; 10; 10; 10]%N, [cs [9; 97; 97; 97]%N; ""; ""; ""]);
  (cs [97; 10; 9; 13; 13; 11]%N, ["a"; cs [9]%N; ""; cs [11]%N]);
  (cs [13; 11; 9; 13]%N, [""; cs [11; 9]%N]);
  (cs [13; 13; 9]%N, [""; ""; cs [9]%N]);
  (cs [13; 13; 13; 9; 11; 10]%N, [""; ""; ""; cs [9; 11]%N]);
  (cs [97; 9; 9; 11; 10; 10]%N, [cs [97; 9; 9; 11]%N; ""]);
  (cs [97; 97; 11; 11; 11; 97; 10]%N, [cs [97; 97; 11; 11; 11; 97]%N]);
  (cs [10; 11]%N, [""; cs [11]%N]);
  ("aa", ["aa"]);
  (cs [97; 10; 97; 97; 11]%N, ["a"; cs [97; 97; 11]%N]);
  (cs [13]%N, [""]);
  (cs [97; 11; 97; 13; 11; 11]%N, [cs [97; 11; 97]%N; cs [11; 11]%N]);
  (cs [13; 13; 10; 13; 13]%N, [""; ""; ""; ""]);
  (cs [11; 10; 9]%N, [cs [11]%N; cs [9]%N]);
  (cs [97; 97; 10]%N, ["aa"]);
  (cs [11; 13; 11; 10; 11; 11]%N, [cs [11]%N; cs [11]%N; cs [11; 11]%N]);
  (cs [11; 97; 13; 10; 97]%N, [cs [11; 97]%N; "a"]);
  (cs [11; 10; 11; 9; 10]%N, [cs [11]%N; cs [11; 9]%N]);
  (cs [10; 13; 10; 10; 97]%N, [""; ""; ""; "a"]);
  (cs [11; 11; 13; 11; 10; 13; 10]%N, [cs [11; 11]%N; cs [11]%N; ""]);
  (cs [10; 11; 13; 13; 13; 13; 13]%N, [""; cs [11]%N; ""; ""; ""; ""]);
  (cs [13; 13; 97; 13; 9; 9]%N, [""; ""; "a"; cs [9; 9]%N]);
  (cs [10; 10]%N, [""; ""]);
  (cs [97; 9; 11; 97; 97; 9]%N, [cs [97; 9; 11; 97; 97; 9]%N]);
  (cs [13; 97]%N, [""; "a"]);
  (cs [9; 11; 11; 13; 97]%N, [cs [9; 11; 11]%N; "a"]);
  (cs [13; 10]%N, [""]);
  (cs [97; 11; 10; 97; 9; 9; 10; 10]%N, [cs [97; 11]%N; cs [97; 9; 9]%N; ""]);
  (cs [10; 13; 11; 10; 97; 9; 97]%N, [""; ""; cs [11]%N; cs [97; 9; 97]%N]);
  (cs [11; 97; 13; 10; 9; 13; 13; 97]%N, [cs [11; 97]%N; cs [9]%N; ""; "a"]);
  (cs [11; 10; 11; 97; 97; 97]%N, [cs [11]%N; cs [11; 97; 97; 97]%N]);
  (cs [11; 10; 10; 9; 11; 13; 11; 11]%N, [cs [11]%N; ""; cs [9; 11]%N; cs [11; 11]%N]);
  (cs [13; 97; 11; 13; 13; 10; 13]%N, [""; cs [97; 11]%N; ""; ""]);
  (cs [97; 9; 9; 97; 13]%N, [cs [97; 9; 9; 97]%N]);
  (cs [97; 11; 97]%N, [cs [97; 11; 97]%N]);
  (cs [9; 13; 9; 97; 97; 10]%N, [cs [9]%N; cs [9; 97; 97]%N]);
  (cs [97; 97; 11]%N, [cs [97; 97; 11]%N]);
  (cs [9; 97; 11]%N, [cs [9; 97; 11]%N]);
  (cs [11]%N, [cs [11]%N]);
  (cs [97; 11; 10; 11]%N, [cs [97; 11]%N; cs [11]%N]);
  (cs [11; 11; 13; 11]%N, [cs [11; 11]%N; cs [11]%N]);
  (cs [9; 10]%N, [cs [9]%N]);
  (cs [11; 97; 9; 97; 97]%N, [cs [11; 97; 9; 97; 97]%N]);
  (cs [97; 97; 10; 97]%N, ["aa"; "a"]);
  (cs [13; 9; 13]%N, [""; cs [9]%N]);
  (cs [13; 10; 10; 10; 97; 13; 11]%N, [""; ""; ""; "a"; cs [11]%N]);
  (cs [9; 9; 10; 97; 13; 9]%N, [cs [9; 9]%N; "a"; cs [9]%N]);
  (cs [10; 97; 9; 97; 13; 97; 9; 10]%N, [""; cs [97; 9; 97]%N; cs [97; 9]%N]);
  (cs [13; 9; 11]%N, [""; cs [9; 11]%N]);
  (cs [10]%N, [""]);
  (cs [10; 11; 11; 9; 10; 9; 13; 9]%N, [""; cs [11; 11; 9]%N; cs [9]%N; cs [9]%N]);
  (cs [9; 97; 9; 13; 9]%N, [cs [9; 97; 9]%N; cs [9]%N]);
  (cs [97; 11; 11; 13]%N, [cs [97; 11; 11]%N]);
  (cs [9; 97; 13; 11]%N, [cs [9; 97]%N; cs [11]%N]);
  (cs [10; 97; 9; 11; 13; 9; 13; 13]%N, [""; cs [97; 9; 11]%N; cs [9]%N; ""]);
  (cs [10; 9; 10; 9; 97; 11]%N, [""; cs [9]%N; cs [9; 97; 11]%N]);
  (cs [13; 10; 97]%N, [""; "a"]);
  (cs [97; 97; 97; 11; 10]%N, [cs [97; 97; 97; 11]%N]);
  (cs [13; 10; 11; 9; 11; 10; 9]%N, [""; cs [11; 9; 11]%N; cs [9]%N]);
  (cs [9; 10; 11; 11]%N, [cs [9]%N; cs [11; 11]%N]);
  (cs [11; 9; 13; 97; 13]%N, [cs [11; 9]%N; "a"]);
  (cs [9; 97; 9; 13; 13; 10]%N, [cs [9; 97; 9]%N; ""]);
  (cs [97; 10; 11; 11; 97; 11]%N, ["a"; cs [11; 11; 97; 11]%N]);
  (cs [10; 11; 9; 9; 13]%N, [""; cs [11; 9; 9]%N]);
  (cs [10; 97; 97; 10; 13; 97; 97]%N, [""; "aa"; ""; "aa"]);
  (cs [13; 13; 9; 10; 9; 97]%N, [""; ""; cs [9]%N; cs [9; 97]%N]);
  (cs [9; 11; 9; 9; 9; 97]%N, [cs [9; 11; 9; 9; 9; 97]%N]);
  (cs [10; 97; 13; 13; 13; 97; 9]%N, [""; "a"; ""; ""; cs [97; 9]%N]);
  (cs [13; 9; 10; 97; 11; 97]%N, [""; cs [9]%N; cs [97; 11; 97]%N]);
  (cs [11; 11]%N, [cs [11; 11]%N]);
  (cs [9; 10; 10]%N, [cs [9]%N; ""]);
  (cs [11; 11; 9]%N, [cs [11; 11; 9]%N]);
  (cs [97; 13; 9]%N, ["a"; cs [9]%N]);
  (cs [9; 10; 10; 9; 9; 13]%N, [cs [9]%N; ""; cs [9; 9]%N]);
  (cs [10; 13; 10; 10; 9; 10; 9; 13]%N, [""; ""; ""; cs [9]%N; cs [9]%N]);
  (cs [11; 11; 11; 13; 11; 9; 9]%N, [cs [11; 11; 11]%N; cs [11; 9; 9]%N]);
  (cs [97; 9; 97; 97; 9; 9; 97; 10]%N, [cs [97; 9; 97; 97; 9; 9; 97]%N]);
  (cs [97; 13]%N, ["a"]);
  (cs [97; 11; 97; 10]%N, [cs [97; 11; 97]%N]);
  (cs [97; 13; 10; 9; 11; 97; 11]%N, ["a"; cs [9; 11; 97; 11]%N]);
  (cs [9; 97; 10; 97; 9; 13; 9]%N, [cs [9; 97]%N; cs [97; 9]%N; cs [9]%N]);
  (cs [97; 97; 97; 9; 11; 9; 97]%N, [cs [97; 97; 97; 9; 11; 9; 97]%N]);
  (cs [13; 97; 97; 11]%N, [""; cs [97; 97; 11]%N]);
  (cs [10; 9]%N, [""; cs [9]%N]);
  (cs [11; 10; 97; 13]%N, [cs [11]%N; "a"]);
  (cs [10; 97; 10; 10; 9]%N, [""; "a"; ""; cs [9]%N]);
  (cs [9; 9; 10; 97; 11; 97]%N, [cs [9; 9]%N; cs [97; 11; 97]%N]);
  (cs [9; 9; 97; 9; 13; 11; 97]%N, [cs [9; 9; 97; 9]%N; cs [11; 97]%N]);
  (cs [11; 10; 13; 97; 13; 9]%N, [cs [11]%N; ""; "a"; cs [9]%N]);
  (cs [10; 97; 10; 97; 10]%N, [""; "a"; "a"]);
  (cs [11; 9; 9]%N, [cs [11; 9; 9]%N]);
  (cs [9; 9; 13; 9; 10]%N, [cs [9; 9]%N; cs [9]%N]);
  (cs [11; 11; 9; 13; 13; 97; 13]%N, [cs [11; 11; 9]%N; ""; "a"]);
  (cs [11; 13; 13; 10; 9; 11; 11; 97]%N, [cs [11]%N; ""; cs [9; 11; 11; 97]%N]);
  (cs [9; 9; 11; 9; 13; 9; 13]%N, [cs [9; 9; 11; 9]%N; cs [9]%N]);
  (cs [10; 10; 13; 9; 10; 13; 11]%N, [""; ""; ""; cs [9]%N; ""; cs [11]%N]);
  (cs [97; 9; 10; 11]%N, [cs [97; 9]%N; cs [11]%N]);
  (cs [97; 9]%N, [cs [97; 9]%N]);
  (cs [10; 9; 10; 9; 9; 10; 97; 11]%N, [""; cs [9]%N; cs [9; 9]%N; cs [97; 11]%N]);
  (cs [11; 11; 13; 97; 13; 9]%N, [cs [11; 11]%N; "a"; cs [9]%N]);
  (cs [10; 13; 11]%N, [""; ""; cs [11]%N]);
  (cs [9; 11; 11]%N, [cs [9; 11; 11]%N]);
  (cs [9; 10; 10; 13; 9; 9; 10]%N, [cs [9]%N; ""; ""; cs [9; 9]%N]);
  (cs [10; 11; 9; 10; 13]%N, [""; cs [11; 9]%N; ""]);
  (cs [9; 11; 10; 10; 13; 13]%N, [cs [9; 11]%N; ""; ""; ""]);
  (cs [13; 13; 10; 11; 9; 10]%N, [""; ""; cs [11; 9]%N]);
  (cs [11; 97; 9; 11; 10; 9; 13]%N, [cs [11; 97; 9; 11]%N; cs [9]%N]);
  (cs [9; 9; 11; 11; 11; 10]%N, [cs [9; 9; 11; 11; 11]%N]);
  (cs [10; 13; 10; 10; 9]%N, [""; ""; ""; cs [9]%N]);
  (cs [10; 11; 97; 9; 11; 11; 97; 13]%N, [""; cs [11; 97; 9; 11; 11; 97]%N]);
  (cs [11; 97; 13; 11]%N, [cs [11; 97]%N; cs [11]%N]);
  (cs [97; 97; 97; 11; 9; 97; 10; 9]%N, [cs [97; 97; 97; 11; 9; 97]%N; cs [9]%N]);
  (cs [97; 11; 10; 13; 9; 9; 10]%N, [cs [97; 11]%N; ""; cs [9; 9]%N]);
  (cs [11; 10; 9; 13; 11; 9; 9; 97]%N, [cs [11]%N; cs [9]%N; cs [11; 9; 9; 97]%N]);
  (cs [11; 11; 97; 9; 9]%N, [cs [11; 11; 97; 9; 9]%N]);
  (cs [9; 97]%N, [cs [9; 97]%N]);
  (cs [9; 11; 10; 9]%N, [cs [9; 11]%N; cs [9]%N]);
  (cs [11; 10; 9; 13]%N, [cs [11]%N; cs [9]%N]);
  (cs [9; 9; 9; 97]%N, [cs [9; 9; 9; 97]%N]);
  (cs [11; 11; 13; 13; 11]%N, [cs [11; 11]%N; ""; cs [11]%N]);
  (cs [13; 11; 10; 97]%N, [""; cs [11]%N; "a"]);
  (cs [13; 10; 10; 13; 11]%N, [""; ""; ""; cs [11]%N]);
  (cs [10; 97; 13; 97; 11]%N, [""; "a"; cs [97; 11]%N]);
  (cs [9; 9]%N, [cs [9; 9]%N]);
  (cs [9; 10; 97; 11; 13]%N, [cs [9]%N; cs [97; 11]%N]);
  (cs [11; 13; 13; 10]%N, [cs [11]%N; ""]);
  (cs [9; 9; 11; 11; 13; 11; 97; 10]%N, [cs [9; 9; 11; 11]%N; cs [11; 97]%N]);
  (cs [9; 11; 9; 97; 10; 11]%N, [cs [9; 11; 9; 97]%N; cs [11]%N]);
  (cs [9; 13]%N, [cs [9]%N]);
  ("a", ["a"]);
  (cs [10; 11; 10; 11; 13; 9]%N, [""; cs [11]%N; cs [11]%N; cs [9]%N]);
  (cs [9; 97; 11; 13; 13; 9; 11]%N, [cs [9; 97; 11]%N; ""; cs [9; 11]%N]);
  (cs [11; 10; 13; 9; 11]%N, [cs [11]%N; ""; cs [9; 11]%N]);
  (cs [13; 11; 11; 13]%N, [""; cs [11; 11]%N]);
  (cs [11; 10; 13; 9; 10; 10]%N, [cs [11]%N; ""; cs [9]%N; ""]);
  (cs [97; 11]%N, [cs [97; 11]%N]);
  (cs [13; 13; 11; 9; 10; 9]%N, [""; ""; cs [11; 9]%N; cs [9]%N]);
  (cs [9; 97; 97; 13]%N, [cs [9; 97; 97]%N]);
  (cs [13; 9; 13; 9; 11; 10; 11]%N, [""; cs [9]%N; cs [9; 11]%N; cs [11]%N]);
  (cs [97; 9; 97; 9]%N, [cs [97; 9; 97; 9]%N]);
  (cs [11; 97; 11; 97; 10]%N, [cs [11; 97; 11; 97]%N]);
  (cs [13; 11; 9; 13; 10; 13; 10; 13]%N, [""; cs [11; 9]%N; ""; ""]);
  (cs [10; 10; 97; 10; 11]%N, [""; ""; "a"; cs [11]%N]);
  (cs [9; 9; 9; 9; 97; 10; 9]%N, [cs [9; 9; 9; 9; 97]%N; cs [9]%N]);
  (cs [9; 13; 11; 9; 11; 9]%N, [cs [9]%N; cs [11; 9; 11; 9]%N]);
  (cs [10; 10; 13; 97; 9; 13; 97; 97]%N, [""; ""; ""; cs [97; 9]%N; "aa"]);
  (cs [10; 10; 9; 13; 11; 11]%N, [""; ""; cs [9]%N; cs [11; 11]%N]);
  (cs [13; 97; 11; 13; 11; 13; 10]%N, [""; cs [97; 11]%N; cs [11]%N]);
  (cs [97; 10; 97; 13]%N, ["a"; "a"]);
  (cs [10; 9; 97; 13; 9; 97; 9]%N, [""; cs [9; 97]%N; cs [9; 97; 9]%N]);
  (cs [13; 11; 10; 9; 9]%N, [""; cs [11]%N; cs [9; 9]%N]);
  (cs [13; 13]%N, [""; ""]);
  (cs [10; 10; 9; 97; 13; 11; 11; 10]%N, [""; ""; cs [9; 97]%N; cs [11; 11]%N]);
  (cs [13; 10; 97; 13; 11; 11]%N, [""; "a"; cs [11; 11]%N]);
  (cs [10; 13; 11; 10; 10]%N, [""; ""; cs [11]%N; ""]);
  (cs [10; 10; 10; 13; 10; 9; 10; 10]%N, [""; ""; ""; ""; cs [9]%N; ""]);
  (cs [97; 97; 13; 97; 97; 10; 9; 11]%N, ["aa"; "aa"; cs [9; 11]%N]);
  (cs [97; 9; 9; 11; 97; 97; 9; 11]%N, [cs [97; 9; 9; 11; 97; 97; 9; 11]%N]);
  (cs [9; 11; 10; 11]%N, [cs [9; 11]%N; cs [11]%N]);
  (cs [10; 13]%N, [""; ""]);
  (cs [13; 9; 11; 13; 11; 97; 13; 10]%N, [""; cs [9; 11]%N; cs [11; 97]%N]);
  (cs [97; 11; 13; 13; 9; 9; 97; 11]%N, [cs [97; 11]%N; ""; cs [9; 9; 97; 11]%N]);
  (cs [9; 97; 13; 13; 10; 13]%N, [cs [9; 97]%N; ""; ""]);
  (cs [11; 13; 97; 97; 11; 10; 10; 9]%N, [cs [11]%N; cs [97; 97; 11]%N; ""; cs [9]%N]);
  (cs [97; 13; 10; 10; 9]%N, ["a"; ""; cs [9]%N]);
  (cs [11; 13; 10; 11; 11; 10; 11; 9]%N, [cs [11]%N; cs [11; 11]%N; cs [11; 9]%N]);
  (cs [10; 13; 97; 97; 13; 9; 97; 11]%N, [""; ""; "aa"; cs [9; 97; 11]%N]);
  (cs [11; 97; 13; 10; 13; 9]%N, [cs [11; 97]%N; ""; cs [9]%N]);
  (cs [10; 9; 10; 13; 97; 11]%N, [""; cs [9]%N; ""; cs [97; 11]%N]);
  (cs [11; 11; 97; 97; 97; 13; 11]%N, [cs [11; 11; 97; 97; 97]%N; cs [11]%N]);
  (cs [11; 97; 10; 13; 97; 13; 11; 13]%N, [cs [11; 97]%N; ""; "a"; cs [11]%N]);
  (cs [97; 13; 13; 13; 97; 10]%N, ["a"; ""; ""; "a"]);
  (cs [11; 97; 13; 13; 9; 13; 97; 10]%N, [cs [11; 97]%N; ""; cs [9]%N; "a"]);
  (cs [13; 10; 13; 13; 13; 97; 11]%N, [""; ""; ""; ""; cs [97; 11]%N]);
  (cs [13; 13; 10; 11; 11]%N, [""; ""; cs [11; 11]%N]);
  (cs [97; 10; 11; 11; 97; 10; 13]%N, ["a"; cs [11; 11; 97]%N; ""]);
  (cs [9; 13; 11; 10; 11]%N, [cs [9]%N; cs [11]%N; cs [11]%N]);
  (cs [11; 11; 13; 97; 13; 10; 10; 9]%N, [cs [11; 11]%N; "a"; ""; cs [9]%N]);
  (cs [11; 97; 10; 9]%N, [cs [11; 97]%N; cs [9]%N]);
  (cs [10; 97; 97; 11; 13; 97]%N, [""; cs [97; 97; 11]%N; "a"]);
  (cs [13; 97; 97]%N, [""; "aa"]);
  (cs [97; 10; 11]%N, ["a"; cs [11]%N]);
  (cs [11; 9; 13]%N, [cs [11; 9]%N]);
  (cs [9; 9; 11; 13; 9]%N, [cs [9; 9; 11]%N; cs [9]%N]);
  (cs [11; 11; 97; 13]%N, [cs [11; 11; 97]%N]);
  (cs [11; 97; 9; 11; 10; 10; 10; 97]%N, [cs [11; 97; 9; 11]%N; ""; ""; "a"]);
  (cs [97; 11; 10]%N, [cs [97; 11]%N]);
  (cs [9; 9; 10; 13; 13; 97; 9; 9]%N, [cs [9; 9]%N; ""; ""; cs [97; 9; 9]%N]);
  (cs [9; 13; 10]%N, [cs [9]%N]);
  (cs [13; 97; 13]%N, [""; "a"]);
  (cs [11; 9; 97; 11; 13; 10; 97]%N, [cs [11; 9; 97; 11]%N; "a"]);
  (cs [13; 13; 97; 13]%N, [""; ""; "a"]);
  (cs [9; 13; 11; 10; 13; 10; 97; 13]%N, [cs [9]%N; cs [11]%N; ""; "a"]);
  (cs [10; 11; 11; 11; 97; 10]%N, [""; cs [11; 11; 11; 97]%N]);
  (cs [9; 9; 97; 10; 10; 13]%N, [cs [9; 9; 97]%N; ""; ""]);
  (cs [9; 97; 97; 13; 13; 9; 10]%N, [cs [9; 97; 97]%N; ""; cs [9]%N])].
Lemma ok_lines : forallb (fun v => match v with (s, r) => same_list (lines_of s) r end) v_lines = true.
Proof. vm_compute. reflexivity. Qed.

(** [*.csv] as shell pattern for names of files *)
Definition v_glob : list (string * bool) := [
  ("_.json", false);
  (".csv", false);
  (".cs", false);
  ("b.CSV", false);
  ("b.csv.", false);
  ("b_.cs", false);
  ("a..csv.", false);
  ("csv", false);
  (".json", false);
  ("bcsv", false);
  ("ab.csv", true);
  ("_.CSV", false);
  ("_.cs", false);
  ("ab.csv.", false);
  (".csv.", false);
  ("..json", false);
  ("_a.cs", false);
  (".CSV", false);
  ("..csv.", false);
  ("b.json", false);
  ("_acsv", false);
  ("...csv", false);
  ("._.CSV", false);
  ("bb.cs", false);
  ("b.csv", true);
  (".b.csv", false);
  ("...csv.", false);
  ("_.csv", true);
  ("_.csv.", false);
  ("b..cs", false);
  ("a.csv", true);
  ("a_.csv.", false);
  ("a..cs", false);
  ("bb.json", false);
  ("ab.cs", false);
  ("b_.json", false);
  ("..csv", false);
  ("__.csv.", false);
  (".b.csv.", false);
  ("__csv", false);
  ("a..json", false);
  ("._.csv.", false);
  ("_a.CSV", false);
  ("ab.CSV", false);
  ("ba.CSV", false);
  ("a.csv.", false);
  ("a.CSV", false);
  (".b.CSV", false);
  ("a.cs", false);
  ("_csv", false);
  ("a_.csv", true);
  ("_..cs", false);
  ("ba.json", false);
  ("b_csv", false);
  ("bb.CSV", false);
  (".a.csv.", false);
  ("._csv", false);
  ("bb.csv.", false);
  ("_b.csv.", false);
  ("ba.cs", false)].
Lemma ok_glob : forallb (fun v => match v with (s, r) => Bool.eqb (top_csv s) r end) v_glob = true.
Proof. vm_compute. reflexivity. Qed.

(** assignments ([Some]) and deletions ([None]) of a dictionary *)
Definition v_dict : list (list (string * option nat) * list (string * nat)) := [
  ([("c", Some 0); ("b", None); ("b", None); ("b", None); ("d", None)], [("c", 0)]);
  ([("b", None); ("c", Some 1); ("b", Some 8); ("b", Some 8); ("c", None); ("d", Some 5); ("d", None)], [("b", 8)]);
  ([("c", Some 5); ("b", None)], [("c", 5)]);
  ([("d", None); ("b", Some 6); ("a", None); ("d", Some 1); ("c", Some 5); ("c", None); ("b", Some 3)], [("b", 3); ("d", 1)]);
  ([("b", Some 3); ("d", None); ("a", None); ("a", None); ("b", None)], []);
  ([("b", Some 2); ("b", Some 3); ("c", None); ("a", None)], [("b", 3)]);
  ([("a", Some 1); ("b", Some 6); ("d", None); ("c", Some 5)], [("a", 1); ("b", 6); ("c", 5)]);
  ([("a", None)], []);
  ([("d", None); ("d", Some 6); ("a", Some 8)], [("d", 6); ("a", 8)]);
  ([("d", Some 4); ("d", None); ("a", None); ("d", Some 6)], [("d", 6)]);
  ([("c", Some 5); ("a", None); ("b", Some 8); ("b", None); ("d", Some 8)], [("c", 5); ("d", 8)]);
  ([("a", Some 8); ("b", Some 6); ("c", Some 8); ("b", Some 4); ("b", Some 1); ("c", None)], [("a", 8); ("b", 1)]);
  ([("b", Some 2); ("a", None); ("c", None); ("b", Some 0); ("a", None); ("c", Some 7); ("c", None); ("d", Some 8)], [("b", 0); ("d", 8)]);
  ([("d", None)], []);
  ([("b", Some 5); ("a", Some 8); ("b", Some 7); ("d", None); ("a", Some 4); ("d", Some 2); ("b", Some 0)], [("b", 0); ("a", 4); ("d", 2)]);
  ([("d", Some 8); ("d", Some 3); ("b", Some 3); ("a", Some 1); ("d", None)], [("b", 3); ("a", 1)]);
  ([("a", None); ("d", Some 7); ("c", None); ("a", Some 2); ("c", Some 3)], [("d", 7); ("a", 2); ("c", 3)]);
  ([("c", None); ("b", Some 2); ("a", None); ("b", Some 8); ("d", None); ("b", None)], []);
  ([("a", Some 2); ("a", Some 1); ("d", Some 2); ("c", None); ("d", None)], [("a", 1)]);
  ([("d", None); ("d", None); ("b", None); ("a", Some 5); ("c", None)], [("a", 5)]);
  ([("b", None); ("b", None)], []);
  ([("c", Some 4); ("b", Some 6); ("d", None); ("d", None); ("b", Some 7); ("a", None)], [("c", 4); ("b", 7)]);
  ([("b", Some 4)], [("b", 4)]);
  ([("a", None); ("a", Some 8); ("c", None); ("c", Some 3); ("d", Some 8); ("c", None); ("a", Some 7); ("d", Some 1)], [("a", 7); ("d", 1)]);
  ([("a", Some 3); ("d", None); ("b", Some 5); ("b", None); ("d", Some 1); ("c", Some 6)], [("a", 3); ("d", 1); ("c", 6)]);
  ([("a", None); ("b", None); ("c", None); ("b", Some 7)], [("b", 7)]);
  ([("d", Some 0); ("c", Some 2); ("a", Some 2); ("d", None); ("a", Some 2)], [("c", 2); ("a", 2)]);
  ([("a", Some 0); ("d", Some 6); ("d", Some 8)], [("a", 0); ("d", 8)]);
  ([("d", Some 4); ("d", Some 1)], [("d", 1)]);
  ([("a", None); ("d", None); ("d", Some 7); ("c", Some 2); ("b", None); ("b", None); ("d", None)], [("c", 2)]);
  ([("b", None); ("c", None); ("b", Some 7)], [("b", 7)]);
  ([("a", Some 7); ("d", Some 3)], [("a", 7); ("d", 3)]);
  ([("c", None); ("b", None); ("b", None); ("d", None); ("c", None)], []);
  ([("b", Some 1); ("d", Some 6); ("b", None); ("c", Some 6); ("c", Some 6)], [("d", 6); ("c", 6)]);
  ([("c", Some 0); ("d", None); ("a", None); ("a", Some 1); ("c", None); ("a", Some 8)], [("a", 8)]);
  ([("b", None)], []);
  ([("c", Some 3); ("a", Some 8)], [("c", 3); ("a", 8)]);
  ([("a", Some 4); ("c", Some 2); ("a", None); ("c", None)], []);
  ([("b", Some 8); ("a", None); ("c", Some 8); ("d", Some 2)], [("b", 8); ("c", 8); ("d", 2)]);
  ([("a", Some 0); ("c", Some 5); ("d", Some 7)], [("a", 0); ("c", 5); ("d", 7)]);
  ([("c", None)], []);
  ([("a", None); ("d", Some 2); ("a", None); ("a", Some 8); ("b", None); ("b", Some 2); ("b", Some 1); ("b", Some 4)], [("d", 2); ("a", 8); ("b", 4)]);
  ([("d", None); ("b", Some 5)], [("b", 5)]);
  ([("b", None); ("b", None); ("b", None)], []);
  ([("b", Some 1); ("d", Some 0)], [("b", 1); ("d", 0)]);
  ([("c", Some 1)], [("c", 1)]);
  ([("d", None); ("a", Some 8); ("b", None); ("c", Some 2); ("b", Some 2)], [("a", 8); ("c", 2); ("b", 2)]);
  ([("a", None); ("a", Some 1); ("d", Some 0)], [("a", 1); ("d", 0)]);
  ([("b", Some 3); ("a", Some 0); ("c", Some 4)], [("b", 3); ("a", 0); ("c", 4)]);
  ([("b", Some 1); ("c", Some 2); ("a", Some 0); ("b", Some 2); ("b", Some 3); ("a", Some 7); ("d", Some 8); ("a", Some 1)], [("b", 3); ("c", 2); ("a", 1); ("d", 8)]);
  ([("d", Some 7); ("c", None); ("d", Some 8)], [("d", 8)]);
  ([("b", Some 6); ("d", Some 7); ("d", None); ("a", Some 2)], [("b", 6); ("a", 2)]);
  ([("d", None); ("a", None)], []);
  ([("a", Some 5); ("a", Some 2); ("c", Some 8)], [("a", 2); ("c", 8)]);
  ([("c", Some 7); ("d", None); ("d", Some 6); ("d", None); ("d", Some 7)], [("c", 7); ("d", 7)]);
  ([("d", Some 6); ("a", Some 4); ("d", Some 2); ("c", None); ("d", Some 4); ("a", Some 0)], [("d", 4); ("a", 0)]);
  ([("c", Some 3)], [("c", 3)]);
  ([("d", Some 3); ("a", Some 0); ("a", Some 0); ("c", Some 8); ("a", Some 2); ("b", Some 8); ("b", Some 5); ("c", None)], [("d", 3); ("a", 2); ("b", 5)]);
  ([("c", None); ("a", Some 8); ("d", None); ("d", None); ("d", Some 0); ("a", None); ("d", Some 7); ("a", None)], [("d", 7)]);
  ([("d", Some 4)], [("d", 4)]);
  ([("d", None); ("c", Some 1)], [("c", 1)]);
  ([("b", Some 5); ("b", Some 1)], [("b", 1)]);
  ([("c", None); ("c", None); ("d", Some 8); ("b", Some 2); ("b", Some 3); ("c", Some 5)], [("d", 8); ("b", 3); ("c", 5)]);
  ([("d", Some 4); ("c", Some 5); ("b", Some 1); ("b", Some 2); ("b", Some 8); ("a", Some 2); ("a", None)], [("d", 4); ("c", 5); ("b", 8)]);
  ([("c", None); ("a", None); ("a", Some 8); ("b", Some 4); ("c", Some 6); ("b", Some 2); ("b", Some 1)], [("a", 8); ("b", 1); ("c", 6)]);
  ([("c", None); ("a", Some 8); ("b", Some 2); ("b", Some 1); ("c", None)], [("a", 8); ("b", 1)]);
  ([("d", None); ("b", Some 1); ("d", None); ("b", Some 0); ("a", Some 4); ("d", Some 4); ("b", None); ("c", Some 6)], [("a", 4); ("d", 4); ("c", 6)]);
  ([("b", Some 2); ("b", Some 3); ("a", Some 1); ("c", None); ("b", Some 4); ("b", Some 6)], [("b", 6); ("a", 1)]);
  ([("a", Some 5); ("c", Some 6); ("c", Some 3); ("d", Some 5); ("a", None); ("b", Some 4); ("a", None); ("b", None)], [("c", 3); ("d", 5)]);
  ([("d", Some 7)], [("d", 7)]);
  ([("d", Some 1); ("c", None); ("b", Some 2); ("a", None); ("c", Some 2); ("d", Some 6); ("d", None)], [("b", 2); ("c", 2)]);
  ([("c", None); ("d", Some 0); ("c", Some 0)], [("d", 0); ("c", 0)]);
  ([("b", None); ("c", Some 3); ("b", Some 5); ("b", None); ("a", None)], [("c", 3)]);
  ([("a", None); ("a", None); ("d", Some 4); ("d", Some 2); ("c", None); ("b", None); ("b", Some 3); ("b", Some 3)], [("d", 2); ("b", 3)]);
  ([("d", None); ("b", Some 0); ("b", Some 3)], [("b", 3)]);
  ([("a", Some 8); ("a", None); ("a", Some 7); ("a", None); ("d", None); ("d", Some 3)], [("d", 3)]);
  ([("d", None); ("c", None); ("d", Some 3); ("c", Some 0)], [("d", 3); ("c", 0)]);
  ([("d", Some 3)], [("d", 3)]);
  ([("b", Some 7); ("d", Some 1); ("c", Some 6); ("c", None); ("b", Some 7); ("c", None); ("c", Some 8); ("b", None)], [("d", 1); ("c", 8)]);
  ([("b", Some 0); ("b", Some 8); ("d", Some 7); ("c", Some 1); ("c", None); ("c", Some 3); ("a", None)], [("b", 8); ("d", 7); ("c", 3)]);
  ([("a", None); ("a", None); ("a", Some 0); ("a", Some 1); ("d", None); ("b", Some 7)], [("a", 1); ("b", 7)]);
  ([("a", Some 5); ("a", Some 3)], [("a", 3)]);
  ([("c", None); ("a", Some 6); ("d", Some 8)], [("a", 6); ("d", 8)]);
  ([("b", None); ("c", Some 5); ("c", None); ("a", Some 8)], [("a", 8)]);
  ([("a", None); ("b", Some 6); ("a", None); ("b", None)], []);
  ([("a", Some 8); ("d", Some 2); ("b", Some 0); ("d", None); ("b", Some 6); ("b", None); ("c", Some 0)], [("a", 8); ("c", 0)]);
  ([("c", None); ("b", Some 2); ("d", Some 1); ("b", Some 7); ("d", None); ("a", Some 6)], [("b", 7); ("a", 6)]);
  ([("a", Some 7); ("a", None); ("c", Some 1); ("d", Some 3)], [("c", 1); ("d", 3)]);
  ([("a", Some 3); ("b", None); ("a", Some 6); ("c", Some 6); ("b", None); ("d", None)], [("a", 6); ("c", 6)]);
  ([("a", None); ("a", Some 3); ("b", Some 3); ("a", Some 2); ("a", Some 3); ("a", None); ("d", Some 4)], [("b", 3); ("d", 4)]);
  ([("b", Some 0); ("b", Some 0); ("b", Some 5); ("b", Some 2)], [("b", 2)]);
  ([("b", Some 7); ("c", Some 3); ("a", Some 4)], [("b", 7); ("c", 3); ("a", 4)]);
  ([("d", None); ("d", Some 7); ("c", Some 0); ("d", None); ("b", Some 5); ("d", Some 8); ("c", None)], [("b", 5); ("d", 8)]);
  ([("d", None); ("d", None); ("c", None); ("c", Some 3); ("c", Some 4)], [("c", 4)]);
  ([("d", Some 4); ("a", Some 6); ("c", None)], [("d", 4); ("a", 6)]);
  ([("d", Some 5); ("a", Some 4); ("d", None)], [("a", 4)]);
  ([("d", None); ("d", Some 6); ("c", Some 8); ("d", None); ("d", Some 6)], [("c", 8); ("d", 6)]);
  ([("b", None); ("a", Some 2); ("b", None); ("b", Some 2); ("b", Some 7); ("b", Some 8); ("b", None)], [("a", 2)]);
  ([("d", None); ("c", Some 7); ("a", None); ("b", None); ("b", None)], [("c", 7)]);
  ([("c", Some 7); ("d", Some 8); ("c", None)], [("d", 8)])].
Lemma ok_dict : forallb (fun v => match v with (ops, r) => same_dict (fold_left (fun d o => match snd o with Some x => dset (fst o) x d | None => ddel (fst o) d end) ops []) r end) v_dict = true.
Proof. vm_compute. reflexivity. Qed.
