# Formal model of pyfar/sofar in Coq

`properties.jsonl` states the properties, `rocq/theories` holds the model, the
specifications and the proofs, `MANIFEST.json` names the theorems of each
property, `seeded/LOG.jsonl` records how the theorems were tested against wrong
programs.

## Approach

The model is a set of total, executable Gallina functions that follow
`/repo/sofar/*.py` branch by branch. Python exceptions are values. A method that
changes `self` is a function

    M A := sofa -> sofa * list event * res A

that returns the object *as it is when the call ends or the exception leaves the
method*, the warnings and printed texts in order, and the result or exception.
Failure states are hence visible: "a rejected assignment has no effect" is a
statement about the object returned together with `Err`. Files are written by
functions `W := ncfile -> ncfile * res unit`, so that a half written file is
visible too. Warnings, printed texts and the report of verify are modelled as
they are in the source, including their mistakes, and so are the texts of the
exceptions that sofar raises itself except in `update_conventions.py`; the texts
of exceptions of Python, numpy and netCDF4 are shortened. Every definition of the model carries a comment with the file
and the lines in `/repo` that it follows.

Loops over data become structural recursion over lists; there is no fuel in the
model except in `Copy.v` (deepcopy of cyclic data, where a theorem shows that
the fuel suffices) and `Alias.v` (values of lists that contain themselves) and
no bound on sizes, ranks, lengths of texts or numbers of operations in any theorem.

The model can be executed. `Demo.v` contains a small set of conventions, rules
and upgrades in the format of the json files; the examples beside the theorems
(`Example Cxx_case`) evaluate the model on it with `vm_compute` to show that the
hypotheses can be met by a non-trivial case.

### Layers

| files | content |
|-------|---------|
| `Base.v` | ordered dicts, exceptions, result and state monads |
| `PyStr.v` | Python string functions used by sofar |
| `PyNum.v` | numbers (IEEE binary64 by `SpecFloat` of the standard library), `float(str)`, `packaging.version.parse` |
| `NdArray.v` | numpy shapes, arrays, conversion of nested lists, `atleast_nd`, `moveaxis` |
| `Sofa.v` | environment (conventions, rules), the object, attribute access, adding, deleting, add_missing, loading conventions |
| `Verify.v` | `verify` with all steps and texts, creation of objects, dimensions, inspect, info |
| `Upgrade.v`, `Utils.v` | `upgrade_convention`, `equals` |
| `Io.v`, `Stream.v` | NetCDF files, `write_sofa`, `read_sofa`, `read_sofa_as_netcdf`, `SofaStream` |
| `UpdateConv.v`, `Network.v`, `Congruency.v` | `update_conventions`, csv to json, `_check_congruency` |
| `Copy.v`, `Alias.v` | heap model of `Sofa.copy` and of what assignments copy or share |
| `Session.v` | with blocks of streams |
| `Script.v` | scripts that create an object, add entries and verify it; `_complete_sofa` |
| `Level.v`, `TextFile.v`, `Repr.v` | the argument compression of `write_sofa`, the argument file of `inspect`, `__repr__` and `version` |
| `Listing.v` | `list_conventions`, `_get_conventions` |
| `Library.v` | which json files of the directory are convention files and their content (`_get_conventions`, json part of `_load_convention`) |
| `Demo.v` | environment of the examples |
| `Spec*.v` | specifications; they use the data types of the model, but not the functions under test |
| `*Facts.v` | lemmas |
| `Prop*.v` | the property theorems with `Print Assumptions` and examples |
| `PyLaws.v` | laws of the Python and numpy functions of the model |
| `PyVectors.v` | results of functions of the Python standard library on random arguments, compared with the model |
| `PropMeaning.v` | what the functions decide that the statements share with the model (flags, versions, names of files, positions) |
| `PropAsked.v`, `PropAgain.v`, `PropDimText.v`, `PropBack.v`, `PropAlike.v` | texts of asking for upgrades and of list_dimensions, chains of upgrades, assigning stored data, validity of equal objects |
| `RepoTests.v` | the unit tests of the repository (`/repo/tests`) computed in the model, with small conventions and rules |

### Convention data are parameters

The submodule `sofar/sofa_conventions` (json files) is not part of the pinned
source. Conventions, rules, unit aliases, deprecations and upgrade rules are
components of a record `env` over which every theorem quantifies. Hypotheses
about them are explicit: `db_ok` (file names of the form name_version.json with
versions that `float` reads and that agree with the content), `rules_tidy`,
`db_tidy`, `db_sound`, `db_creatable` and `defaults_ok` (default values are texts,
numbers, arrays or lists); each of them is shown to hold for the
demo environment.

### Refutations

If the code does not satisfy a property, the property is kept in full in
`properties.jsonl`, the strongest version that was found to be true is proved
(`..._partial`; the comment above the theorem and the note in the manifest say
what is missing), and a theorem `..._refuted` shows a concrete witness that
violates the full statement. All claims with status partial have such a witness.

## Trusted base

* The kernel of Coq 8.16.1. No kernel check is switched off and nothing is
  admitted. `vm_compute` is used for examples and refutations, so that the
  virtual machine of the kernel is trusted as well.
* Axioms: none. `Print Assumptions` stands below every property theorem and
  prints "Closed under the global context" for each of them
  (304 of 304 in the build log). The environment
  contains the 7 constants `Coq.ssr.ssrunder.Under_rel.*`, which a module type of
  the standard library declares when `lia` and its dependencies are loaded; no
  theorem uses them.
* The correspondence between the model and the source, which is established by
  reading: each definition cites the lines it follows. Behaviour of numpy,
  netCDF4, json, packaging, BeautifulSoup and requests is modelled from
  their documentation and cannot be run in this sandbox.
* The specifications in `Spec*.v` and the statements of the theorems. They use
  functions of `PyStr.v`, `PyNum.v` and `NdArray.v` for texts, version numbers and
  shapes. `PyLaws.v` proves for each of them what the documentation of Python says,
  without reference to the definitions: for example, `split` and `replace` are
  determined by the first occurrence, `str` gives the decimal digits without
  leading zeros, versions are compared by the first component that differs.
  `PyVectors.v` compares the model of texts, numbers, file names, line ends and
  dictionaries with about 3300 results of CPython 3.11 on random arguments. The file
  is written by `tools/pyvectors.py`, which uses the Python standard library and no
  code of sofar. `RepoTests.v` computes the expectations of the unit tests of the
  repository in the model. It leaves out the tests that need a network connection
  (`_check_congruency`) or the data of the submodule, and the sizes of compressed files.

## What is modelled

| source | model | remarks |
|--------|-------|---------|
| `Sofa.__init__`, `_load_convention`, `_convention_to_sofa`, `_reset_convention` | `sofa_init`, `init_body`, `load_convention`, `convention_to_sofa`, `reset_convention` | date, versions of sofar and Python are parameters |
| `__setattr__`, `__delattr__`, `delete`, `protected` | `set_attr`, `del_attr`, `set_protected` | private names are outside the model |
| `add_variable`, `add_attribute`, `_add_entry`, `_add_custom_api_entry`, `add_missing` | `add_entry` and callers | |
| `verify` with `_verify_value`, `_verify_unit`, `_verify_handle_issues`, `_verification_rules`, `_get_size_and_shape_of_string_var`, `_mandatory`, `_read_only` | `verify_gen`, `verify` and helpers | 4 issue handlings, both modes, all texts |
| `get_dimension`, `_update_dimensions`, `list_dimensions`, `inspect`, `info` | same names | the text that inspect writes to a file is the printed one |
| `upgrade_convention` | `upgrade_convention` | |
| `copy` | `Copy.v` | heap of arrays, views, dicts and lists |
| sharing of assigned data, `__setattr__` and `__delattr__` on the heap | `Alias.v` | programs that create, copy, assign, delete, take out, slice and write; private dictionaries left out |
| `utils.equals`, `_equals_raise_warning` | `equals` | masked and complex data give `ENotModelled` |
| `utils._atleast_nd`, `_nd_newaxis`, `_verify_convention_and_version`, `list_conventions`, `_get_conventions` | same names | |
| `io.read_sofa`, `read_sofa_as_netcdf`, `_read_netcdf`, `write_sofa`, `_write_sofa`, `_format_value_for_netcdf`, `_format_value_from_netcdf` | `Io.v` | a disk is a dict of paths; compression has no effect |
| `SofaStream` with `__getattr__`, `get_dimension`, `list_dimensions`, `inspect` | `Stream.v` | |
| `SofaStream.__init__`, `__enter__`, `__exit__`, with blocks | `Session.v` | programs with exceptions; open files have an identity |
| `write_sofa(..., compression)` | `Level.v` | levels are integers; netCDF accepts 0 to 9 for variables with dimensions |
| `inspect(file)` of `Sofa` and `SofaStream` | `TextFile.v` | text files with POSIX line ends; the encoding is a predicate on texts |
| `Sofa.__repr__`, `version` | `Repr.v` | |
| `utils._complete_sofa` | `Script.v` | as an instance of scripts of additions |
| `_get_reference_unit` | `RefUnit.v` | never called inside sofar |
| `update_conventions`, `_compile_conventions`, `_convention_csv2dict`, `_check_congruency` | `UpdateConv.v`, `Congruency.v` | pages and files of the servers are records |
| the requests of `update_conventions` | `Network.v` | answers with status, failures, missing input; parsing of HTML is a parameter |

Not modelled: the parsing of HTML pages, threads and concurrent access to files,
Python's limits (recursion depth, memory).

### Simplifications

Inputs outside the model yield an exception of the extra class `ENotModelled`.
A theorem that concludes success shows at the same time that this class does not
occur; statements about what a failing call leaves behind treat it like any other
exception.

* Texts are lists of bytes; letters above ASCII are not converted by `lower` and
  `upper`.
* Numbers are integers of any size and binary64 floats. `float(str)` accepts
  digits with an optional point, versions have the form N(.N)*.
* Arrays have one kind (bool, int, float, complex, text, bytes, object, other);
  lists that mix texts with numbers are not converted. Missing elements of masked arrays are elements of their
  own kind (`EObj` in an array with `a_mask`); writing masked arrays of integers and comparing masked arrays give `ENotModelled`.
* File names are split as by `pathlib` on a POSIX system (repeated slashes and single dots are
  dropped), also for `SofaStream`. There are no links, and `..` is a name like others.
* NetCDF: one group, dimensions (also unlimited ones), attributes and variables of
  numbers or characters; other types (vlen strings) are kept as `DOther`.
  Scaling, packing and chunking are not modelled.
* The attribute `_Encoding` is only modelled for ASCII characters (sofar never
  writes it). Groups (names with "/"), special attribute names of the library and
  broadcasting during assignment are outside the model.
* `moveaxis` is modelled for non-negative axes, which is what upgrade rules use.
* `SofaStream`: names that are members of `netCDF4.Dataset` or `Variable` and
  strings of variable length are outside the model.
* `issue_handling` and `mode` are texts; every text but the four documented words is one case (`handling_of`), every mode but "write" is "read" (`mode_of`), as the comparisons in the code have it.

## How the properties are proved

Theorem names, status and what is missing: `MANIFEST.json`. The table says
where the statement lives and how the proof goes.

| property | status | theorems in | how stated and proved |
|---|---|---|---|
| C01 Read-only mandatory data cannot change while protected | proved | `PropAttr.v`, `PropMeaning.v` | invariant over runs (lists of public operations), induction; the operations are the functions of the model |
| C02 Mandatory data cannot disappear while protected | proved | `PropAttr.v`, `PropMeaning.v` | same runs and invariant as C01 |
| C03 Assignment to a protected object never creates an attribute | partial | `PropAttr.v`, `PropMeaning.v` | case analysis of `set_attr` |
| C04 Rejected assignments and deletions have no effect | proved | `PropAttr.v` | case analysis of `set_attr`, `del_attr` |
| C05 Normal form of stored values | proved | `PropAttr.v` | normal form stated over elements and shapes; lemmas on nested lists by induction over the value |
| C06 Adding a custom entry adds exactly that entry | partial | `PropAttr.v` | frame statement over the dict of entries |
| C07 Names accepted by add_variable and add_attribute | partial | `PropAttr.v` | iff with a separate grammar of names |
| C08 A rejected add leaves the object unchanged | partial | `PropAttr.v` | case analysis along `add_entry` |
| C09 Deleting removes exactly one entry | proved | `PropAttr.v` | frame statement and iff |
| C10 Protection is always re-armed | proved | `PropAttr.v` | weakest-precondition style lemmas for each method |
| C100 The order of the convention files does not matter | proved | `PropSwap.v` | a relation between runs in two environments through all methods; version numbers that are equal as numbers are equal texts |
| C101 Further conventions do not interfere | proved | `PropSwap.v` | the relation of C100 with equal exceptions, restricted to names other than the added one |
| C102 What sofar.version() tells | proved | `PropRelease.v` | strip against a decomposition of the file into white space, text, white space and further lines |
| C103 Upgraded data arrive in the file | partial | `PropSave.v` | composition of the theorems on reachable objects (C75), upgrades (C48) and files (C32) |
| C104 A script of additions builds exactly the intended object | proved | `PropScript.v` | induction over the list of additions with the theorems on add_variable and add_attribute (C07), creation and verify |
| C105 info shows what the rows of the csv file say | proved | `PropRowInfo.v` | composition of the theorems on compiling (C82), on loading (C25) and on the printed rows |
| C106 Asking for upgrades tells the choice | partial | `PropAsked.v` | Both theorems unfold the decision after reading the convention (PropUpgrade.upgrade_after_reset); the lines of targets are a Forall2 with a relation that does not use split. |
| C107 list_dimensions tells what the dimensions mean | partial | `PropDimText.v` | The meanings and the named entry are relations (means, set_by) stated with concatenations of strings; the entries after reading the convention are the convention followed by the data added by the user (reset_entries). |
| C108 After an upgrade the target counts | proved | `PropAgain.v` | Composition of C48 (state after the upgrade), the file names of conventions (own_default) and the decision of upgrade_convention. |
| C109 Assigning back what is stored changes nothing | proved | `PropBack.v` | C75 gives the form of all stored values; stored values are fixed points of the conversion (normalize_stored). |
| C11 verify accepts exactly the valid objects | proved | `PropVerify.v` | predicate `valid` in SpecVerify, one clause per documented rule; proof by splitting `verify` into its steps, both directions |
| C110 Equal objects are equally valid | partial | `PropAlike.v` | equals gives the same content (C45); validity depends on shapes and texts only (C72). |
| C111 Files tell objects apart exactly as equals does | partial | `PropArrive.v` | PropArrive.v: what is read is related to the written object by `exact` (the same names, types, texts, shapes up to singletons, and the same numbers rather than close ones), and `same_content` is invariant under `exact` on both sides. |
| C112 add_missing repairs damaged new objects | partial | `PropRepair.v` | content after add_missing (C28); order does not matter (C71); axes of length one at the end do not matter (C72). |
| C113 Rejected additions say what is wrong | proved | `PropComplain.v` | case distinction over the checks against a relation of reasons and texts; the relation is shown to be functional. |
| C114 Refused assignments, deletions and creations say what is wrong | proved | `PropRefuse.v` | case distinction against relations of reasons and texts; the versions are those of the files of the convention, which are distinct because file names are. |
| C115 Failed look-ups and reads say what is missing | proved | `PropBlocked.v`, `PropLookup.v` | size relation of C16; look-up in the content of the file; C90 for invalid files. |
| C116 Other issues do not hide the dimensions | partial | `PropBlocked.v` | sizes of the returned object from the verification with issue_handling return; search in the report as decomposition of the text. |
| C12 verify never changes data | proved | `PropVerify.v` | always-framework: no step changes contained data |
| C13 Issue handling modes agree | partial | `PropMeaning.v`, `PropVerify.v` | all steps are run symbolically for each handling |
| C14 verify is idempotent | proved | `PropTwice.v`, `PropVerify.v` | second run on the state of the first, default values by db_sound |
| C15 Valid for writing implies valid for reading | proved | `PropVerify.v` | monotony of every clause of `valid` in the mode |
| C16 Dimensions are consistent after verification | proved | `PropVerify.v` | from C11 and the shape clauses |
| C17 get_dimension is never stale | proved | `PropVerify.v` | dimension sizes stated from the data alone |
| C18 S is the length of the longest string | proved | `PropVerify.v` | maximum over a list, both directions |
| C19 Verified arrays have no undeclared axes | partial | `PropVerify.v` | from the shape clause |
| C20 Unit strings | partial | `PropVerify.v` | grammar of unit strings, iff |
| C21 Restricted values | proved | `PropVerify.v` | iff per rule |
| C22 String variables of numpy type U and S are accepted | partial | `PropVerify.v` | from the type clause |
| C23 Deprecated and preliminary conventions are reported | proved | `PropVerify.v` | warnings in the event list |
| C24 Creating an object gives the convention's content | proved | `PropInit.v` | content stated from the convention record |
| C25 Version selection | proved | `PropInit.v`, `PropMeaning.v` | search over an arbitrary directory listing |
| C26 'latest' is the newest version | partial | `PropInit.v` | order of versions as lists of numbers against decimal order |
| C27 add_missing completes and preserves | proved | `PropInit.v` | frame statement over the dict |
| C28 add_missing restores the values of a new object | partial | `PropInit.v` | comparison with the content of C24 |
| C29 Keys are free of NetCDF delimiters | proved | `PropInit.v` | by induction over the convention file |
| C30 Failed verification leaves the disk untouched | proved | `PropIo.v` | file system before and after the call |
| C31 write_sofa is all or nothing | partial | `PropRound.v` | predicate `storable`; every file operation succeeds under it |
| C32 Write-read round trip keeps all data | partial | `PropMeaning.v`, `PropRound.v` | predicates `storable`, `faithful`, `readable_again`; induction over the entries, per entry round trip |
| C33 Round trip is confirmed by equals | partial | `PropRound.v` | C32 and the characterisation of C45 |
| C34 Reading returns exactly the content of the file | proved | `PropIo.v` | relation `same_data` between file and object |
| C35 read_sofa_as_netcdf reads any file | proved | `PropIo.v` | same relation |
| C36 Reading ends protected or raises ValueError | proved | `PropIo.v` | state returned by `read_sofa` |
| C37 File names | partial | `PropIo.v` | specification by last point of the name |
| C38 String variables survive fixed width storage | partial | `PropIo.v` | fixed width storage as list of characters |
| C39 Dimensions in the file | partial | `PropRound.v` | dimension table of the file against `get_dimension` |
| C40 Shape after reading | partial | `PropMeaning.v`, `PropRound.v` | shape function stated separately |
| C41 SofaStream agrees with read_sofa | partial | `PropStream.v` | both readers run on the same file |
| C42 SofaStream.get_dimension agrees with Sofa.get_dimension | partial | `PropStream.v` | file written by `write_sofa`, both lookups |
| C43 equals is reflexive and ignores order | partial | `PropEquals.v` | reflexivity per value; permutation of dicts |
| C44 equals is symmetric | partial | `PropEquals.v` | symmetric up to closeness of numbers, binary64 arithmetic |
| C45 equals True means same content | partial | `PropEquals.v` | relation `same_content`, iff |
| C46 Excluding data only makes objects more equal | proved | `PropEquals.v` | monotony in the exclusion |
| C47 Asking for upgrades is harmless | partial | `PropUpgrade.v` | frame statement |
| C48 Upgrading moves data without loss | proved | `PropUpgrade.v` | relation `upgraded` stated per rule over entries |
| C49 Moving axes permutes elements | proved | `PropMeaning.v`, `PropUpgrade.v` | permutation of index vectors |
| C50 A failed upgrade does not leave a half upgraded object | partial | `PropUpgrade.v` | predicate `changes_possible` |
| C51 Declining an update changes nothing | proved | `PropUpdate.v` | directory before and after |
| C52 Updating is idempotent | partial | `PropUpdate.v` | two runs with the same server |
| C53 Updating mirrors the server | partial | `PropMeaning.v`, `PropUpdate.v` | directory stated from the server's files |
| C54 Compiling conventions keeps all entries and orders them | proved | `PropUpdate.v` | keys and order of the csv lines |
| C55 Parsing default values | proved | `PropUpdate.v` | printer of values, parser inverts it |
| C56 inspect works on every object | partial | `PropInfo.v`, `PropRowInfo.v` | listing as list of lines, each entry once |
| C57 info partitions the entries | partial | `PropInfo.v` | partition of the entries |
| C58 copies are independent | proved | `PropCopy.v` | heap with locations; separation invariant over interleavings of two programs |
| C59 A deleted custom entry leaves no trace | partial | `PropReadd.v` | relation between objects, every method respects it |
| C60 Read-only data stay protected after reading and upgrading | partial | `PropReadOnly.v` | runs as in C01 from the object read |
| C61 Listed conventions can be created | proved | `PropListing.v` | every listed pair creates |
| C62 Inspecting an opened file lists its content | partial | `PropStreamInfo.v` | stream on file records |
| C63 The congruency report is complete and true | partial | `PropCongruency.v` | report as set of findings |
| C64 list_dimensions agrees with get_dimension | partial | `PropListing.v` | lines of the listing against `get_dimension` |
| C65 verify never fails with an unrelated error | partial | `PropCrash.v` | predicate `checkable`; exception classes of each step |
| C66 Objects read from files can be written again | partial | `PropRewrite.v` | C32 and validity of the object read |
| C67 Writing outdated data is reported | partial | `PropMeaning.v`, `PropReport.v` | warnings in the event list of `write_sofa` |
| C68 Reading reports foreign and missing data | partial | `PropReport.v` | events of `read_sofa` |
| C69 equals tells what differs | partial | `PropReport.v` | events of `equals` |
| C70 add_missing tells what it did | partial | `PropReport.v` | printed text of `add_missing` |
| C71 The order of the data does not matter | partial | `PropOrder.v` | permutation of the dicts; every clause of `valid` is invariant, sizes by the last statement |
| C72 Acceptance depends on shapes and texts, not on numbers | proved | `PropOutline.v` | every clause of `valid` is invariant under exchanging numbers of the same shape |
| C73 A file holds what was written last | proved | `PropDisk.v` | induction over the calls, frame on the file system |
| C74 Looking at an object does not change its data | proved | `PropQuery.v` | induction over the calls; each only resets the convention, adds defaults and sets dimensions |
| C75 All objects and files of a program are well-formed | proved | `PropReach.v` | inductive set `world` of whole programs; an invariant calculus (`inv`) shows that every method keeps `whole`, for results and exceptions alike |
| C76 Streams show data exactly inside their with blocks and leave no open files | partial | `PropSession.v` | heap of open files, induction over programs: what was open before stays as it is, what was opened is closed |
| C77 Failed requests change no conventions | partial | `PropNetwork.v` | induction over the requests; the answers are a function of the number of the request, the log of requests is part of the result |
| C78 Sofa objects are independent of each other | partial | `PropAlias.v` | heap with arrays, views, buffers and lists; invariant that everything in an object is a number, a text or an array; separation of objects by reachability, kept by every careful operation |
| C79 verify's report names exactly the problems of the object | proved | `PropIssues.v` | a line is a pair of name and text; every loop of verify spells the lines of its problems; problems are stated with the predicates that define valid objects |
| C80 Reading a file and writing it again reproduces the file | partial | `PropStable.v` | the alternative chosen by verify is the first that fits and the same alternatives fit before and after reading; sizes, elements and attributes of both files are then compared; induction over the number of repetitions |
| C81 update_conventions announces exactly what it changes | proved | `PropPlan.v` | an independent relation says which line a convention needs; the events of the plan are compared with it step by step; frame lemmas for copying, deprecating and compiling, also when these fail |
| C82 Compiling a csv file gives the entries of its rows | partial | `PropCsv.v` | independent relations say which value a cell and which entry a row stands for; the parser is run on the concatenated text, with induction over rows and lines |
| C83 An object has the data of the rows of its csv file | proved | `PropCsv.v` | C82 gives the json file, the json file is found as convention file (Library.v), C24 gives the content of the object for this file |
| C84 Missing data stay missing, and nothing else goes missing | partial | `PropMissing.v` | missing elements are elements of their own kind in the model; the file is related to the object element by element (filed), what is read likewise (C34) |
| C85 A misspelled issue_handling or mode does not hide issues | partial | `PropWords.v` | issue_handling and mode are any text in the model (handling_of, mode_of); the theorem follows verify's early return for data of the wrong type and the end of the verification |
| C86 Adding a correct entry keeps a valid object valid | partial | `PropGrow.v` | specification of objects that differ in one entry (SpecGrow.v); every check of verify is related for the two objects (GrowFacts.v), with the completeness theorem for verify on both sides |
| C87 Deleting an entry keeps a valid object valid if nothing needs it | partial | `PropGrow.v` | the same relation as for C86, read in the other direction (shrink_valid) |
| C88 equals is transitive | partial | `PropTrans.v` | the specification of equals (C16) gives the relation of the data in both directions; the relations compose |
| C89 Looking at an object does not influence what follows | partial | `PropLook.v` | objects that differ only in what the last verification left behind behave alike (BlindFacts.v); objects whose declared entries are those of the convention and the custom data are not changed by looking at them, and stay so (LookFacts.v); induction over the session |
| C90 The argument verify only decides whether problems are reported | partial | `PropMeaning.v`, `PropOption.v` | equation for sofa_init for every value of verify; reading does not depend on what a verification left behind (BlindFacts.v, OptionFacts.v); verification decides validity (C11); versions as distributed are at least 1.0 unless they start with 0 |
| C91 A saved inspection is what was shown | partial | `PropText.v` | equation between inspect with and without a file; cases of opening and encoding |
| C92 The level of compression does not change the data | partial | `PropLevel.v` | the operations on the file agree for all levels; induction over the entries |
| C93 verbose only decides about messages | proved | `PropVerbose.v` | both calls are run side by side |
| C94 An object keeps telling what it is | partial | `PropVerbose.v` | read-only data stay (C01) |
| C95 Changes of different entries can be made in any order | partial | `PropChange.v` | every call looks at and touches its own entry; induction over the permutation |
| C96 The last assignment counts | proved | `PropChange.v` | C95 moves the first assignment next to the last |
| C97 Upgrading tells what it does | partial | `PropUpgradeSay.v` | the messages of every step; C70 for the added data, C11 and C14 for validity |
| C98 Reference form of unit strings | partial | `PropUnit.v` | the split function against an inductive definition of lists of units; C20 for accepted strings |
| C99 What inspect shows of an entry | partial | `PropShown.v` | rows of C56 with the dimensions that verify found (C16) and get_dimension on valid objects |

## What the proofs brought up about the code

Each of these is a theorem, a refutation or an example.

* `list_dimensions` raises UnboundLocalError if `GLOBAL_DataType` does not start
  with FIR, TF or SOS (C62, C64).
* `inspect` raises AttributeError for valid objects with a plain text in a string
  variable and KeyError for variables of wrong shape; `info` raises KeyError for a
  variable's attribute without an entry (C56, C57).
* An optional read-only attribute can be deleted and added again; a single
  read-only name is loaded as `np.str_` and the test becomes a substring test
  (model `in_ro`).
* `verify` does not raise the documented exceptions but TypeError or ValueError
  for 0-d, empty and two-dimensional string arrays and AttributeError for numeric
  data in entries that end with Units (C65).
* `get_dimension` raises ValueError for valid objects if an attribute contains
  "data of wrong type" (model `get_dimension`, hypotheses of C17).
* Trailing axes are accepted by `verify`, and writing then fails after the file was
  truncated (C19, C31).
* 0-d variables raise IndexError when read, strings of variable length TypeError
  (model `Io.v`).
* The list of entries with data in `read_sofa` misses a comma
  (`/repo/sofar/io.py:423`).
* `upgrade_convention` raises UnboundLocalError if a convention is deprecated but no
  upgrade rule covers its version, returns None instead of the documented empty list
  for data that are up to date (C47), leaves half upgraded, unprotected data if data
  to move are missing (C50), and does not refresh the list of read-only data (C60).
* Deleting a custom entry removes it from the list of custom data but not from the
  convention; adding it again is not recorded and the next `verify` raises KeyError
  (C06, C59, C65). After adding and deleting, `verify` may warn about preliminary versions.
* Objects of `read_sofa_as_netcdf` have no read-only data.
* `_check_congruency` removes items from a list while iterating over it (C63).
* Warnings of `equals` about variables print the literal text `{key}` (C69).
* `add_missing(mandatory=False)` prints "All mandatory data contained." although
  mandatory data may be missing (C70).
* Versions are compared as decimal numbers, hence 1.11 counts as older than 1.9
  (C26, C67).
* A failed `add_variable` (ragged list) leaves the object unprotected with the entry
  recorded (C08); names of methods can be assigned in protected objects (C03).
* Arrays of type S are rejected in string variables (C22), units separated by spaces
  only are rejected (C20), both against the documentation.
* Names with another suffix than .sofa lose it: "a.b" and "a.c" address the same
  file (C37).
* A csv file that cannot be parsed replaces the old one, raises, and later runs report
  "up to date" with the old json file (C53).
* Variables whose name is that of a method (for example "copy") are not reported as
  custom data when read (C68).
* The verdict of `verify` can depend on the order of the data if two variables set
  the size of the same dimension (C71).
* A stream that is entered inside of its own with block leaves a file open, and the
  outer block ends with RuntimeError; accesses before entering recurse without end
  (RecursionError) instead of raising AttributeError (C76).
* `SofaStream.list_dimensions` reports "list_dimensions is not contained in SOFA-file"
  for files without data type, because it is a property of a class with
  `__getattr__` (model `Stream.v`).
* `update_conventions` does not check the status of answers: an error page is installed
  as convention (C77); a link without target on the page raises AttributeError.
* Assigned numpy arrays are stored without copying: assigning one array to two objects,
  or the array of one object to another, couples them; lists are copied (C78).
* A comment in a csv file that starts with "[" (for example "[degree], clockwise") makes
  the file unreadable; a comment of digits becomes a number (C82).
* `verify(issue_handling="Raise")` and any other unknown text returns None without a
  message for invalid objects (unless data have the wrong type); any mode but "write"
  is treated as "read" (C85).
* A custom variable with a single custom dimension can not be valid if its value is a
  list of several numbers: the list is expanded to two axes and the size of the
  dimension becomes 1 ("has shape (2,) but must have (X=1)") (C86).
* A custom variable that states another size for a custom dimension makes verify reject
  the older variable, not the new one (C86); deleting a custom variable leaves its
  attributes behind and the object invalid (C87).
* `inspect(issue_handling="print")` of an object with data of wrong type shows the
  dimensions of an earlier verification, and raises AttributeError if there was none (C89).
* Differences within the tolerance of `equals` add up, so it is not transitive (C88).
* `read_sofa(verify=True)` verifies the default object of the convention before reading: if
  it is not valid, no file of that convention can be read with verification (C90).
* `inspect(file=...)` empties the file before the text is encoded; texts that the platform
  cannot encode raise and the earlier report is lost (C91).
* `write_sofa(..., compression=10)` is rejected only after the earlier file has been
  emptied (C92).
* `upgrade_convention` deletes data before it tries to move their axes; if this fails, for
  example for data that are not arrays, the data are lost and no message names them (C97).
* `inspect` shows wrong sizes: a list assigned to a variable with one declared dimension (for instance the frequencies N) is stored with the shape (1, N), and the size is shown as N=1; the length of texts is shown as S=1 (`C99_refuted`).
* `_get_reference_unit` raises `KeyError` for accepted units of two words, and its documented example "degrees degrees,meter" is not accepted by `verify` (`C98_refuted`).
* asking for upgrades raises UnboundLocalError if the convention is deprecated and has upgrade rules, but none for the version of the object (C106).
* list_dimensions names the first declared variable that uses a dimension, even if the object does not contain it (C107).
* `equals` ignores axes of length one, so an object can equal a valid object and be invalid (C110).
* `get_dimension` and `list_dimensions` recognize wrong types and shapes by searching the report for a text; a restricted attribute whose value is this text hides the dimensions of an object with correct shapes (C116).

## Testing the theorems

`seeded/LOG.jsonl` has one line per wrong program: an edit of a definition of
the model as a realistic bug in the source would cause it, the claim it breaks
and the theorems that no longer prove. A scratch copy is built with `make -k`;
a theorem counts as failed if its file does not compile because of the theorem
itself or a lemma it uses. Examples and refutations do not count. Statements
that survived a bug they should exclude were tightened.
