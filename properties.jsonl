{"id": "C01", "title": "Read-only mandatory data cannot change while protected", "statement": "As long as Sofa.protected is True and the user only uses public operations (attribute assignment, deletion, delete, add_variable, add_attribute, add_missing, verify, get_dimension), the value of every attribute that the convention flags as read-only and mandatory stays what it was, whatever these calls do, including calls that raise.", "quantifier": "every object in a protected state and every finite sequence of public operations with arbitrary names and values", "why_tests_cant": "A test fixes one history; the claim is about all interleavings of succeeding and failing calls.", "anchors": ["sofar/sofa.py:Sofa.__setattr__", "sofar/sofa.py:Sofa.__delattr__", "sofar/sofa.py:Sofa._add_custom_api_entry", "sofar/sofa.py:Sofa.verify", "sofar/sofa.py:Sofa.add_missing"]}
{"id": "C02", "title": "Mandatory data cannot disappear while protected", "statement": "While the object is protected, no finite sequence of public operations removes an attribute that the convention flags as mandatory.", "quantifier": "every protected object and every finite sequence of public operations", "why_tests_cant": "Data may vanish after any sequence of calls, also ones that raise in between; tests try single deletions on a fresh object.", "anchors": ["sofar/sofa.py:Sofa.__delattr__", "sofar/sofa.py:Sofa.delete"]}
{"id": "C03", "title": "Assignment to a protected object never creates an attribute", "statement": "While the object is protected, assigning to a name that the object does not contain raises TypeError and assignment never adds an entry to the object's data.", "quantifier": "every protected object, name and value", "why_tests_cant": "Ranges over every name; the counterexamples (names of methods) are not what a tester tries.", "anchors": ["sofar/sofa.py:Sofa.__setattr__"]}
{"id": "C04", "title": "Rejected assignments and deletions have no effect", "statement": "If an assignment or a deletion raises, the object is exactly as before (data, convention, custom entries, protection flag).", "quantifier": "every object, name and value", "why_tests_cant": "Each cause of an exception may come before or after some effect, for every name, value and state; tests check the exception, rarely the whole object afterwards.", "anchors": ["sofar/sofa.py:Sofa.__setattr__", "sofar/sofa.py:Sofa.__delattr__"]}
{"id": "C05", "title": "Normal form of stored values", "statement": "A stored value is a string, a scalar, or an array. Assigning a (nested, rectangular) list stores exactly its elements in order, as an array with at least two dimensions, or as a scalar if there is exactly one element; arrays are stored unchanged; reading a value and assigning it again changes nothing.", "quantifier": "every nested list, array and scalar", "why_tests_cant": "Nesting depth, sizes and mixtures of element types are unbounded; tests store a few lists.", "anchors": ["sofar/sofa.py:Sofa.__setattr__"]}
{"id": "C06", "title": "Adding a custom entry adds exactly that entry", "statement": "A successful add_variable or add_attribute makes exactly one new name readable with the given (normalised) value, leaves all other data unchanged, records the entry as custom data unless it is part of the convention, and leaves the object protected.", "quantifier": "every object and every name, value, dtype and dimensions", "why_tests_cant": "All other entries, declarations and dimensions must stay the same for every object and name; tests look at the new entry.", "anchors": ["sofar/sofa.py:Sofa._add_entry", "sofar/sofa.py:Sofa._add_custom_api_entry"]}
{"id": "C07", "title": "Names accepted by add_variable and add_attribute", "statement": "add_variable and add_attribute accept exactly the documented names: variables without underscores and with dimensions, attributes of the form GLOBAL_Attribute, Variable_Attribute or Data_Variable_Attribute for a variable known to the convention, none of which exists already; everything else raises ValueError.", "quantifier": "every name, dtype and dimensions string", "why_tests_cant": "The rule about names ranges over all strings, in particular those containing 'Data', 'GLOBAL' or existing names as parts; tests use a handful.", "anchors": ["sofar/sofa.py:Sofa._add_entry"]}
{"id": "C08", "title": "A rejected add leaves the object unchanged", "statement": "If add_variable or add_attribute raises, the object is exactly as before, in particular still protected.", "quantifier": "every object, name, value, dtype, dimensions", "why_tests_cant": "Every cause of failure in every state of the object must leave nothing behind; tests only check that an exception is raised.", "anchors": ["sofar/sofa.py:Sofa._add_entry", "sofar/sofa.py:Sofa._add_custom_api_entry"]}
{"id": "C09", "title": "Deleting removes exactly one entry", "statement": "A successful deletion removes exactly the named entry, forgets it as a custom entry, and keeps all other data and the order of the remaining data; on a protected object it succeeds if and only if the entry exists, is known to the convention or custom data, and is not mandatory.", "quantifier": "every object and name", "why_tests_cant": "Ranges over all objects and names, including custom and read-only data; tests delete one attribute of one convention.", "anchors": ["sofar/sofa.py:Sofa.__delattr__", "sofar/sofa.py:Sofa.delete"]}
{"id": "C10", "title": "Protection is always re-armed", "statement": "Every call of add_variable, add_attribute, add_missing or upgrade to a new convention that returns normally leaves the object protected, also if the user had switched off the protection.", "quantifier": "every object and arguments", "why_tests_cant": "Every branch that switches the protection off must switch it on again, in all states; a forgotten branch shows up only in later assignments.", "anchors": ["sofar/sofa.py:Sofa._add_custom_api_entry", "sofar/sofa.py:Sofa.add_missing", "sofar/sofa.py:Sofa.upgrade_convention", "sofar/sofa.py:Sofa.protected"]}
{"id": "C11", "title": "verify accepts exactly the valid objects", "statement": "verify() with issue_handling='raise' returns normally if and only if the object satisfies the declarative validity conditions: known convention and version, all mandatory data contained, all data known and of the declared type, names follow the naming rules, every variable matches one of its declared shapes, all value, general and specific dependency rules hold, units are lower case (mode='write') and the convention is not deprecated (mode='write').", "quantifier": "every object, every convention data base, rule set and mode", "why_tests_cant": "Soundness and completeness over all objects, all conventions and all rule files; tests break one rule at a time in the shipped conventions.", "anchors": ["sofar/sofa.py:Sofa.verify", "sofar/sofa.py:Sofa._verify_value", "sofar/sofa.py:Sofa._verify_handle_issues"]}
{"id": "C12", "title": "verify never changes data", "statement": "verify never changes or removes the value of an attribute contained in the object, for any mode and issue handling and any outcome including exceptions; with issue_handling='raise' it adds nothing, otherwise it adds nothing but missing mandatory data.", "quantifier": "every object, mode, issue handling and outcome", "why_tests_cant": "A frame condition over all attributes and all exits of verify; tests do not compare the whole object before and after failing checks.", "anchors": ["sofar/sofa.py:Sofa.verify"]}
{"id": "C13", "title": "Issue handling modes agree", "statement": "For the same object with complete mandatory data, 'raise' raises ValueError with message m if and only if 'return' returns m up to appended warnings, and 'print' prints it; 'return' returns None if and only if no issue was detected; 'return' and 'ignore' never print or warn.", "quantifier": "every object and mode", "why_tests_cant": "Relates several executions on the same object for all combinations of errors and warnings; tests check each mode on selected errors.", "anchors": ["sofar/sofa.py:Sofa.verify", "sofar/sofa.py:Sofa._verify_handle_issues"]}
{"id": "C14", "title": "verify is idempotent", "statement": "Calling verify again with the same arguments directly after verify gives the same result (apart from data already added) and leaves the object unchanged.", "quantifier": "every object, mode and issue handling", "why_tests_cant": "Needs that nothing stored by the first call influences the second one, for every object with any mixture of defects.", "anchors": ["sofar/sofa.py:Sofa.verify", "sofar/sofa.py:Sofa._reset_convention"]}
{"id": "C15", "title": "Valid for writing implies valid for reading", "statement": "If verify(mode='write') does not raise then verify(mode='read') does not raise on the same object.", "quantifier": "every object", "why_tests_cant": "An implication between two sets of checks over all objects and rule sets; a test shows single objects on which both agree.", "anchors": ["sofar/sofa.py:Sofa.verify"]}
{"id": "C16", "title": "Dimensions are consistent after verification", "statement": "After a successful verify, every variable has a dimension string from its declared alternatives such that its shape, brought to that length by dropping or appending trailing dimensions, is given by the sizes of the dimensions; hence two variables sharing a dimension agree on its size. C is always 3 and I always 1.", "quantifier": "every object on which verify succeeds, every pair of variables", "why_tests_cant": "Ranges over all pairs of variables, conventions and alternatives of dimensions; tests use the default shapes.", "anchors": ["sofar/sofa.py:Sofa.verify", "sofar/utils.py:_atleast_nd", "sofar/utils.py:_nd_newaxis"]}
{"id": "C17", "title": "get_dimension is never stale", "statement": "If get_dimension(d) returns a value, it is the size of d determined from the data contained in the object at the time of the call, irrespective of what was cached before.", "quantifier": "every object (any cached dimensions) and dimension", "why_tests_cant": "Needs every way in which cached dimensions can be out of date, i.e. all edit histories.", "anchors": ["sofar/sofa.py:Sofa.get_dimension", "sofar/sofa.py:Sofa._update_dimensions", "sofar/sofa.py:Sofa.verify"]}
{"id": "C18", "title": "S is the length of the longest string", "statement": "After a successful verify, get_dimension('S') is an upper bound for the length of all strings in string variables and is attained if there is one.", "quantifier": "every object", "why_tests_cant": "Ranges over all sets of string variables of any length and shape, including empty strings; tests use one variable.", "anchors": ["sofar/sofa.py:Sofa.verify", "sofar/sofa.py:Sofa._get_size_and_shape_of_string_var"]}
{"id": "C19", "title": "Verified arrays have no undeclared axes", "statement": "An array accepted by verify has no non-singleton axis in addition to the declared dimensions.", "quantifier": "every array shape", "why_tests_cant": "Ranges over all shapes and ranks including leading or trailing axes of length one.", "anchors": ["sofar/sofa.py:Sofa.verify"]}
{"id": "C20", "title": "Unit strings", "statement": "A unit string is accepted if and only if it equals the reference up to case, or it has as many units as the reference and each unit is (up to case) an alias of the reference unit, where units are separated by comma, comma and space, or space as stated in the code and HISTORY.", "quantifier": "every unit string, alias table and reference", "why_tests_cant": "Ranges over all strings, separators, orders and aliases; tests use a few spellings.", "anchors": ["sofar/sofa.py:Sofa._verify_value", "sofar/sofa.py:Sofa._verify_unit"]}
{"id": "C21", "title": "Restricted values", "statement": "A restricted value is accepted if and only if it is one of the allowed values, where case is ignored except for GLOBAL_DataType and GLOBAL_SOFAConventions (and unit aliases count for Units).", "quantifier": "every value, key and rule", "why_tests_cant": "Ranges over all strings and all rules, including strings that contain an allowed value.", "anchors": ["sofar/sofa.py:Sofa._verify_value"]}
{"id": "C22", "title": "String variables of numpy type U and S are accepted", "statement": "verify accepts string variables given as str or as numpy arrays of type 'U' or 'S' as documented in add_variable.", "quantifier": "every string array", "why_tests_cant": "Ranges over all shapes and all string types; tests use one-dimensional arrays of a single type.", "anchors": ["sofar/sofa.py:Sofa.verify", "sofar/sofa.py:Sofa.add_variable"]}
{"id": "C23", "title": "Deprecated and preliminary conventions are reported", "statement": "Verifying an object of a deprecated convention raises in mode 'write' and warns in mode 'read'; an object with convention version below 1.0 always causes a warning, whenever the verification gets to that point without raising.", "quantifier": "every object and rule set", "why_tests_cant": "The report depends on convention, version and mode together for any rule set; tests use the conventions deprecated today.", "anchors": ["sofar/sofa.py:Sofa.verify"]}
{"id": "C24", "title": "Creating an object gives the convention's content", "statement": "Sofa(convention, version) contains exactly the entries of that convention (only the mandatory ones if mandatory=True) plus the six creation entries (date, API and application), each with the default value of the convention, except those six; read-only entries are exactly those flagged 'r'.", "quantifier": "every convention file and arguments", "why_tests_cant": "Must hold for any convention file that may be added later, not only for the files shipped today.", "anchors": ["sofar/sofa.py:Sofa.__init__", "sofar/sofa.py:Sofa._convention_to_sofa"]}
{"id": "C25", "title": "Version selection", "statement": "Sofa(convention, version) loads the file of exactly this convention and version and raises ValueError if there is none; 'latest' loads a version that no other available version exceeds.", "quantifier": "every set of convention files", "why_tests_cant": "Depends on all possible sets of files and version strings, including names that are prefixes of other names.", "anchors": ["sofar/sofa.py:Sofa._load_convention", "sofar/utils.py:_get_conventions", "sofar/utils.py:_verify_convention_and_version"]}
{"id": "C26", "title": "'latest' is the newest version", "statement": "The version selected by 'latest' is the newest in the version ordering that write_sofa uses to warn about outdated data.", "quantifier": "every set of version strings", "why_tests_cant": "Depends on the form of version numbers never seen in the current data.", "anchors": ["sofar/sofa.py:Sofa._load_convention", "sofar/io.py:_write_sofa"]}
{"id": "C27", "title": "add_missing completes and preserves", "statement": "After add_missing the object contains all mandatory (optional) entries of its convention if requested, entries contained before keep their value, added entries have the default value of the convention and nothing else is added; a second call adds nothing.", "quantifier": "every object and flags", "why_tests_cant": "Ranges over all objects with any part of their data missing, and all flags and conventions; tests remove one or two entries.", "anchors": ["sofar/sofa.py:Sofa.add_missing"]}
{"id": "C28", "title": "add_missing restores the values of a new object", "statement": "A missing entry added by add_missing has the same value as in a newly created object of that convention.", "quantifier": "every convention entry", "why_tests_cant": "Two separate code paths create default values; they must agree for every default and every declared dimension.", "anchors": ["sofar/sofa.py:Sofa.add_missing", "sofar/sofa.py:Sofa._convention_to_sofa"]}
{"id": "C29", "title": "Keys are free of NetCDF delimiters", "statement": "No name in a loaded convention contains ':' or '.', and if the names in the file do not collide after replacing these by '_' no entry is lost.", "quantifier": "every convention file", "why_tests_cant": "Must hold for convention files that do not exist yet, with any mixture of ':' and '.'.", "anchors": ["sofar/sofa.py:Sofa._load_convention"]}
{"id": "C30", "title": "Failed verification leaves the disk untouched", "statement": "If the object does not pass verification, write_sofa raises before touching the disk: no file is created, changed or truncated.", "quantifier": "every object and file system state", "why_tests_cant": "Every failing check must come before the first write for all objects and all file systems; tests check few failing objects.", "anchors": ["sofar/io.py:write_sofa", "sofar/io.py:_write_sofa"]}
{"id": "C31", "title": "write_sofa is all or nothing", "statement": "If write_sofa raises, a file that existed under the given name keeps its content.", "quantifier": "every object and file system state", "why_tests_cant": "Every point at which writing can fail must be considered, for all objects; tests can hardly provoke failures in the middle of writing.", "anchors": ["sofar/io.py:_write_sofa"]}
{"id": "C32", "title": "Write-read round trip keeps all data", "statement": "If write_sofa succeeds, reading the file gives an object with the same attributes and variables: the same strings, the same numbers as float64 in the same order and with the same shape up to singleton dimensions.", "quantifier": "every object that write_sofa accepts", "why_tests_cant": "Sizes, shapes, lengths of strings, custom data and types are unbounded and interact through shared dimensions; tests write default objects.", "anchors": ["sofar/io.py:write_sofa", "sofar/io.py:read_sofa", "sofar/io.py:_format_value_for_netcdf", "sofar/io.py:_format_value_from_netcdf"]}
{"id": "C33", "title": "Round trip is confirmed by equals", "statement": "If write_sofa succeeds, equals(sofa, read_sofa(file)) is True.", "quantifier": "every object that write_sofa accepts", "why_tests_cant": "Combines writing, reading and comparing for all objects; tests compare selected ones.", "anchors": ["sofar/io.py", "sofar/utils.py:equals"]}
{"id": "C34", "title": "Reading returns exactly the content of the file", "statement": "read_sofa returns an object containing exactly one entry per global attribute, variable and variable attribute of the file (except _Encoding), with the value from the file and never a default value of the convention.", "quantifier": "every file of a known convention with distinct names", "why_tests_cant": "Files come from other programs with any data types, orders and extra data; tests only read files written by sofar.", "anchors": ["sofar/io.py:_read_netcdf"]}
{"id": "C35", "title": "read_sofa_as_netcdf reads any file", "statement": "read_sofa_as_netcdf returns exactly the entries of any readable file with distinct names without knowing its convention, and read_sofa and read_sofa_as_netcdf agree on the data.", "quantifier": "every file", "why_tests_cant": "Files may contain anything NetCDF allows; tests read a few of them.", "anchors": ["sofar/io.py:read_sofa_as_netcdf", "sofar/io.py:_read_netcdf"]}
{"id": "C36", "title": "Reading ends protected or raises ValueError", "statement": "An object returned by the read functions is protected; read_sofa with verification either returns an object that passes verify(mode='read') or raises.", "quantifier": "every file", "why_tests_cant": "All failures while reading arbitrary files must be turned into a ValueError or leave a protected object.", "anchors": ["sofar/io.py:_read_netcdf"]}
{"id": "C37", "title": "File names", "statement": "Writing and reading with the same name address the same file, the name always ends with '.sofa', a name that already ends with '.sofa' is unchanged, and for other names '.sofa' is appended so that different names address different files. Repeated slashes and single dots in a path make no difference.", "quantifier": "every file name", "why_tests_cant": "Ranges over all strings as file names: several dots, directories with dots, no suffix, hidden files.", "anchors": ["sofar/io.py:_write_sofa", "sofar/io.py:_read_netcdf"]}
{"id": "C38", "title": "String variables survive fixed width storage", "statement": "Strings not longer than S written to and read from the character array are unchanged.", "quantifier": "every string array and S", "why_tests_cant": "Ranges over all texts and widths, including NUL characters and empty texts.", "anchors": ["sofar/io.py:_format_value_for_netcdf", "sofar/io.py:_format_value_from_netcdf"]}
{"id": "C39", "title": "Dimensions in the file", "statement": "A file written by write_sofa contains for every variable an array whose extents are the sizes of the dimensions it is declared with, and these are the sizes get_dimension reports for the object.", "quantifier": "every object that write_sofa accepts", "why_tests_cant": "Which variable fixes which dimension depends on all shapes and alternatives at once.", "anchors": ["sofar/io.py:_write_sofa"]}
{"id": "C40", "title": "Shape after reading", "statement": "Reading discards trailing singleton dimensions: an array of shape (1,2) stored as (1,2,1) is read as (1,2) (notes of read_sofa and Sofa).", "quantifier": "every array", "why_tests_cant": "Ranges over all shapes including singletons at any place and empty arrays.", "anchors": ["sofar/io.py:read_sofa", "sofar/io.py:_format_value_from_netcdf"]}
{"id": "C41", "title": "SofaStream agrees with read_sofa", "statement": "For every name contained in the object returned by read_sofa, SofaStream gives access to the same data under the same name, and raises AttributeError for every other name.", "quantifier": "every file and name", "why_tests_cant": "Two separate implementations must agree on every name, in particular on names that collide with methods or contain underscores.", "anchors": ["sofar/sofastream.py:SofaStream.__getattr__"]}
{"id": "C42", "title": "SofaStream.get_dimension agrees with Sofa.get_dimension", "statement": "For a file written by write_sofa, SofaStream.get_dimension(d) gives the same result as get_dimension(d) on the written object, for all dimension names, and raises ValueError for unknown ones.", "quantifier": "every object and dimension", "why_tests_cant": "Two separate implementations must agree for all objects and dimensions.", "anchors": ["sofar/sofastream.py:SofaStream.get_dimension"]}
{"id": "C43", "title": "equals is reflexive and ignores order", "statement": "equals(a, a) is True for every verified object, for every exclude option, and the result does not depend on the order in which attributes were added.", "quantifier": "every object", "why_tests_cant": "Must hold for all values including NaN, infinities, empty arrays and any order of entries.", "anchors": ["sofar/utils.py:equals"]}
{"id": "C44", "title": "equals is symmetric", "statement": "equals(a, b) = equals(b, a).", "quantifier": "every pair of objects", "why_tests_cant": "Needs boundary values of the relative tolerance.", "anchors": ["sofar/utils.py:equals"]}
{"id": "C45", "title": "equals True means same content", "statement": "If equals(a, b) is True both objects contain the same names with the same types, identical attributes, the same strings and numbers within the relative tolerance 1e-7 at each position of arrays of the same squeezed shape.", "quantifier": "every pair of objects", "why_tests_cant": "Ranges over all pairs of objects; broadcasting and squeezing may hide differences that no chosen pair shows.", "anchors": ["sofar/utils.py:equals"]}
{"id": "C46", "title": "Excluding data only makes objects more equal", "statement": "If equals(a, b) is True then equals(a, b, exclude=x) is True for x in GLOBAL, DATE, ATTR, and differences confined to excluded entries are ignored.", "quantifier": "every pair of objects", "why_tests_cant": "A monotonicity property that relates several calls on all pairs of objects.", "anchors": ["sofar/utils.py:equals"]}
{"id": "C47", "title": "Asking for upgrades is harmless", "statement": "upgrade_convention without target, with an invalid target, or for up to date data changes no data and returns the available targets (an empty list if up to date).", "quantifier": "every object and rule set", "why_tests_cant": "Must hold for all rule sets and objects, also ones that cannot be upgraded; tests look at the answer, not at what remains unchanged.", "anchors": ["sofar/sofa.py:Sofa.upgrade_convention"]}
{"id": "C48", "title": "Upgrading moves data without loss", "statement": "A successful upgrade sets the convention, version, SOFA version and data type to the target's values, moves each source to its target with axes permuted as specified, removes exactly the entries to be removed, adds missing mandatory entries and leaves all other data unchanged; the object contains all mandatory data afterwards.", "quantifier": "every object and upgrade rule", "why_tests_cant": "Ranges over all objects and all rules including moves onto existing data; tests compare a few shipped files.", "anchors": ["sofar/sofa.py:Sofa.upgrade_convention"]}
{"id": "C49", "title": "Moving axes permutes elements", "statement": "Moving axes keeps every element: the element at an index of the result is the element of the source at the correspondingly permuted index.", "quantifier": "every array, rank and pair of axes", "why_tests_cant": "Ranges over all ranks, shapes and pairs of source and destination axes.", "anchors": ["sofar/sofa.py:Sofa.upgrade_convention"]}
{"id": "C50", "title": "A failed upgrade does not leave a half upgraded object", "statement": "If upgrade_convention raises, the data are as before.", "quantifier": "every object and upgrade rule", "why_tests_cant": "Every point of failure in every rule must be considered; tests only run upgrades that succeed.", "anchors": ["sofar/sofa.py:Sofa.upgrade_convention"]}
{"id": "C51", "title": "Declining an update changes nothing", "statement": "If the user does not confirm with 'y', update_conventions leaves all convention files as they are.", "quantifier": "every server content and directory state", "why_tests_cant": "The function talks to a live server; all combinations of server and directory contents must be covered.", "anchors": ["sofar/update_conventions.py:update_conventions"]}
{"id": "C52", "title": "Updating is idempotent", "statement": "After an accepted update, running update_conventions again with the same server content reports that everything is up to date and changes nothing.", "quantifier": "every server content and directory state", "why_tests_cant": "Two consecutive updates with any byte content, including both kinds of line ends, cannot be run against the live server in tests.", "anchors": ["sofar/update_conventions.py:update_conventions"]}
{"id": "C53", "title": "Updating mirrors the server", "statement": "After an accepted update, each convention offered by the server (except the excluded ones) is present in the directory according to its status with the server's (cleaned) content, deprecated conventions are no longer listed as standardized, and conventions unknown to the server are untouched.", "quantifier": "every server content and directory state", "why_tests_cant": "The function talks to a live server; tests cannot vary its content and the content of the local directory.", "anchors": ["sofar/update_conventions.py:update_conventions"]}
{"id": "C54", "title": "Compiling conventions keeps all entries and orders them", "statement": "Compiling a csv convention keeps one entry per name; global entries come first, Data entries last, and the order is otherwise kept.", "quantifier": "every csv file", "why_tests_cant": "Must hold for any csv file offered by the server in future, with any number and order of rows.", "anchors": ["sofar/update_conventions.py:_convention_csv2dict"]}
{"id": "C55", "title": "Parsing default values", "statement": "A bracketed default '[a b; c d]' with numbers separated by single spaces or commas is parsed to the nested list of these numbers; a flat one to the flat list.", "quantifier": "every list of rows of integers", "why_tests_cant": "Ranges over all lists of rows of any size and all numbers; tests see the defaults used today.", "anchors": ["sofar/update_conventions.py:_convention_csv2dict"]}
{"id": "C56", "title": "inspect works on every object", "statement": "inspect lists every attribute of the object exactly once, also for objects that violate the convention (HISTORY 0.3.1).", "quantifier": "every object", "why_tests_cant": "Objects may violate the convention in any way and may contain arrays of any shape and type; tests inspect valid objects.", "anchors": ["sofar/sofa.py:Sofa.inspect"]}
{"id": "C57", "title": "info partitions the entries", "statement": "Every entry is listed by info('all'), and by exactly one of info('mandatory') and info('optional').", "quantifier": "every object", "why_tests_cant": "Ranges over all entries with any flags, including custom ones, in any object.", "anchors": ["sofar/sofa.py:Sofa.info"]}
{"id": "C58", "title": "copies are independent", "statement": "Changing a copy, by assignment or in place, never changes the original and vice versa.", "quantifier": "every object and sequence of changes", "why_tests_cant": "Ranges over all aliasing patterns between arrays and all later changes, including changes of arrays in place.", "anchors": ["sofar/sofa.py:Sofa.copy"]}
{"id": "C61", "title": "Listed conventions can be created", "statement": "list_conventions prints one line for each available convention and version; exactly for these pairs a Sofa object can be created.", "quantifier": "every set of convention files", "why_tests_cant": "All sets of convention files and all names and versions; tests only see the shipped set.", "anchors": ["sofar/utils.py:list_conventions", "sofar/utils.py:_get_conventions"]}
{"id": "C64", "title": "list_dimensions agrees with get_dimension", "statement": "list_dimensions of a valid object prints exactly one line for each dimension of its convention, showing the size that get_dimension returns.", "quantifier": "every valid object", "why_tests_cant": "All conventions (including ones with other data types) and all shapes.", "anchors": ["sofar/sofa.py:Sofa.list_dimensions", "sofar/sofa.py:Sofa.get_dimension"]}
{"id": "C62", "title": "Inspecting an opened file lists its content", "statement": "SofaStream.inspect lists every global attribute, every variable and every attribute of a variable of an opened file exactly once; for a file written from an object these are exactly the data of the object, and list_dimensions of the stream shows the sizes that get_dimension of the object returns.", "quantifier": "every SOFA file", "why_tests_cant": "All file contents (any attribute types, ranks, conventions) and every object that can be written.", "anchors": ["sofar/sofastream.py:SofaStream.inspect", "sofar/sofastream.py:SofaStream.list_dimensions"]}
{"id": "C65", "title": "verify never fails with an unrelated error", "statement": "For every content of an object verify either accepts it or raises a ValueError that describes the problems; with issue_handling 'print' or 'return' it never raises.", "quantifier": "every object content, both modes", "why_tests_cant": "All combinations of types, shapes, names, units, custom entries and edit histories; a test checks single defects.", "anchors": ["sofar/sofa.py:Sofa.verify"]}
{"id": "C66", "title": "Objects read from files can be written again", "statement": "An object that is read with read_sofa from a file written by write_sofa can be written to any writable file and read from there; the data are the same as before for the object read first and for the object written first, and equals confirms it.", "quantifier": "every object that can be written, both files, all values of the arguments verify and verbose", "why_tests_cant": "Repeated conversion changes shapes, types and custom declarations depending on the content; tests do one round trip with default objects.", "anchors": ["sofar/io.py:write_sofa", "sofar/io.py:read_sofa", "sofar/sofa.py:Sofa.verify"]}
{"id": "C59", "title": "A deleted custom entry leaves no trace", "statement": "Adding a variable or attribute and deleting it again gives an object that behaves like the one before: the data are the same, and verify, add_missing, get_dimension, list_dimensions, inspect and write_sofa do and show the same; the entry can be added again.", "quantifier": "every object, entry name, value, data type and dimensions, and every later call", "why_tests_cant": "Leftovers of a deleted entry only show up in later calls whose outcome depends on the whole edit history; tests delete an entry and only check that it is gone.", "anchors": ["sofar/sofa.py:Sofa.add_variable", "sofar/sofa.py:Sofa.add_attribute", "sofar/sofa.py:Sofa.__delattr__", "sofar/sofa.py:Sofa.verify"]}
{"id": "C63", "title": "The congruency report is complete and true", "statement": "_check_congruency reports exactly the conventions that are missing on one of the two platforms and those whose files differ apart from line ends; the differing files are saved if a directory is given, and nothing is printed if the platforms agree.", "quantifier": "every pair of listings and every file content", "why_tests_cant": "All orders and contents of the two listings; the function works on live servers, so tests only see the current state of them.", "anchors": ["sofar/update_conventions.py:_check_congruency"]}
{"id": "C60", "title": "Read-only data stay protected after reading and upgrading", "statement": "In an object returned by read_sofa or after a successful upgrade_convention every entry that is read-only in the convention of the object can not be assigned (TypeError, the object stays as it is); mandatory read-only data of an object read from a file keep the value of the file whatever is done with the object while it is protected.", "quantifier": "every file, every convention, every upgrade, every sequence of operations", "why_tests_cant": "The protection depends on the origin and the history of the object; tests check new objects.", "anchors": ["sofar/io.py:read_sofa", "sofar/sofa.py:Sofa.upgrade_convention", "sofar/sofa.py:Sofa.__setattr__"]}
{"id": "C67", "title": "Writing outdated data is reported", "statement": "write_sofa warns that the data are outdated, once and naming the version, if a newer version of the convention of the object is available, and does not warn otherwise.", "quantifier": "every object that can be written and every set of convention files", "why_tests_cant": "The warning depends on all versions that are installed and on how their numbers compare; tests only see the shipped versions.", "anchors": ["sofar/io.py:write_sofa", "sofar/io.py:_write_sofa"]}
{"id": "C68", "title": "Reading reports foreign and missing data", "statement": "read_sofa prints the names of all data of the file that are not part of its convention, in the order of the file, and only if there are any and verbose is set; exactly these become custom data of the object. It warns once for each variable with missing data.", "quantifier": "every file of a known convention, all values of verify and verbose", "why_tests_cant": "Ranges over all contents of files from other programs with any mixture of known and unknown names; tests read a file with one custom entry.", "anchors": ["sofar/io.py:read_sofa", "sofar/io.py:_format_value_from_netcdf"]}
{"id": "C69", "title": "equals tells what differs", "statement": "If equals returns False and verbose is set, it warns: once if the names differ, otherwise once for each entry that differs, in the order of the data, and the warning names the entry. The result does not depend on verbose; without verbose and for identical objects nothing is said.", "quantifier": "every pair of objects and every value of exclude", "why_tests_cant": "Relates the warnings to all differences between arbitrary objects; tests change one entry and check the return value.", "anchors": ["sofar/utils.py:equals"]}
{"id": "C70", "title": "add_missing tells what it did", "statement": "add_missing prints one line for each entry it adds, in the order in which they are added, telling whether it is mandatory or optional; if it prints that all mandatory data are contained, they are. Without verbose nothing is printed.", "quantifier": "every object and all values of the arguments", "why_tests_cant": "The text has to match the change for all objects with any part of their data missing and all flags; tests do not read the printed text.", "anchors": ["sofar/sofa.py:Sofa.add_missing"]}
{"id": "C71", "title": "The order of the data does not matter", "statement": "Two objects with the same data and the same custom entries are both accepted or both rejected by verify(), and get_dimension gives the same sizes for them, whatever the order in which the data were added.", "quantifier": "all conventions, rules, objects, permutations of the data, both modes", "why_tests_cant": "a test tries a few orders of a few entries; acceptance has to be compared for all permutations of all objects, and the size of a dimension is taken from the last variable that states it", "anchors": ["sofar/sofa.py:Sofa.verify", "sofar/sofa.py:Sofa.get_dimension", "sofar/sofa.py:Sofa.add_variable"]}
{"id": "C72", "title": "Acceptance depends on shapes and texts, not on numbers", "statement": "Two objects with the same names, texts, shapes and custom entries that differ only in their numbers (integers or floats) are both accepted or both rejected by verify(), and have the same dimensions if accepted. Assigning other numbers of the same shape does not change the verdict. Axes of length one at the end, and an array of ones in shape instead of a single number, do not matter either.", "quantifier": "all conventions, rules, objects, numbers, both modes", "why_tests_cant": "a test tries a few numbers; that no number changes the verdict is a claim about all pairs of objects of equal outline", "anchors": ["sofar/sofa.py:Sofa.verify", "sofar/sofa.py:Sofa.get_dimension"]}
{"id": "C73", "title": "A file holds what was written last", "statement": "After any sequence of write_sofa calls, some of which may be rejected, reading a file gives what the last accepted call for that path wrote, independent of earlier content; files that were not written, or only by rejected calls, are read as before. This holds for read_sofa, read_sofa_as_netcdf and SofaStream.", "quantifier": "all sequences of calls, objects, paths, file systems", "why_tests_cant": "a test writes a few files in one order; the claim concerns all interleavings, names with and without extension, and rejected calls in between", "anchors": ["sofar/io.py:write_sofa", "sofar/io.py:read_sofa", "sofar/io.py:read_sofa_as_netcdf", "sofar/sofastream.py:SofaStream"]}
{"id": "C74", "title": "Looking at an object does not change its data", "statement": "Any sequence of verify, get_dimension, list_dimensions, inspect, info, upgrade_convention() without target and write_sofa keeps all data of an object; only missing mandatory data can be added, with their default. Nothing at all is added to an object that is complete.", "quantifier": "all conventions, objects, sequences of calls with all arguments, returning or raising", "why_tests_cant": "every test looks at one call; that no sequence of queries in no state alters data needs all sequences", "anchors": ["sofar/sofa.py:Sofa.verify", "sofar/sofa.py:Sofa.get_dimension", "sofar/sofa.py:Sofa.list_dimensions", "sofar/sofa.py:Sofa.inspect", "sofar/sofa.py:Sofa.info", "sofar/sofa.py:Sofa.upgrade_convention", "sofar/io.py:write_sofa"]}
{"id": "C75", "title": "All objects and files of a program are well-formed", "statement": "Whatever a program does with sofar - creating, reading, copying, changing, verifying, upgrading and writing objects in any order, with calls that return or raise - every object it holds contains each name once, holds only texts, numbers and rectangular arrays with as many elements as their shape says, and has no private names among its data; every file on the disk stays well-formed. Hence for every object of a program verify() decides validity, and a successful upgrade yields what the upgrade rules say.", "quantifier": "all programs (sequences of calls of any length), all inputs, environments and disks, including calls that raise half way", "why_tests_cant": "a test runs a few sequences; invariants over all reachable objects, including those left behind by failing calls, need induction over executions", "anchors": ["sofar/sofa.py:Sofa", "sofar/io.py:read_sofa", "sofar/io.py:write_sofa", "sofar/sofa.py:Sofa.upgrade_convention", "sofar/sofa.py:Sofa.copy"]}
{"id": "C76", "title": "Streams show data exactly inside their with blocks and leave no open files", "statement": "In any program that uses SofaStream objects in with blocks, every access answers from the file under the name of the stream. Inside its block a stream answers from that file until the block ends; before entering and after leaving every access raises. When the program ends, by returning or raising, every file it opened is closed.", "quantifier": "all programs built from creating streams, with blocks, accesses, raising and catching exceptions; all disks", "why_tests_cant": "a test leaves a few blocks normally; exceptions at every point, several nested streams and repeated use are infinitely many executions", "anchors": ["sofar/sofastream.py:SofaStream.__init__", "sofar/sofastream.py:SofaStream.__enter__", "sofar/sofastream.py:SofaStream.__exit__", "sofar/sofastream.py:SofaStream.__getattr__"]}
{"id": "C77", "title": "Failed requests change no conventions", "statement": "If any request of update_conventions() to the server is not answered or answered with an error (HTTP status 400 or above), or if the confirmation cannot be read, no csv or json file is changed and the failure is raised. If all requests are answered, exactly the two pages and every listed convention (except General and GeneralString) are requested, and the update is the one for what the server delivered.", "quantifier": "all servers, also if they change their answers between requests, all pages, directories and points of failure", "why_tests_cant": "tests run against one working server; failures at the n-th of any number of requests and error pages cannot be enumerated", "anchors": ["sofar/update_conventions.py:update_conventions"]}
{"id": "C78", "title": "Sofa objects are independent of each other", "statement": "Whatever a program does with any number of Sofa objects (create, read, copy, assign, delete, take data out, slice, change arrays and lists in place), an operation changes the content of one object at most, namely the one it is applied to or whose array it writes to; data that were assigned as lists and the data of new objects and copies can only be changed by assigning to or deleting from the object.", "quantifier": "all programs, numbers of objects, shared arrays, views and nested lists", "why_tests_cant": "sharing shows only after later changes of any of the participants; tests look at single objects after single assignments", "anchors": ["sofar/sofa.py:Sofa.__setattr__", "sofar/sofa.py:Sofa.__delattr__", "sofar/sofa.py:Sofa.copy"]}
{"id": "C79", "title": "verify's report names exactly the problems of the object", "statement": "The text that verify raises, prints or returns has one section per kind of problem, in a fixed order and absent if there is no such problem, and a section has a line for every problem of its kind and no others: missing mandatory data and data of wrong type first (nothing else is reported then), otherwise attributes without variable, attributes without underscore, variables with underscores, reserved names, custom data with names of the convention, variables of wrong shape with their shape and the allowed ones, values that are not allowed, missing or wrong dependencies, sizes that are not allowed, upper case units and deprecations. The text is the same for all issue handlings.", "quantifier": "all objects, conventions, rules, modes and issue handlings for which verify does not stop with an exception of its own", "why_tests_cant": "a report may leave out problems when several occur together, or blame data that are fine; tests check single messages for single defects", "anchors": ["sofar/sofa.py:Sofa.verify", "sofar/sofa.py:Sofa._verify_handle_issues"]}
{"id": "C80", "title": "Reading a file and writing it again reproduces the file", "statement": "After an object was written, reading the file and writing the object that was read gives a file with the same dimensions and sizes, the same attributes and the same variables with the same dimensions, elements and attributes; this holds for any number of repetitions.", "quantifier": "all objects, conventions, files, file names, ways of reading (verify, verbose) and numbers of repetitions", "why_tests_cant": "an archive that is processed again and again may drift: another alternative of the dimensions may be chosen for arrays whose shape changed on reading, sizes may grow or shrink; tests do a single round trip and compare objects, not files", "anchors": ["sofar/io.py:write_sofa", "sofar/io.py:read_sofa", "sofar/io.py:_format_value_for_netcdf", "sofar/sofa.py:Sofa.verify"]}
{"id": "C81", "title": "update_conventions announces exactly what it changes", "statement": "Before asking for confirmation update_conventions prints one line for every convention of the server that has to be added, updated or deprecated and no other line; 'already up to date' is printed if and only if there is none. Only files of announced conventions change, also if the update fails half-way; an accepted update that completes gives every announced convention the text of the server.", "quantifier": "all servers, directories, answers of the user and results (also failing updates)", "why_tests_cant": "the user decides on the basis of the printed lines; the interactive branch is not tested at all ('these lines were only tested manually') and the tests look at two hand-made directories", "anchors": ["sofar/update_conventions.py:update_conventions"]}
{"id": "C82", "title": "Compiling a csv file gives the entries of its rows", "statement": "For every csv file whose lines are written as name, default, flags, dimensions, type and comment, with any line ends, blanks around the cells and numbers, lists, tables or texts as defaults, the compiled convention has exactly one entry per row with the name, default value, flags, dimensions, type and comment of that row; version numbers become texts; global attributes come first and data last.", "quantifier": "all csv files, all numbers of rows, lists and tables of any size, all environments for the conversion of floating point numbers", "why_tests_cant": "the tests compile the distributed files only and compare against nothing but the absence of errors", "anchors": ["sofar/update_conventions.py:_convention_csv2dict", "sofar/update_conventions.py:_compile_conventions"]}
{"id": "C83", "title": "An object has the data of the rows of its csv file", "statement": "If the csv file of a convention is compiled and Sofa(convention) is called afterwards, the object holds for every row of the csv file (with mandatory=True for every mandatory row) the default value written in that row under the python name of the row, and no other data besides the six entries written at creation; the object can be created.", "quantifier": "all directories, csv files in the main or in the deprecated directory, all rows, both values of mandatory, all environments", "why_tests_cant": "the chain from the text file to the object is never tested as a whole, only its ends against the distributed files", "anchors": ["sofar/update_conventions.py:_compile_conventions", "sofar/sofa.py:Sofa.__init__", "sofar/sofa.py:Sofa._load_convention", "sofar/utils.py:_get_conventions"]}
{"id": "C84", "title": "Missing data stay missing, and nothing else goes missing", "statement": "If an object with missing elements in its numerical variables (masked arrays, as they are obtained by reading a file with gaps) is written, exactly the missing elements hold the number that marks missing data in the file, and after reading the file exactly the same elements are missing.", "quantifier": "all objects that can be stored, all variables and positions, both functions for reading, all files and directories", "why_tests_cant": "no test writes or reads missing data; files with gaps come from other programs", "anchors": ["sofar/io.py:write_sofa", "sofar/io.py:_format_value_for_netcdf", "sofar/io.py:_format_value_from_netcdf", "sofar/io.py:read_sofa", "sofar/io.py:read_sofa_as_netcdf"]}
{"id": "C85", "title": "A misspelled issue_handling or mode does not hide issues", "statement": "If verify is called with a text for issue_handling that is not one of raise, print, return and ignore, or with a mode that is neither read nor write, issues of an invalid object are nevertheless told to the caller (by an error, by printing, or by returning the report).", "quantifier": "all texts passed for issue_handling and mode, all objects, all conventions", "why_tests_cant": "the texts are not validated; no test passes an unknown text and there are infinitely many", "anchors": ["sofar/sofa.py:verify", "sofar/sofa.py:_verify_handle_issues"]}
{"id": "C86", "title": "Adding a correct entry keeps a valid object valid", "statement": "If verify accepts an object and a variable or an attribute is added with add_variable, add_attribute or add_missing, then verify accepts the result exactly if the added entry itself is correct: its type, its name, its shape in the sizes the object has, the rules for it, and the spelling of its units.", "quantifier": "all valid objects, all conventions, all names, values, types and dimensions of the added entry", "why_tests_cant": "the verification of an object looks at all entries together; which additions break an object depends on every other entry and tests add a handful of variables", "anchors": ["sofar/sofa.py:add_variable", "sofar/sofa.py:add_attribute", "sofar/sofa.py:_add_entry", "sofar/sofa.py:verify"]}
{"id": "C87", "title": "Deleting an entry keeps a valid object valid if nothing needs it", "statement": "If verify accepts an object and an entry is deleted, verify accepts the result exactly if the entry was not mandatory, was not a custom variable that still has attributes, and is not demanded by the value of another entry.", "quantifier": "all valid objects, all conventions, all deleted entries", "why_tests_cant": "depends on all rules and all other entries of the object; tests delete single entries of single conventions", "anchors": ["sofar/sofa.py:delete", "sofar/sofa.py:__delattr__", "sofar/sofa.py:verify"]}
{"id": "C88", "title": "equals is transitive", "statement": "If a first object equals a second one and the second one equals a third one, then the first object equals the third one.", "quantifier": "all triples of objects, all data, all values of the argument exclude", "why_tests_cant": "the comparison uses a tolerance and broadcasting; the claim quantifies over all triples of objects, tests compare single pairs", "anchors": ["sofar/utils.py:equals", "sofar/utils.py:_equals_raise_warning"]}
{"id": "C89", "title": "Looking at an object does not influence what follows", "statement": "Calls of verify, get_dimension, list_dimensions, inspect, info and upgrade_convention() without target can be inserted anywhere into a program that works with an object: all other calls print and return the same, the same files are written, and the object has the same data at the end.", "quantifier": "all conventions, all new objects, all programs of method calls and calls of write_sofa, all places and numbers of inserted calls, all contents of the file system", "why_tests_cant": "verify, inspect and get_dimension write to hidden state of the object that later calls read; whether a later call is influenced depends on the whole history, tests check single calls on fresh objects", "anchors": ["sofar/sofa.py:verify", "sofar/sofa.py:inspect", "sofar/sofa.py:get_dimension", "sofar/sofa.py:_update_dimensions", "sofar/sofa.py:_reset_convention"]}
{"id": "C90", "title": "The argument verify only decides whether problems are reported", "statement": "Sofa(..., verify=...) and read_sofa(..., verify=...) give the same data for every value of verify. With verify=True the call raises exactly if the object is not valid for reading; with verify='auto' it does so exactly for versions from 1.0 on, and for other versions a warning is issued instead.", "quantifier": "all conventions, versions, files and values of the arguments", "why_tests_cant": "quantifies over all conventions and all files; tests read a few files with the default value", "anchors": ["sofar/sofa.py:__init__", "sofar/io.py:read_sofa", "sofar/io.py:_read_netcdf"]}
{"id": "C91", "title": "A saved inspection is what was shown", "statement": "Sofa.inspect(file) and SofaStream.inspect(file) write exactly what they show on the console to the file and change no other file; without a file nothing is written. The call does to the object what it does without a file. If the call fails, the file keeps its content.", "quantifier": "all objects, opened files, file names, contents of the disk and ways to handle issues", "why_tests_cant": "quantifies over all objects and over failures at any point of the call", "anchors": ["sofar/sofa.py:inspect", "sofar/sofastream.py:inspect"]}
{"id": "C92", "title": "The level of compression does not change the data", "statement": "write_sofa gives a file with the same content, the same messages and the same result for all levels of compression from 0 to 9. Other levels are rejected and the earlier file is kept.", "quantifier": "all objects, file names, contents of the disk and levels", "why_tests_cant": "quantifies over all objects and levels; tests write with the default level", "anchors": ["sofar/io.py:write_sofa", "sofar/io.py:_write_sofa"]}
{"id": "C93", "title": "verbose only decides about messages", "statement": "equals, add_missing and read_sofa give the same result and leave the same object for both values of verbose. With verbose=False equals is silent and add_missing and read_sofa give the same messages except one.", "quantifier": "all objects, conventions, files and other arguments", "why_tests_cant": "quantifies over all objects and files, also over calls that raise", "anchors": ["sofar/utils.py:equals", "sofar/sofa.py:add_missing", "sofar/io.py:read_sofa"]}
{"id": "C94", "title": "An object keeps telling what it is", "statement": "repr(sofa) shows the convention and version that were asked for when the object was created (the newest version by default), or those of the file it was read from, whatever is done with the object while it is protected.", "quantifier": "all conventions, versions, files and sequences of calls", "why_tests_cant": "quantifies over all sequences of calls, also failing ones", "anchors": ["sofar/sofa.py:__repr__", "sofar/sofa.py:__init__", "sofar/io.py:read_sofa"]}
{"id": "C95", "title": "Changes of different entries can be made in any order", "statement": "Assigning, deleting and adding different entries of a protected object: every call gives the messages and the result it gives as the only call, and the calls lead to an object with the same data in any order, which verify accepts in any order or in none. (An attribute is not added together with its variable.)", "quantifier": "all objects, lists of calls, names and values, also calls that are refused", "why_tests_cant": "quantifies over all lists of calls and all their orders", "anchors": ["sofar/sofa.py:__setattr__", "sofar/sofa.py:__delattr__", "sofar/sofa.py:_add_entry"]}
{"id": "C96", "title": "The last assignment counts", "statement": "If an entry of a protected object is assigned twice, the object has the same data and the last call the same result as if only the last assignment had been made, whatever is done to other entries in between.", "quantifier": "all objects, names, first values, last values that can be stored, and lists of calls in between", "why_tests_cant": "quantifies over all values and lists of calls in between", "anchors": ["sofar/sofa.py:__setattr__"]}
{"id": "C97", "title": "Upgrading tells what it does", "statement": "upgrade_convention(target) announces the old and new convention, every moved entry with its new name and moved axes, every deleted entry and all missing data that it adds; data that the messages do not name are unchanged. If the object is verified after the upgrade it is valid, with verify='auto' it is verified unless the version of the target starts with 0.", "quantifier": "all objects, upgrade rules, targets, values of verify", "why_tests_cant": "quantifies over all objects and upgrade rules; the tests upgrade the objects of the shipped conventions", "anchors": ["sofar/sofa.py:upgrade_convention", "sofar/sofa.py:add_missing"]}
{"id": "C98", "title": "Reference form of unit strings", "statement": "The reference form of every valid unit string is the string of reference units that AES69 prescribes, separated by comma and space (cubic units by a space), regardless of case, aliases and separators, and is itself valid.", "quantifier": "all unit strings, alias tables and references", "why_tests_cant": "ranges over all strings and separators; the tests use a few spellings", "anchors": ["sofar/sofa.py:Sofa._get_reference_unit", "sofar/sofa.py:Sofa._verify_unit"]}
{"id": "C99", "title": "What inspect shows of an entry", "statement": "For a valid object inspect prints, in the order of the data, the value of every attribute and of every variable with one element; of every other variable the letter and size of each dimension, where the sizes are those that get_dimension returns, and if it has at most six elements also its values without single dimensions.", "quantifier": "all valid objects and ways of handling issues", "why_tests_cant": "ranges over all shapes, numbers of axes and declared dimensions; the tests look for a few words in the output", "anchors": ["sofar/sofa.py:Sofa.inspect", "sofar/sofa.py:Sofa.get_dimension", "sofar/sofa.py:Sofa.__setattr__"]}
{"id": "C100", "title": "The order of the convention files does not matter", "statement": "Whatever the order in which the operating system lists the convention files, creating, verifying, changing, inspecting, upgrading, writing and reading give the same objects, files, warnings, printed texts and results, or exceptions of the same class; list_conventions prints the same lines in the order of the files.", "quantifier": "all libraries of convention files, all permutations of them, all objects, calls and files", "why_tests_cant": "glob gives the files in an order that depends on the file system; tests run with one order", "anchors": ["sofar/utils.py:_get_conventions", "sofar/sofa.py:Sofa._load_convention", "sofar/utils.py:_verify_convention_and_version"]}
{"id": "C101", "title": "Further conventions do not interfere", "statement": "Adding files of a convention with another name to the library changes nothing for objects and files of the other conventions: same objects, files, warnings, texts, results and exceptions.", "quantifier": "all libraries, all names without underscore, any number of added files at any place with any content, all objects, calls and files of other conventions", "why_tests_cant": "conventions are found by the beginning of the file name; the tests use the distributed library only", "anchors": ["sofar/sofa.py:Sofa._load_convention", "sofar/utils.py:_get_conventions", "sofar/utils.py:_verify_convention_and_version"]}
{"id": "C102", "title": "What sofar.version() tells", "statement": "version() returns 'sofar vX implementing SOFA standard Y', where X is the version of the package and Y the first line of the file VERSION in the folder of the conventions without surrounding white space, however that line ends and whatever follows it.", "quantifier": "all versions and all contents of the file", "why_tests_cant": "the file is replaced when conventions are updated, with or without final line break and by different systems; tests see one file", "anchors": ["sofar/utils.py:version"]}
{"id": "C103", "title": "Upgraded data arrive in the file", "statement": "If an object is upgraded, written with write_sofa and read with read_sofa or read_sofa_as_netcdf, the object that is read has the moved data at their new names with axes moved as specified by the upgrade rule, all data that the rule does not name with unchanged elements, the target's convention, version, SOFA version and data type, and nothing else but mandatory data of the target with their default values.", "quantifier": "all objects a program can hold, all upgrade rules and targets, all file names and disks, both ways of reading", "why_tests_cant": "upgrading and storing are tested separately with a few shipped files; that no element is lost or exchanged on the way through both needs all objects and rules", "anchors": ["sofar/sofa.py:Sofa.upgrade_convention", "sofar/io.py:write_sofa", "sofar/io.py:read_sofa", "sofar/io.py:read_sofa_as_netcdf"]}
{"id": "C104", "title": "A script of additions builds exactly the intended object", "statement": "A script that creates an object of a convention, adds variables and attributes one after the other and verifies the object returns exactly if the object can be created, every addition is allowed by the names that are there before it, and verify accepts the result. The object that is returned holds the data of the new object followed by the added data in order, is protected and accepted again by verify without a change, and exactly the additions the convention does not know are custom data with the stated type and dimensions. The complete test object of sofar (_complete_sofa) is such a script.", "quantifier": "all convention data bases, all conventions, all lists of additions of any length", "why_tests_cant": "tests run one fixed list of additions; that each step is judged by exactly the names before it and leaves the earlier entries alone is a statement about all lists", "anchors": ["sofar/utils.py:_complete_sofa", "sofar/sofa.py:Sofa.add_variable", "sofar/sofa.py:Sofa.add_attribute", "sofar/sofa.py:Sofa.verify"]}
{"id": "C105", "title": "info shows what the rows of the csv file say", "statement": "If the csv file of a convention is compiled and an object of the convention is created, info('all'), info('mandatory'), info('optional'), info('read only') and info('data') print a title with convention, version and SOFA version, and one line for each selected entry of the object in its order with the name, type, shape, flags and comment of its row in the csv file. info(name) prints the type, flags, default, shape and comment of the rows of all entries whose names contain the name of an entry. Any other argument raises ValueError and nothing is printed. The object does not change.", "quantifier": "all directories, csv files in the main or in the deprecated directory, all rows, all arguments of info, all environments", "why_tests_cant": "the tests call info for one convention and do not look at the text; whether it is the text of the rows is a statement about all csv files", "anchors": ["sofar/sofa.py:Sofa.info", "sofar/update_conventions.py:_compile_conventions", "sofar/sofa.py:Sofa._load_convention"]}
{"id": "C106", "title": "Asking for upgrades tells the choice", "statement": "Asking an object for upgrades, or naming a target that is not offered, prints the convention and version of the object and one line with the convention and version of every offered target in order, after a message that the named target is invalid, and returns the offered targets. If nothing is offered exactly one message is printed: the convention is outdated but has no upgrade rules if it is deprecated without rules, otherwise it is up to date; nothing is returned. The request never raises.", "quantifier": "all environments, objects with an existing convention, targets, lists of offered targets", "why_tests_cant": "the tests look at the printed text for single conventions with one rule; the claim is about all rules and versions", "anchors": ["sofar/sofa.py:Sofa.upgrade_convention"]}
{"id": "C107", "title": "list_dimensions tells what the dimensions mean", "statement": "Every line printed by list_dimensions has the name and size of a dimension and its meaning: measurements for M, samples, frequencies or SOS coefficients for N by the data type, receivers or emitters for R and E, or their spherical harmonics coefficients if the type of the position says so, maximum string length for S, coordinates for C, single for I, and a custom dimension otherwise. It then names the first entry of the convention, or of the data added by the user, whose declared dimensions contain the lower case letter, with these dimensions in upper case; the entry is contained in the object. list_dimensions of an opened file prints the same meanings.", "quantifier": "all environments, objects and files, all dimensions", "why_tests_cant": "tests compare the text for single conventions; which entry is named depends on the order and the dimensions of all entries", "anchors": ["sofar/sofa.py:Sofa.list_dimensions", "sofar/sofastream.py:SofaStream.list_dimensions"]}
{"id": "C108", "title": "After an upgrade the target counts", "statement": "After a successful upgrade the object states the convention and version of the target. Asking again offers exactly the upgrades that the rules have for the target, independently of what the object was before: if there are none and the target is not deprecated, the object is said to be up to date, and otherwise the offered targets of the first matching rule are returned. Asking changes no data.", "quantifier": "all environments, objects, rules, targets and chains of upgrades", "why_tests_cant": "tests upgrade single objects once; a chain of upgrades depends on the state that earlier upgrades leave behind", "anchors": ["sofar/sofa.py:Sofa.upgrade_convention", "sofar/sofa.py:Sofa._reset_convention"]}
{"id": "C109", "title": "Assigning back what is stored changes nothing", "statement": "If an entry of any object of a program is assigned its own value, the object is exactly as before and nothing is printed: the assignment succeeds, or it raises TypeError because the entry is read only and the object is protected. The same holds for any sequence of such assignments.", "quantifier": "all programs (creating, reading, copying, changing, upgrading and writing objects), all objects, all entries, all sequences of assignments", "why_tests_cant": "whether a stored value is a fixed point of the conversion depends on how it came into the object: by default value, by reading, by upgrade or by assignment of any Python value", "anchors": ["sofar/sofa.py:Sofa.__setattr__"]}
{"id": "C110", "title": "Equal objects are equally valid", "statement": "If equals calls two objects identical, then verify accepts both or neither.", "quantifier": "all pairs of objects of any convention, both modes of verify, with and without messages", "why_tests_cant": "unit tests compare a few objects; that equality and validity agree needs all pairs of objects", "anchors": ["sofar/utils.py:equals", "sofar/sofa.py:Sofa.verify"]}
{"id": "C111", "title": "Files tell objects apart exactly as equals does", "statement": "If two objects are written to files and the files are read, what is read is equal exactly if the objects are equal, for every option of exclude: storing neither makes different data equal nor equal data different.", "quantifier": "all pairs of objects of any conventions that can be written and read, all file names and options of read_sofa and equals", "why_tests_cant": "unit tests compare one object with its own file; that files of different objects stay different needs all pairs of objects and the exact numbers, as the tolerance of equals could add up", "anchors": ["sofar/io.py:write_sofa", "sofar/io.py:read_sofa", "sofar/utils.py:equals"]}
{"id": "C112", "title": "add_missing repairs damaged new objects", "statement": "If any data of a new object were deleted, for example by mistake, add_missing() gives an object that verify() accepts exactly if it accepts the new object, although the entries are then in another order and default values may have fewer axes.", "quantifier": "all conventions, rules, versions, subsets of deleted data, both modes", "why_tests_cant": "a test deletes a few entries of one convention; there are exponentially many subsets of every convention, and the restored object is not the original one", "anchors": ["sofar/sofa.py:Sofa.add_missing", "sofar/sofa.py:Sofa.verify", "sofar/sofa.py:Sofa.__init__"]}
{"id": "C113", "title": "Rejected additions say what is wrong", "statement": "add_variable() and add_attribute() are rejected with a ValueError that leaves the object unchanged exactly if the entry exists, the data type is unknown, a variable has an underscore in its name, the name of an attribute does not have two parts, its variable does not exist, or a variable has no dimensions. The text of the error names this reason, including the entry and the missing variable, and there is exactly one reason that is reported.", "quantifier": "all objects, names, values, data types, dimensions", "why_tests_cant": "a test tries some wrong names and matches fragments of the messages; that every rejection has the right text, and that nothing else is rejected, concerns all names and objects", "anchors": ["sofar/sofa.py:Sofa.add_variable", "sofar/sofa.py:Sofa.add_attribute"]}
{"id": "C114", "title": "Refused assignments, deletions and creations say what is wrong", "statement": "Assigning data is refused exactly if the object is protected and the entry does not exist or is read only, if protected is set to something other than True or False, or if the value can not be stored. Deleting is refused exactly if the entry does not exist, or is mandatory or not data while the object is protected, or is not data at all. In each case the error names the entry and the reason and the object is unchanged. Creating an object is answered for unknown conventions with the name of the convention and for unknown versions with a list of exactly the versions that exist.", "quantifier": "all objects, names, values, data bases of conventions, versions", "why_tests_cant": "tests match fragments of some messages; that each refusal has its own reason, that nothing else is refused, and that the listed versions are complete for every data base concerns all inputs", "anchors": ["sofar/sofa.py:Sofa.__setattr__", "sofar/sofa.py:Sofa.__delattr__", "sofar/sofa.py:Sofa.delete", "sofar/sofa.py:Sofa.__init__"]}
{"id": "C115", "title": "Failed look-ups and reads say what is missing", "statement": "Asking an accepted object, or a SofaStream, for a dimension gives the size of the dimension or an error that names the requested dimension, exactly if no variable of the object (or not the file) has it. Objects with data of the wrong type or shape answer that the dimensions can not be shown. A SofaStream names global attributes that are not in the file. Reading a file that does not exist is answered with its name including the suffix, a file of an unknown convention or version with both, and an invalid file with the hint how to read it without verification. equals() names an exclusion that does not exist, whatever the objects are.", "quantifier": "all conventions, objects, files, disks, names of dimensions, attributes, files and exclusions", "why_tests_cant": "tests match fragments of these messages for single wrong inputs; that each wrong input gets this answer, and no correct one does, is a claim about all inputs", "anchors": ["sofar/sofa.py:Sofa.get_dimension", "sofar/sofastream.py:SofaStream.get_dimension", "sofar/sofastream.py:SofaStream.__getattr__", "sofar/io.py:read_sofa", "sofar/utils.py:equals"]}
{"id": "C116", "title": "Other issues do not hide the dimensions", "statement": "get_dimension() of a complete object with data of correct types, whatever verify() reports about names, values, units and deprecations, gives the size of the dimension or the error that names the requested dimension; only wrong types and shapes hide the dimensions.", "quantifier": "all conventions, objects, reports and names of dimensions", "why_tests_cant": "the decision searches a report that cites user data; tests check one wrong shape and no other report", "anchors": ["sofar/sofa.py:Sofa.get_dimension", "sofar/sofa.py:Sofa._update_dimensions"]}
