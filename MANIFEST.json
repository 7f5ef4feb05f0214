{
 "claims": [
  {
   "property": "C01",
   "status": "proved",
   "theorems": [
    "C01_read_only_fixed",
    "C01_new_object_read_only_fixed",
    "C01_refuted_after_failed_add",
    "C01_flag"
   ],
   "note": "For every protected run from an object that is protected and knows its convention; a second theorem gives the same for every object returned by Sofa(...). Runs contain no add of a ragged list; C01_refuted_after_failed_add shows the guard is lost after such a failed add (see C08)."
  },
  {
   "property": "C02",
   "status": "proved",
   "theorems": [
    "C02_mandatory_stay",
    "C02_new_object_mandatory_stay",
    "C02_flag"
   ],
   "note": "For every protected run, and for every object returned by Sofa(...)."
  },
  {
   "property": "C03",
   "status": "partial",
   "theorems": [
    "C03_assignment_never_creates_partial",
    "C03_refuted",
    "C03_private"
   ],
   "note": "Missing: assignment to the names of methods and properties of the class; C03_refuted shows that such an assignment creates a new attribute in a protected object."
  },
  {
   "property": "C04",
   "status": "proved",
   "theorems": [
    "C04_rejected_without_effect"
   ],
   "note": "Rejected assignments and deletions leave the object as it was."
  },
  {
   "property": "C05",
   "status": "proved",
   "theorems": [
    "C05_assignment_stores_normal_form",
    "C05_stored_elements",
    "C05_mixed_numbers"
   ],
   "note": "Stored value is the normal form, re-assigning it changes nothing, elements and order are kept."
  },
  {
   "property": "C06",
   "status": "partial",
   "theorems": [
    "C06_add_exactly_one_partial",
    "C06_add_attribute_exactly_one_partial",
    "C06_refuted"
   ],
   "note": "Missing: recording of an entry that was custom, deleted and is added again; C06_refuted shows that it is not recorded."
  },
  {
   "property": "C07",
   "status": "partial",
   "theorems": [
    "C07_accepted_names_partial",
    "C07_refuted"
   ],
   "note": "Missing: attributes of variables whose name holds an underscore (Data_IR_Comment); C07_refuted shows that they are rejected."
  },
  {
   "property": "C08",
   "status": "partial",
   "theorems": [
    "C08_rejected_add_partial",
    "C08_refuted"
   ],
   "note": "Missing: values that can not be converted to an array; C08_refuted shows that the object is left unprotected with the entry recorded as custom."
  },
  {
   "property": "C09",
   "status": "proved",
   "theorems": [
    "C09_delete_exactly_one",
    "C09_delete_iff"
   ],
   "note": "Exactly the named entry disappears; deletion succeeds iff the entry exists and is known as not mandatory."
  },
  {
   "property": "C10",
   "status": "proved",
   "theorems": [
    "C10_rearmed"
   ],
   "note": "add_variable, add_attribute, add_missing and upgrade_convention leave a protected object if they return."
  },
  {
   "property": "C11",
   "status": "proved",
   "theorems": [
    "C11_verify_iff_valid",
    "C11_reachable"
   ],
   "note": "verify(issue_handling='raise') succeeds iff the object is valid in the sense of SpecVerify.v, for every data base, rule set and mode, and for every object reachable from Sofa(...). Cases the code settles in an unexpected way (ignored trailing axes, S arrays, space separated units) are part of the specification and the subject of C19, C20, C22."
  },
  {
   "property": "C12",
   "status": "proved",
   "theorems": [
    "C12_verify_keeps_data"
   ],
   "note": "Every contained value is kept; 'raise' adds nothing; everything added is missing mandatory data with its default."
  },
  {
   "property": "C13",
   "status": "partial",
   "theorems": [
    "C13_titles",
    "C13_modes_agree_partial",
    "C13_messages_partial",
    "C13_refuted"
   ],
   "note": "Missing: 'return' yields None although a warning was detected, and objects with custom data and a preliminary version cause a warning also with 'return' and 'ignore'; both shown by C13_refuted. 'ignore' goes on after type errors, hence is only covered by the statement that it is silent without custom data."
  },
  {
   "property": "C14",
   "status": "proved",
   "theorems": [
    "C14_same_result",
    "C14_raise",
    "C14_idempotent",
    "C14_second_call"
   ],
   "note": "The second call leaves the object as it is and gives the same output and result, except that only the first call warns about the data it added (C14_same_result). The conventions are assumed to have defaults of the declared type and names that follow the rules for mandatory entries (db_sound)."
  },
  {
   "property": "C15",
   "status": "proved",
   "theorems": [
    "C15_write_implies_read"
   ],
   "note": "For every environment and object, no hypotheses."
  },
  {
   "property": "C16",
   "status": "proved",
   "theorems": [
    "C16_dimensions_consistent",
    "C16_shared_dimension"
   ],
   "note": "The dimensions shown by inspect are a declared alternative that fits the sizes; shared dimensions agree; C=3 and I=1."
  },
  {
   "property": "C17",
   "status": "proved",
   "theorems": [
    "C17_dimension_not_stale"
   ],
   "note": "The value returned is the size stated by the data in the object after the call, which equal the data before the call unless missing mandatory data were added."
  },
  {
   "property": "C18",
   "status": "proved",
   "theorems": [
    "C18_longest_string"
   ],
   "note": "Upper bound and attained, for the value returned by get_dimension('S')."
  },
  {
   "property": "C19",
   "status": "partial",
   "theorems": [
    "C19_declared_axes_partial",
    "C19_refuted"
   ],
   "note": "Missing: arrays with more axes than declared; C19_refuted shows that further axes of any size are accepted."
  },
  {
   "property": "C20",
   "status": "partial",
   "theorems": [
    "C20_unit_strings_partial",
    "C20_verified_units",
    "C20_refuted"
   ],
   "note": "Missing: units separated by spaces only; C20_refuted shows that they are rejected. The accepted strings are exactly characterised otherwise."
  },
  {
   "property": "C21",
   "status": "proved",
   "theorems": [
    "C21_restricted_values",
    "C21_verified_values"
   ],
   "note": "Exact characterisation of accepted values, and for verify as a whole."
  },
  {
   "property": "C22",
   "status": "partial",
   "theorems": [
    "C22_string_types_partial",
    "C22_refuted"
   ],
   "note": "Missing: arrays of type S; C22_refuted proves that every object with such an array in a string variable is rejected."
  },
  {
   "property": "C23",
   "status": "proved",
   "theorems": [
    "C23_reported"
   ],
   "note": "For issue_handling='raise' and every object on which verify returns; 'write' can not return for a deprecated convention."
  },
  {
   "property": "C24",
   "status": "proved",
   "theorems": [
    "C24_new_object_content"
   ],
   "note": "Content, protection and read-only entries of every object returned by Sofa(...), for well-formed convention files (db_ok)."
  },
  {
   "property": "C25",
   "status": "proved",
   "theorems": [
    "C25_requested_version",
    "C25_latest",
    "C25_numbers"
   ],
   "note": "Exactly the requested file, ValueError if there is none; 'latest' in the numeric order of the versions."
  },
  {
   "property": "C26",
   "status": "partial",
   "theorems": [
    "C26_latest_is_newest_partial",
    "C26_refuted"
   ],
   "note": "Missing: versions with more than one digit after the point; C26_refuted shows that 1.9 is preferred to 1.11."
  },
  {
   "property": "C27",
   "status": "proved",
   "theorems": [
    "C27_add_missing",
    "C27_uses_the_convention_of_the_object"
   ],
   "note": "For every object; a second theorem shows that the call succeeds after every history of a new object and uses the convention of the object."
  },
  {
   "property": "C28",
   "status": "partial",
   "theorems": [
    "C28_add_missing_restores_partial",
    "C28_refuted"
   ],
   "note": "Missing: number of dimensions and single-element lists; C28_refuted shows ReceiverPosition (2, 3, 1) in a new object and (2, 3) if added by add_missing."
  },
  {
   "property": "C29",
   "status": "proved",
   "theorems": [
    "C29_python_names"
   ],
   "note": "For every loaded convention."
  },
  {
   "property": "C30",
   "status": "proved",
   "theorems": [
    "C30_invalid_not_written",
    "C30_other_files"
   ],
   "note": "For all file systems; other files are untouched also by successful calls."
  },
  {
   "property": "C31",
   "status": "partial",
   "theorems": [
    "C31_all_or_nothing_partial",
    "C31_refuted"
   ],
   "note": "Proved for objects that can be stored (SpecStore.storable). Objects that pass verify but can not be stored (additional axes, other than ASCII characters) raise after the file has been emptied (C31_refuted)."
  },
  {
   "property": "C32",
   "status": "partial",
   "theorems": [
    "C32_names",
    "C32_round_trip_partial",
    "C32_refuted"
   ],
   "note": "Proved for read_sofa and read_sofa_as_netcdf for objects that are storable, faithful and readable_again (SpecStore). C32_refuted lists accepted objects whose data change or whose file can not be read. Masked arrays of floats are covered (C32_missing_data_case)."
  },
  {
   "property": "C33",
   "status": "partial",
   "theorems": [
    "C33_equals_after_reading_partial",
    "C33_refuted"
   ],
   "note": "Proved in both directions and for all options of exclude under the hypotheses of C32; C33_refuted gives accepted objects for which equals is False or the file can not be read. Objects with missing data are excluded (regular): how numpy compares masked arrays is not modelled."
  },
  {
   "property": "C34",
   "status": "proved",
   "theorems": [
    "C34_exact_content"
   ],
   "note": "For files with distinct names. Which elements of a variable are missing is part of the statement."
  },
  {
   "property": "C35",
   "status": "proved",
   "theorems": [
    "C35_any_file",
    "C35_agree",
    "C35_no_convention_needed"
   ],
   "note": "For files with distinct names."
  },
  {
   "property": "C36",
   "status": "proved",
   "theorems": [
    "C36_protected",
    "C36_verified"
   ],
   "note": "The returned object is protected; with verification it passes verify(mode=\"read\")."
  },
  {
   "property": "C37",
   "status": "partial",
   "theorems": [
    "C37_file_names_partial",
    "C37_different_partial",
    "C37_spelling",
    "C37_no_name",
    "C37_same_file",
    "C37_refuted"
   ],
   "note": "C37_spelling, C37_no_name, C37_same_file: all names. Different paths without a suffix address different files; names with another suffix lose it, so that e.g. \"a.b\" and \"a.c\" address the same file (C37_refuted)."
  },
  {
   "property": "C38",
   "status": "partial",
   "theorems": [
    "C38_fixed_width_partial",
    "C38_refuted"
   ],
   "note": "ASCII texts that do not end in NUL; others are changed or raise (C38_refuted)."
  },
  {
   "property": "C39",
   "status": "partial",
   "theorems": [
    "C39_file_dimensions_partial",
    "C39_refuted"
   ],
   "note": "All accepted objects; if all texts are empty the dimension S has size 0 in the object and 1 in the file (C39_refuted)."
  },
  {
   "property": "C40",
   "status": "partial",
   "theorems": [
    "C40_squeezed",
    "C40_shape_partial",
    "C40_refuted"
   ],
   "note": "Only singleton dimensions of single numbers are discarded; the documented example (1,2) is read as (1,2,1) (C40_refuted)."
  },
  {
   "property": "C41",
   "status": "partial",
   "theorems": [
    "C41_contained_partial",
    "C41_others_partial",
    "C41_refuted",
    "C41_spelling",
    "C41_opened",
    "C41_directories"
   ],
   "note": "Proved in both directions for files with names as in the conventions (SpecStream.conventional, asked); C41_refuted: colliding or unusual names and names that are not contained in the object."
  },
  {
   "property": "C42",
   "status": "partial",
   "theorems": [
    "C42_same_dimensions_partial",
    "C42_refuted"
   ],
   "note": "All written objects and dimensions; if all texts are empty S is 0 in the object and 1 in the file (C42_refuted)."
  },
  {
   "property": "C43",
   "status": "partial",
   "theorems": [
    "C43_reflexive_partial",
    "C43_order",
    "C43_refuted"
   ],
   "note": "Order independence and reflexivity for verified objects with ASCII texts; other texts raise UnicodeEncodeError (C43_refuted). Masked and complex data are not modelled."
  },
  {
   "property": "C44",
   "status": "partial",
   "theorems": [
    "C44_symmetric_partial",
    "C44_refuted"
   ],
   "note": "Fails at the boundary of the tolerance (C44_refuted); symmetric if no two compared numbers are close in one direction only."
  },
  {
   "property": "C45",
   "status": "partial",
   "theorems": [
    "C45_same_content_partial",
    "C45_positions_partial",
    "C45_refuted"
   ],
   "note": "equals is True iff the content is the same in the sense of SpecEquals; an array of equal numbers equals a scalar although the shapes differ (C45_refuted)."
  },
  {
   "property": "C46",
   "status": "proved",
   "theorems": [
    "C46_exclude",
    "C46_ignored"
   ],
   "note": "For every pair of objects and all options of exclude: excluding more never turns True into False, and excluded data have no influence."
  },
  {
   "property": "C47",
   "status": "partial",
   "theorems": [
    "C47_harmless_partial",
    "C47_up_to_date_refuted"
   ],
   "note": "Missing: data that are up to date yield None instead of the documented empty list (C47_up_to_date_refuted)."
  },
  {
   "property": "C48",
   "status": "proved",
   "theorems": [
    "C48_upgraded"
   ],
   "note": "For rules that name every entry once and plain source values (stored values other than nested lists). The final data are those before an optional verification, which changes no data."
  },
  {
   "property": "C49",
   "status": "proved",
   "theorems": [
    "C49_positions",
    "C49_permuted"
   ],
   "note": "Non-negative axes."
  },
  {
   "property": "C50",
   "status": "partial",
   "theorems": [
    "C50_half_upgraded_refuted",
    "C50_raises_partial"
   ],
   "note": "Missing: if data to move or remove are not contained, the upgrade raises half way and leaves changed, unprotected data (C50_half_upgraded_refuted). Proved: nothing changes if the target is not offered; no exception if the data are contained, the axes can be moved and verification is off."
  },
  {
   "property": "C51",
   "status": "proved",
   "theorems": [
    "C51_declined"
   ],
   "note": "For every server, directory and answer other than 'y'."
  },
  {
   "property": "C52",
   "status": "partial",
   "theorems": [
    "C52_idempotent_partial",
    "C52_refuted"
   ],
   "note": "Proved if the lines of the offered files end with at most one tab and one carriage return. C52_refuted: with two tabs at the end of a line every run offers and installs the update again, since one tab is removed on writing and one more on comparing."
  },
  {
   "property": "C53",
   "status": "partial",
   "theorems": [
    "C53_files",
    "C53_mirrors_partial",
    "C53_json_partial",
    "C53_succeeds_partial",
    "C53_cleaning",
    "C53_refuted"
   ],
   "note": "Proved for all servers and directories if the update completes; C53_succeeds_partial says when it does, C53_json_partial covers the compiled json files. C53_refuted: if a new csv file cannot be parsed ('[0, 0, 0]'), the csv is replaced, a ValueError is raised, and later runs report 'up to date' with the old json file."
  },
  {
   "property": "C54",
   "status": "proved",
   "theorems": [
    "C54_entries",
    "C54_fields"
   ],
   "note": "Keys and order for every csv text that is compiled; a repeated name keeps its first position and the fields of its last line (C54_fields). 'Global' means that the name contains 'GLOBAL' as in the code."
  },
  {
   "property": "C55",
   "status": "proved",
   "theorems": [
    "C55_nested",
    "C55_flat"
   ],
   "note": "For every list of rows of integers (and texts with a point accepted by Python's float), with blanks around rows and brackets."
  },
  {
   "property": "C56",
   "status": "partial",
   "theorems": [
    "C56_listing_partial",
    "C56_valid_partial",
    "C56_refuted",
    "C56_invalid_refuted",
    "C56_title"
   ],
   "note": "If inspect returns, it lists every attribute exactly once, in order (C56_listing_partial); it returns for verified objects whose string variables are arrays (C56_valid_partial). It raises for a valid object with a plain string as string variable (C56_refuted) and for objects with a variable of wrong shape (C56_invalid_refuted)."
  },
  {
   "property": "C57",
   "status": "partial",
   "theorems": [
    "C57_info_partial",
    "C57_partition_partial",
    "C57_valid_partial",
    "C57_refuted"
   ],
   "note": "For objects whose attributes all have a convention entry (in particular after verification) the listings are exactly the selected entries and mandatory/optional partition them; an attribute added without protection makes info raise (C57_refuted)."
  },
  {
   "property": "C58",
   "status": "proved",
   "theorems": [
    "C58_copy_has_same_content",
    "C58_copies_are_independent",
    "C58_original_and_copy",
    "C58_sharing"
   ],
   "note": "Heap model of copy.deepcopy with memo, cycles, array views and aliasing: copying terminates, the copy has the same content and internal sharing, and under any interleaving of in-place changes and assignments by a program holding the copy and a program holding everything that existed before, changes are never seen by the other. Tuples, object arrays with mutable elements and Python's recursion limit are not modelled."
  },
  {
   "property": "C61",
   "status": "proved",
   "theorems": [
    "C61_list_conventions"
   ],
   "note": "For convention files with unique names, readable versions and storable defaults (db_ok, db_creatable)."
  },
  {
   "property": "C64",
   "status": "partial",
   "theorems": [
    "C64_list_dimensions_partial",
    "C64_works_partial",
    "C64_refuted"
   ],
   "note": "Proved for valid objects whose data type starts with FIR, TF or SOS, and that list_dimensions works only for these (C64_works_partial). Refuted in general: for any other data type (e.g. the Audio type of AnnotatedReceiverAudio) list_dimensions raises UnboundLocalError (C64_refuted)."
  },
  {
   "property": "C62",
   "status": "partial",
   "theorems": [
    "C62_inspect_partial",
    "C62_written_partial",
    "C62_dimensions_partial",
    "C62_refuted"
   ],
   "note": "Proved for files whose variables have at least one axis and whose variable attributes are texts (inspectable), which holds for written files. Refuted in general: a numeric attribute of a variable, which read_sofa accepts, makes inspect raise TypeError, and list_dimensions raises UnboundLocalError for data types other than FIR, TF and SOS (C62_refuted)."
  },
  {
   "property": "C65",
   "status": "partial",
   "theorems": [
    "C65_raises_partial",
    "C65_returns_partial",
    "C65_completes_partial",
    "C65_refuted"
   ],
   "note": "Proved for objects whose entries are all declared and that are checkable: arrays of texts have a usual shape, all letters of dimension strings have a size, rules refer to attributes and no variable has a name ending in Units. Objects with missing mandatory data are covered by C65_completes_partial. Refuted in general: a custom entry that was deleted and added again gives KeyError, an array of strings without axes TypeError and a variable with a name ending in Units AttributeError (C65_refuted)."
  },
  {
   "property": "C66",
   "status": "partial",
   "theorems": [
    "C66_write_again_partial",
    "C66_refuted"
   ],
   "note": "Proved for the objects of C32 without variables that have a name ending in Units. Refuted in general: a text with two dimensions in a variable with such a name is read as an array, and writing it again raises AttributeError (C66_refuted). The claim about equals is for objects without missing data."
  },
  {
   "property": "C59",
   "status": "partial",
   "theorems": [
    "C59_no_trace_partial",
    "C59_first_entry_partial",
    "C59_refuted"
   ],
   "note": "C59_no_trace_partial: for an object that has custom data and every new name, add_variable/add_attribute followed by del leaves public data, custom data, read-only list and dimensions as before, and verify, add_missing, get_dimension, list_dimensions, inspect and write_sofa give the same output, result, object and file (or, if the convention can not be loaded, the same error). C59_first_entry_partial: without custom data the public data are the same. C59_refuted: adding the deleted entry again makes verify raise KeyError, and for a preliminary convention the first added and deleted entry makes verify warn once more."
  },
  {
   "property": "C63",
   "status": "partial",
   "theorems": [
    "C63_report_partial",
    "C63_exact_partial",
    "C63_errors",
    "C63_refuted"
   ],
   "note": "C63_report_partial: for every pair of listings, each reported missing convention is really missing, each convention on both platforms that is not a General one is reported iff its cleaned files differ, and exactly the files of the reported differences are saved. C63_exact_partial: the report has exactly the true findings, each once, if no name is listed twice and of two neighbours in a listing at least one is compared. C63_errors: ValueError iff a platform has no conventions or the directory does not exist. C63_refuted: the loop removes from the list it runs through, so that a missing convention following a removed one is not reported, or reported as different."
  },
  {
   "property": "C60",
   "status": "partial",
   "theorems": [
    "C60_read_object",
    "C60_upgraded_partial",
    "C60_refuted"
   ],
   "note": "C60_read_object: for every file and every sequence of safe operations, read-only entries of the convention of the file raise TypeError on assignment, mandatory read-only data keep the value of the file and mandatory data stay. C60_upgraded_partial: after a successful upgrade the object is protected and every entry that was read-only before can not be assigned. C60_refuted: an entry that is read-only only in the new convention can be assigned since upgrade_convention does not renew the list of read-only data."
  },
  {
   "property": "C67",
   "status": "partial",
   "theorems": [
    "C67_older",
    "C67_outdated_data_reported_partial",
    "C67_refuted"
   ],
   "note": "Proved for conventions whose versions have one digit after the point: the warning occurs once iff a newer version exists. C67_refuted: with versions 1.9 and 1.11 an object of version 1.9 is written without warning since 'latest' compares versions as decimal numbers."
  },
  {
   "property": "C68",
   "status": "partial",
   "theorems": [
    "C68_custom_data_reported_partial",
    "C68_refuted"
   ],
   "note": "Proved for files without names of methods or properties of the class: the printed text, its equality with the custom data of the object and the warnings about missing data. C68_refuted: a variable called 'copy' is not reported."
  },
  {
   "property": "C69",
   "status": "partial",
   "theorems": [
    "C69_differences_reported_partial",
    "C69_refuted"
   ],
   "note": "Proved: independence of verbose, silence for identical objects, one warning if the names differ, otherwise one for each differing entry in the order of the data; differing attributes and types are named. C69_refuted: the warning about a differing variable reads 'different values for {key}'."
  },
  {
   "property": "C70",
   "status": "partial",
   "theorems": [
    "C70_added_data_reported_partial",
    "C70_refuted"
   ],
   "note": "Proved: exact text for all arguments, one line per new entry; with mandatory=True the text about contained mandatory data is true. C70_refuted: with mandatory=False it is printed though mandatory data are missing."
  },
  {
   "property": "C71",
   "status": "partial",
   "theorems": [
    "C71_order_partial",
    "C71_dimensions_partial",
    "C71_refuted"
   ],
   "note": "C71_order_partial, C71_dimensions_partial: for all permutations of data and custom entries, if every dimension has its size from one variable or from variables whose shape is compared with the size they state (same letter at the same place in all alternatives, no axes moved for the comparison). C71_refuted: custom variables Gains (M,K) of shape (1,2) and Bands (K) of shape (1,2) are accepted if Gains is added last and rejected if Bands is."
  },
  {
   "property": "C72",
   "status": "proved",
   "theorems": [
    "C72_numbers_do_not_matter",
    "C72_single_numbers",
    "C72_same_dimensions",
    "C72_assigning_numbers"
   ],
   "note": "For all objects of equal outline in both modes; the version of the convention, which is data too, is kept. C72_numbers_do_not_matter allows further axes of length one at the end, C72_single_numbers allows arrays with one number instead of the number."
  },
  {
   "property": "C73",
   "status": "proved",
   "theorems": [
    "C73_last_write_counts",
    "C73_unwritten"
   ],
   "note": "For all sequences; what an accepted write stores is the subject of C31-C33, failures in the middle of writing that of C65."
  },
  {
   "property": "C74",
   "status": "proved",
   "theorems": [
    "C74_queries_keep_data",
    "C74_complete_objects_stay"
   ],
   "note": "For all sequences of these calls."
  },
  {
   "property": "C75",
   "status": "proved",
   "theorems": [
    "C75_programs",
    "C75_verify_decides",
    "C75_upgraded"
   ],
   "note": "Hypotheses on data from outside only: default values of the conventions (defaults_ok), the files the program starts with (disk_sound) and assigned values (input) are texts, numbers, arrays or lists of the model."
  },
  {
   "property": "C76",
   "status": "partial",
   "theorems": [
    "C76_files_closed_partial",
    "C76_inside_partial",
    "C76_answers",
    "C76_outside",
    "C76_refuted"
   ],
   "note": "C76_answers and C76_outside hold for all programs. Missing: a stream that is entered again inside of its own with block leaves the first file open and the end of the outer block raises (C76_refuted); closing and answering inside the block are proved for all programs that do not do this."
  },
  {
   "property": "C77",
   "status": "partial",
   "theorems": [
    "C77_unreachable_partial",
    "C77_no_input",
    "C77_requests",
    "C77_answered",
    "C77_refuted"
   ],
   "note": "Proved for requests without answer, at any point, and for missing input; the requests and the equality with the update of C51-C53 are proved. C77_refuted: the status of answers is not checked, the text of an error page replaces the convention."
  },
  {
   "property": "C78",
   "status": "partial",
   "theorems": [
    "C78_one_object_partial",
    "C78_lists_are_copied",
    "C78_assigned_value",
    "C78_refuted"
   ],
   "note": "Proved for programs that do not assign an array which is part of another object; the independence of new objects, copies and assigned lists, and the value of the assigned entry are proved too. C78_refuted: arrays are stored without copying, an array that is assigned to two objects couples them."
  },
  {
   "property": "C79",
   "status": "proved",
   "theorems": [
    "C79_first_report",
    "C79_second_report"
   ],
   "note": "C79_second_report needs complete objects with the right types (otherwise C79_first_report applies) and that verify with issue_handling='return' does not raise an exception itself. Custom variables of wrong shape have two equal lines, the statement does not count lines."
  },
  {
   "property": "C80",
   "status": "partial",
   "theorems": [
    "C80_same_file_partial",
    "C80_refuted"
   ],
   "note": "C80_same_file_partial: objects as in C66 (storable, faithful, readable again, no variables named ...Units); the repeated writes are proved to succeed. C80_refuted: texts that end in NULs are stored with a larger S in the first file than in the second."
  },
  {
   "property": "C81",
   "status": "proved",
   "theorems": [
    "C81_announced",
    "C81_changes_announced",
    "C81_announcements_kept"
   ],
   "note": "C81_announced: the printed lines and their order relative to the question. C81_changes_announced: every changed csv file was announced, for every outcome. C81_announcements_kept: what an accepted update does for each announcement."
  },
  {
   "property": "C82",
   "status": "partial",
   "theorems": [
    "C82_rows_partial",
    "C82_refuted"
   ],
   "note": "C82_rows_partial: holds for cells with words, numbers and lists of numbers. C82_refuted: a comment starting with '[' makes the file unreadable and a comment of digits becomes a number; such texts are excluded."
  },
  {
   "property": "C83",
   "status": "proved",
   "theorems": [
    "C83_csv_to_object",
    "C83_can_be_created"
   ],
   "note": "C83_csv_to_object: the content of the object in terms of the rows. C83_can_be_created: creation succeeds. Rows are those of C82."
  },
  {
   "property": "C84",
   "status": "partial",
   "theorems": [
    "C84_missing_data_partial",
    "C84_refuted"
   ],
   "note": "C84_missing_data_partial: for objects whose numbers differ from the mark (faithful). C84_refuted: a number that is equal to the mark is missing after reading. Masked arrays of integers and equals for masked arrays are not modelled."
  },
  {
   "property": "C85",
   "status": "partial",
   "theorems": [
    "C85_unknown_words_partial",
    "C85_refuted"
   ],
   "note": "C85_unknown_words_partial: data of the wrong type are returned with the full report; everything else is looked for but not told. C85_refuted: an object with three issues passes silently with issue_handling=\"Raise\", and units in upper case pass with mode=\"Write\" (any mode other than write is treated as read)."
  },
  {
   "property": "C86",
   "status": "partial",
   "theorems": [
    "C86_adding_partial",
    "C86_again",
    "C86_new",
    "C86_variable",
    "C86_attribute",
    "C86_refuted"
   ],
   "note": "C86_adding_partial: exactly if the entry itself is valid, provided that the entry states no other size for a dimension that already has one, and that nothing refers to lengths of texts if it is a variable of texts. C86_variable and C86_attribute spell out the condition for ordinary custom data; C86_new and C86_again show that the assumptions hold for new objects and after every addition. C86_refuted: a second variable that states another size for a custom dimension makes verify reject the first variable."
  },
  {
   "property": "C87",
   "status": "partial",
   "theorems": [
    "C87_deleting_partial",
    "C87_refuted"
   ],
   "note": "C87_deleting_partial: as stated, provided that the sizes the entry states are known without it or used by nobody, and that nothing refers to lengths of texts if it is a variable of texts. C87_refuted: a variable that nothing names is deleted and the object becomes invalid, because another variable uses the custom dimension in an alternative."
  },
  {
   "property": "C88",
   "status": "partial",
   "theorems": [
    "C88_transitive_partial",
    "C88_refuted"
   ],
   "note": "C88_transitive_partial: as stated for data whose arrays have the same shape (up to dimensions of size one) in the three objects and whose numbers pass closeness on (for instance because they are equal whenever they are close). C88_refuted: three objects with sampling rates that differ by less than the tolerance from one to the next, but by more from the first to the last. Missing: nothing else; both assumptions are needed, arrays that equal a single number are another counterexample."
  },
  {
   "property": "C89",
   "status": "partial",
   "theorems": [
    "C89_looks_partial",
    "C89_refuted",
    "C89_refuted_custom"
   ],
   "note": "C89_looks_partial: as stated for programs that delete no custom data, keep the protection on, and call inspect only with issue_handling raise or ignore (inserted calls may use every value). C89_refuted: inspect(issue_handling='print') with data of wrong type shows what an earlier verification found and fails if there was none. C89_refuted_custom: custom data that are deleted and added again make verify fail with a KeyError unless verify was called in between."
  },
  {
   "property": "C90",
   "status": "partial",
   "theorems": [
    "C90_message",
    "C90_new_objects",
    "C90_not_created",
    "C90_auto",
    "C90_read_partial",
    "C90_default_needed",
    "C90_refuted"
   ],
   "note": "C90_new_objects and C90_not_created: as stated for Sofa(...), with the warning. C90_auto: as stated for read_sofa. C90_read_partial: as stated for read_sofa if the default data of the convention are valid. C90_default_needed and C90_refuted: otherwise read_sofa with verify=True raises for every file of the convention, because the new object is verified before the file is read into it."
  },
  {
   "property": "C91",
   "status": "partial",
   "theorems": [
    "C91_inspect_file_partial",
    "C91_stream_file_partial",
    "C91_refuted"
   ],
   "note": "C91_inspect_file_partial, C91_stream_file_partial: as stated, the file also lists every entry of the object; a failing call keeps the file unless the platform cannot encode the text. C91_refuted: in this case the earlier content is lost."
  },
  {
   "property": "C92",
   "status": "partial",
   "theorems": [
    "C92_levels_agree",
    "C92_other_levels_partial",
    "C92_refuted"
   ],
   "note": "C92_levels_agree: as stated for 0 to 9. C92_other_levels_partial: whatever the level, a file that is written is the same; other levels are rejected if a variable has dimensions. C92_refuted: the level is only checked after the earlier file has been emptied."
  },
  {
   "property": "C93",
   "status": "proved",
   "theorems": [
    "C93_verbose_only_messages"
   ],
   "note": ""
  },
  {
   "property": "C94",
   "status": "partial",
   "theorems": [
    "C94_identity_partial",
    "C94_refuted"
   ],
   "note": "C94_identity_partial: as stated for calls that do not add values that cannot be stored. C94_refuted: such a call leaves the object unprotected, after which the text can change."
  },
  {
   "property": "C95",
   "status": "partial",
   "theorems": [
    "C95_each_alone_partial",
    "C95_order_partial",
    "C95_verify_partial",
    "C95_refuted"
   ],
   "note": "C95_each_alone_partial, C95_order_partial: for added values that can be stored. C95_verify_partial: for data with the order condition of C71. C95_refuted: adding a value that cannot be stored leaves the object unprotected, a different entry can then be changed that is read-only otherwise."
  },
  {
   "property": "C96",
   "status": "proved",
   "theorems": [
    "C96_last_assignment"
   ],
   "note": "for last values that can be stored and calls in between as in C95"
  },
  {
   "property": "C97",
   "status": "partial",
   "theorems": [
    "C97_announced_partial",
    "C97_refuted"
   ],
   "note": "C97_announced_partial: as stated for upgrades that succeed. C97_refuted: an upgrade that fails deletes data before it tries to move them and announces the move afterwards, so the data are lost without a message."
  },
  {
   "property": "C98",
   "status": "partial",
   "theorems": [
    "C98_reference",
    "C98_accepted_partial",
    "C98_refuted"
   ],
   "note": "C98_reference: for units without spaces in any separation. C98_accepted_partial: for every string that verify accepts if no alias contains a space. C98_refuted: an accepted unit of two words raises KeyError, and the documented example is not accepted by verify. The function is not called inside sofar."
  },
  {
   "property": "C99",
   "status": "partial",
   "theorems": [
    "C99_shown_partial",
    "C99_refuted"
   ],
   "note": "C99_shown_partial: for arrays with one axis if one dimension is declared and at least two otherwise, and for all letters but S. C99_refuted: a list assigned to a variable with the single dimension N is stored with shape (1, N) and shown as N=1; the length S of texts is always shown as 1. issue_handling='ignore' is not covered."
  },
  {
   "property": "C100",
   "status": "proved",
   "theorems": [
    "C100_any_order",
    "C100_listed"
   ],
   "note": "For libraries as distributed (db_ok: files named Name_Version.json that state their own name and version, versions written as Python prints numbers). C100_two_forms shows that the order decides if a number is written in two ways. Only texts of exceptions that list versions differ."
  },
  {
   "property": "C101",
   "status": "proved",
   "theorems": [
    "C101_others"
   ],
   "note": "The names of the added conventions have no underscore; C101_underscore shows the interference otherwise. Reading: the file holds the name of its convention only in the global attribute. Upgrading: the rules do not move data into the name of the convention. The content of the added files is arbitrary."
  },
  {
   "property": "C102",
   "status": "proved",
   "theorems": [
    "C102_version"
   ],
   "note": "ASCII white space."
  },
  {
   "property": "C103",
   "status": "partial",
   "theorems": [
    "C103_saved_partial",
    "C103_refuted"
   ],
   "note": "For rules that name every entry once and upgraded objects that files can hold (the conditions of C32). C103_refuted: an attribute with a NUL is kept by the upgrade but not by the file."
  },
  {
   "property": "C104",
   "status": "proved",
   "theorems": [
    "C104_result",
    "C104_returns",
    "C104_complete"
   ],
   "note": "C104_returns excludes attributes of variables whose name holds an underscore (C07 states what happens to them), values that cannot be stored (C05) and private names."
  },
  {
   "property": "C105",
   "status": "proved",
   "theorems": [
    "C105_info"
   ],
   "note": "For csv files that have rows for the six entries that are written at creation and objects with GLOBAL_Version; C57 shows that info raises KeyError for data without an entry."
  },
  {
   "property": "C106",
   "status": "partial",
   "theorems": [
    "C106_offered",
    "C106_nothing_partial",
    "C106_refuted"
   ],
   "note": "C106_offered proves the text and the returned list if targets are offered. C106_nothing_partial proves the message if nothing is offered and the call returns. C106_refuted: a deprecated convention with rules for other versions only raises UnboundLocalError."
  },
  {
   "property": "C107",
   "status": "partial",
   "theorems": [
    "C107_told_partial",
    "C107_stream",
    "C107_refuted"
   ],
   "note": "C107_told_partial and C107_stream prove the lines. C107_refuted: the named entry can be an optional variable that the object does not contain."
  },
  {
   "property": "C108",
   "status": "proved",
   "theorems": [
    "C108_again"
   ],
   "note": "For rules that name every entry once (changes_tidy) and objects with plain data; C75 shows that objects of programs are plain."
  },
  {
   "property": "C109",
   "status": "proved",
   "theorems": [
    "C109_assign_back",
    "C109_all_back"
   ],
   "note": ""
  },
  {
   "property": "C110",
   "status": "partial",
   "theorems": [
    "C110_equally_valid_partial",
    "C110_refuted"
   ],
   "note": "C110_equally_valid_partial proves it for values of the same form (two texts, two numbers, two arrays with the same axes, except for axes of length one at the end), the same order of entries and the same custom entries. C110_refuted: equals removes axes of length one, so Data_IR of shape (1, 2, 2) equals Data_IR of shape (2, 2), but only the first is valid."
  },
  {
   "property": "C111",
   "status": "partial",
   "theorems": [
    "C111_files_decide_partial",
    "C111_refuted"
   ],
   "note": "C111_files_decide_partial: for objects that meet the hypotheses of C33 (storable, regular, faithful, readable_again). Missing: objects whose data do not survive the storage; C111_refuted: titles that differ by a NUL are equal after reading."
  },
  {
   "property": "C112",
   "status": "partial",
   "theorems": [
    "C112_repaired_partial",
    "C112_refuted"
   ],
   "note": "C112_repaired_partial proves it if the name and version of the convention and the data set by the constructor are kept and the deleted data have texts, single numbers or lists of numbers for two to four dimensions as default values. C112_refuted: a list for a dimension of its own, for example default [5, 6] with dimension k, has shape (2,) in a new object but (1, 2) if it is added, and is then rejected."
  },
  {
   "property": "C113",
   "status": "proved",
   "theorems": [
    "C113_reasons",
    "C113_attributes"
   ],
   "note": "For names that do not start with an underscore and values that can be stored; the others are the subject of C08. Unlike the documentation, attributes of variables that start with Data_ have a name of two parts as well (see C07_refuted)."
  },
  {
   "property": "C114",
   "status": "proved",
   "theorems": [
    "C114_assignment",
    "C114_deletion",
    "C114_creation"
   ],
   "note": "For names without leading underscore; assigning to list_dimensions is not modelled. Methods can not be deleted, but the error is a KeyError or AttributeError with the name only (C114_case). Listed versions are in the order of the files."
  },
  {
   "property": "C115",
   "status": "proved",
   "theorems": [
    "C115_wrong_type",
    "C115_wrong_shape",
    "C115_dimension",
    "C115_stream",
    "C115_file",
    "C115_invalid_file",
    "C115_exclusion",
    "C115_foreign_file"
   ],
   "note": "C115_dimension for objects accepted by verify(); C115_stream for names without further underscores, with or without GLOBAL_; C115_invalid_file for conventions whose new objects are valid (see C90). C115_foreign_file: files of unknown conventions or versions. C115_wrong_type and C115_wrong_shape: complete objects; for shapes if the types are correct and verify() can report."
  },
  {
   "property": "C116",
   "status": "partial",
   "theorems": [
    "C116_shown_partial",
    "C116_refuted"
   ],
   "note": "C116_shown_partial for reports without the two texts that are searched for. The full statement is false: a restricted attribute with the value 'variables of wrong shape' is cited in the report and hides the dimensions (C116_refuted)."
  }
 ]
}