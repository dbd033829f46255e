{
 "claims": [
  {
   "property": "C01",
   "status": "proved",
   "theorems": [
    "C01_symbol_roundtrip",
    "C01_symbol_unambiguous",
    "C01_leading_space_refuted"
   ],
   "note": "Hypothesis: package fields do not start with a space (shown necessary); an empty field equals \".\"."
  },
  {
   "property": "C02",
   "status": "proved",
   "theorems": [
    "C02_compose_stable",
    "C02_compose_fresh"
   ],
   "note": ""
  },
  {
   "property": "C03",
   "status": "proved",
   "theorems": [
    "C03_compose_nil",
    "C03_compose_universe",
    "C03_compose_exact",
    "C03_compose_namespaced"
   ],
   "note": ""
  },
  {
   "property": "C04",
   "status": "proved",
   "theorems": [
    "C04_instance",
    "C04_receiver_spelling"
   ],
   "note": ""
  },
  {
   "property": "C05",
   "status": "proved",
   "theorems": [
    "C05_declared_equals_composed",
    "C05_declared_layout"
   ],
   "note": "For variables/constants: declared types must have a common form (see C17). Positions of distinct syntax nodes are distinct (wf_pkg_pos)."
  },
  {
   "property": "C06",
   "status": "partial",
   "theorems": [
    "C06_interface_method_refuted",
    "C06_alias_receiver_refuted",
    "C06_shared_struct_refuted"
   ],
   "note": "The property is false of the code: for each of the three cases the theorem shows the two symbols always differ (findings)."
  },
  {
   "property": "C07",
   "status": "proved",
   "theorems": [
    "C07_distinct_symbols",
    "C07_same_name_shared"
   ],
   "note": "Identity = (kind, owner, name). The second theorem records the limit: repeated init functions / blank identifiers share a symbol."
  },
  {
   "property": "C08",
   "status": "partial",
   "theorems": [
    "C08_kind_partial",
    "C08_type_parameter_refuted"
   ],
   "note": "The code never labels type parameters TypeParameter (finding); all other objects proved."
  },
  {
   "property": "C09",
   "status": "proved",
   "theorems": [
    "C09_locals",
    "C09_locals_in_index"
   ],
   "note": "Under every iteration order of the package table and the locals map, after any history of lookups; C09_locals_in_index states it of every document of a successful run."
  },
  {
   "property": "C10",
   "status": "proved",
   "theorems": [
    "C10_definitions_described",
    "C10_definitions_described_in_index"
   ],
   "note": "Hypotheses: type-checked file, definitions at their identifiers, positions of the file belong to the file. The package clause is described in the document of the first file of the package (C20_described_once)."
  },
  {
   "property": "C11",
   "status": "proved",
   "theorems": [
    "C11_package_level",
    "C11_same_package_not_local",
    "C11_other_file_not_local",
    "C11_local"
   ],
   "note": ""
  },
  {
   "property": "C12",
   "status": "partial",
   "theorems": [
    "C12_forward_reference_refuted",
    "C11_local"
   ],
   "note": "The property is false of the code for references that precede the definition: such a reference never carries the local symbol (C12_forward_reference_refuted, witness F[S ~[]E, E any] in C12_ex); a reference after the definition always does (C11_local)."
  },
  {
   "property": "C13",
   "status": "proved",
   "theorems": [
    "C13_occurrences",
    "C13_nodes_in_source_order"
   ],
   "note": ""
  },
  {
   "property": "C14",
   "status": "proved",
   "theorems": [
    "C14_range_of_positions",
    "C14_range_of_name",
    "C14_document_ranges"
   ],
   "note": ""
  },
  {
   "property": "C15",
   "status": "proved",
   "theorems": [
    "C15_import_range",
    "C15_vendored_refuted"
   ],
   "note": "Holds when the package path is the literal text; C15_vendored_refuted shows the range is wrong otherwise."
  },
  {
   "property": "C16",
   "status": "proved",
   "theorems": [
    "C16_partition"
   ],
   "note": ""
  },
  {
   "property": "C17",
   "status": "partial",
   "theorems": [
    "C17_value_symbol_partial",
    "C17_disturbed_refuted",
    "C17_parenthesised_type_refuted"
   ],
   "note": "Complete on both sides: true when every earlier spec of the same group has a type of common form; otherwise false for every later variable of the group (C17_disturbed_refuted, finding)."
  },
  {
   "property": "C18",
   "status": "proved",
   "theorems": [
    "C18_deprecated_text",
    "C18_definitions",
    "C18_references",
    "C18_only_deprecated"
   ],
   "note": ""
  },
  {
   "property": "C19",
   "status": "partial",
   "theorems": [
    "C19_documentation_partial",
    "C19_entries",
    "C19_nested_group_refuted"
   ],
   "note": "All declarations except values that follow, in their own group, a spec with a function literal containing a var or const group (refuted there)."
  },
  {
   "property": "C20",
   "status": "proved",
   "theorems": [
    "C20_package_docs",
    "C20_described_once"
   ],
   "note": ""
  },
  {
   "property": "C21",
   "status": "proved",
   "theorems": [
    "C21_no_panic",
    "C21_panics_iff",
    "C21_bare_package_name_refuted",
    "C21_index_no_crash",
    "C21_search_no_crash",
    "search_contract",
    "C21_run_no_crash"
   ],
   "note": "Holds for type-checked files, for the whole run with any implementation search that meets its contract (C21_index_no_crash), and with the modelled search (C21_run_no_crash, search_contract); with the type error \"use of package without selector\" it panics (C21_bare_package_name_refuted)."
  },
  {
   "property": "C22",
   "status": "proved",
   "theorems": [
    "C22_last_change_wins",
    "C22_unregistered"
   ],
   "note": ""
  },
  {
   "property": "C23",
   "status": "proved",
   "theorems": [
    "C23_history_independent"
   ],
   "note": ""
  },
  {
   "property": "C24",
   "status": "proved",
   "theorems": [
    "C24_resolution"
   ],
   "note": ""
  },
  {
   "property": "C25",
   "status": "proved",
   "theorems": [
    "C25_path_and_version_nonempty",
    "C25_loaded",
    "C25_known_version",
    "C25_unknown_version",
    "C25_replacement",
    "C25_local_module",
    "C25_idempotent",
    "C25_idempotent_refuted"
   ],
   "note": "Idempotence needs the option versions to be settled (not themselves a pseudo-version etc.); C25_idempotent_refuted shows it fails otherwise (finding)."
  },
  {
   "property": "C26",
   "status": "proved",
   "theorems": [
    "C26_reachable_packages_loaded",
    "C26_project_packages",
    "C26_smaller_variant_refuted"
   ],
   "note": "Under variants_agree (a variant with at least as many files imports at least the same paths, or the package is a root); also met by packages recompiled for a test (C27_recompiled_example in ExOnce.v). C26_smaller_variant_refuted shows that the hypothesis is necessary (finding)."
  },
  {
   "property": "C27",
   "status": "proved",
   "theorems": [
    "C27_largest_variant_recorded",
    "C27_visited_covered",
    "C27_traversal_terminates",
    "C27_traversal_progress",
    "C27_order_independent",
    "C27_std_prefix_refuted"
   ],
   "note": "Paths without std/ prefix; C27_std_prefix_refuted shows the failure otherwise (finding)."
  },
  {
   "property": "C28",
   "status": "proved",
   "theorems": [
    "C28_standard_library",
    "C28_standard_library_unknown_version",
    "C28_driver",
    "C28_builtin_entry"
   ],
   "note": ""
  },
  {
   "property": "C29",
   "status": "proved",
   "theorems": [
    "C29_package_symbols"
   ],
   "note": ""
  },
  {
   "property": "C30",
   "status": "proved",
   "theorems": [
    "C30_identical_types"
   ],
   "note": "Full: identical signature types get the same text and flag and fail alike, for every Unicode table."
  },
  {
   "property": "C31",
   "status": "proved",
   "theorems": [
    "C31_same_structure",
    "C31_identical_iff",
    "C31_encodable_iff",
    "C31_local_types_refuted"
   ],
   "note": "Full. C31_encodable_iff: exactly which types have a fingerprint. C31_local_types_refuted: equal fingerprints do not imply identical types when two function-local types share package and name."
  },
  {
   "property": "C32",
   "status": "proved",
   "theorems": [
    "C32_filters_lose_nothing",
    "C32_checks_exact",
    "C32_mask_fits"
   ],
   "note": "For every checksum function. types.Identical and the method comparison of types.Implements are modelled; the type-set part of constraint interfaces is an oracle."
  },
  {
   "property": "C33",
   "status": "partial",
   "theorems": [
    "C33_unexported_filter_partial",
    "C33_embedded_refuted"
   ],
   "note": "The property is false of the code: C33_embedded_refuted is a program in which a type implements an interface of the project with unexported methods through an embedded type of another package and gets no relationship. Proved when the unexported methods of both types are declared in their own packages."
  },
  {
   "property": "C34",
   "status": "proved",
   "theorems": [
    "C34_exact",
    "C34_order_independent",
    "C34_documents",
    "C34_irreflexive_refuted"
   ],
   "note": "Exact characterisation over all programs, iteration orders and cache states, also end to end through Index (C34_documents); \"the interfaces that pass the checks\" = those it implements that are not sealed or are of the same package (C32, C33). Hypothesis: no two candidate types share a symbol. C34_irreflexive_refuted: a method can become an implementation of itself."
  },
  {
   "property": "C35",
   "status": "proved",
   "theorems": [
    "C35_external_symbols",
    "C34_documents"
   ],
   "note": ""
  },
  {
   "property": "C36",
   "status": "proved",
   "theorems": [
    "C36_candidates"
   ],
   "note": ""
  },
  {
   "property": "C37",
   "status": "proved",
   "theorems": [
    "C37_parse",
    "C37_text",
    "C37_matches_self",
    "C37_matches_equal",
    "C37_matches_instance",
    "C37_typeparam_name_refuted",
    "C37_nontermination_refuted",
    "C37_index_panic_refuted",
    "C37_negative_array_refuted"
   ],
   "note": "Proved for types in which nothing is called typeparam and, for matching, when at most one side has type parameters; the _refuted theorems show that each restriction is needed (Matches panics or runs forever otherwise). scip-go itself calls only Encode."
  },
  {
   "property": "C38",
   "status": "proved",
   "theorems": [
    "C38_emission_order",
    "C38_write_failure",
    "C38_load_failure",
    "C38_search_failure"
   ],
   "note": ""
  },
  {
   "property": "C39",
   "status": "proved",
   "theorems": [
    "C39_concatenation_is_index",
    "C39_truncated_rejected",
    "C39_marshal_fails_iff"
   ],
   "note": "Wire format of scip.proto modelled byte for byte (varints, length-delimited fields, packed ints, UTF-8 check, merge of repeated singular messages). Hypotheses: total size below 2^63, ranges and roles are int32. Output cut inside a message is never accepted. Non-UTF-8 strings make the writer, hence the run, fail."
  },
  {
   "property": "C40",
   "status": "partial",
   "theorems": [
    "C40_success",
    "C40_success_decodes",
    "C40_failure_removes",
    "C40_early_failure",
    "C40_only_output_touched",
    "C40_exit_code",
    "C40_killed",
    "C40_crash_leaves_file_refuted",
    "C40_failure_destroys_previous_refuted",
    "C40_symlink_refuted",
    "C40_remove_failure_refuted"
   ],
   "note": "The property as stated holds for errors returned by indexing when the output path is not a symbolic link and stat/remove succeed (C40_failure_removes); success, never-removed and exit-code parts hold in general. It is false after a crash, through a symlink and when os.Remove fails (refuted with witnesses), so the full statement is not provable. After a kill the file is rejected or decodes as a silently incomplete index (C40_killed)."
  },
  {
   "property": "C41",
   "status": "proved",
   "theorems": [
    "C41_returns_after_worker",
    "C41_progress",
    "C41_shown",
    "C41_screen",
    "C41_every_step_progresses",
    "C41_can_always_return",
    "C41_index_worker",
    "C41_search_counter"
   ],
   "note": "Full: small-step semantics of the worker, the waiter goroutine, the ticker and the printer; every interleaving. C41_shown: each progress line shows the number of packages finished at a moment before it. C41_screen: the bytes on the screen."
  },
  {
   "property": "C42",
   "status": "proved",
   "theorems": [
    "C42_every_file_has_document",
    "C42_list_missing_empty"
   ],
   "note": "Consequence: the -list-missing command can never report anything (finding)."
  },
  {
   "property": "C43",
   "status": "proved",
   "theorems": [
    "C43_get_packages",
    "C43_order_independent"
   ],
   "note": ""
  },
  {
   "property": "C44",
   "status": "proved",
   "theorems": [
    "C44_relative_path_resolves",
    "C44_join_resolves",
    "C44_distinct_files",
    "C44_below_root",
    "C44_outside_root"
   ],
   "note": ""
  },
  {
   "property": "C45",
   "status": "partial",
   "theorems": [
    "C45_search_terminates",
    "C45_nearest_outside_repository_partial",
    "C45_refuted_inside_repository",
    "C45_nearest_gomod_refuted"
   ],
   "note": "Termination and the search outside a repository are proved; inside a repository the code does not stop at its root as intended / misses go.mod there (finding, refuted)."
  },
  {
   "property": "C46",
   "status": "proved",
   "theorems": [
    "C46_repository_name",
    "C46_same_name",
    "C46_escaped_path",
    "C46_bad_escape",
    "C46_no_scheme",
    "C46_absolute_scp_refuted",
    "C46_other_user_refuted"
   ],
   "note": "The refuted theorems show remote forms outside the property (absolute scp path, other user) that give another name."
  },
  {
   "property": "C47",
   "status": "proved",
   "theorems": [
    "C47_version_tag",
    "C47_other_tag",
    "C47_commit",
    "C47_short_commit",
    "C47_git_fails"
   ],
   "note": "C47_short_commit: with fewer than 12 characters the program panics."
  },
  {
   "property": "C48",
   "status": "partial",
   "theorems": [
    "C48_explicit_name",
    "C48_go_mod",
    "C48_unparsable_go_mod",
    "C48_repository",
    "C48_failure_reported_refuted",
    "C48_no_module_line_refuted"
   ],
   "note": "Precedence proved; \"a failure is reported\" is false of the code (finding: the error is swallowed), refuted."
  },
  {
   "property": "C49",
   "status": "proved",
   "theorems": [
    "C49_close",
    "C49_precise",
    "C49_stable",
    "C49_monotone"
   ],
   "note": ""
  },
  {
   "property": "C50",
   "status": "proved",
   "theorems": [
    "C50_quiet",
    "C50_verbosity",
    "C50_negative_refuted"
   ],
   "note": ""
  },
  {
   "property": "C51",
   "status": "proved",
   "theorems": [
    "C51_tags_in_backticks",
    "C51_no_quotes",
    "C51_invalid_literals_kept",
    "C51_unterminated_refuted",
    "C51_backtick_in_tag_refuted"
   ],
   "note": "For renderings whose double-quoted literals are complete (every go/types rendering is). strconv.Unquote modelled against a separate specification of Go string literals. Findings: an unterminated quote is dropped; a tag containing a backtick gives text that is not valid Go."
  },
  {
   "property": "C52",
   "status": "proved",
   "theorems": [
    "C52_anonymous_members",
    "C52_value_members",
    "C52_identical_types_share",
    "C52_different_types_differ",
    "C52_no_clash"
   ],
   "note": "Canonical text of an anonymous type is an oracle (types.TypeString of its go/types type); distinct symbols assume the digest distinguishes the texts."
  },
  {
   "property": "C53",
   "status": "proved",
   "theorems": [
    "C53_declarations_in_index"
   ],
   "note": "Hypotheses exclude the blank identifier, identifiers at the position of a case-clause object and embedded fields for the occurrence; value declarations need the common-type hypothesis of C06."
  },
  {
   "property": "C54",
   "status": "proved",
   "theorems": [
    "C54_references_in_index"
   ],
   "note": ""
  },
  {
   "property": "C55",
   "status": "proved",
   "theorems": [
    "C55_quiet_stdout",
    "C55_stdout",
    "C55_nothing_else",
    "C55_default_stdout_refuted",
    "C55_progress_on_stdout_refuted"
   ],
   "note": "Holds with -q, for the whole command (C55_stdout: what is printed is derived from the log level through WithProgress and WithProgressParallel); without it the progress text corrupts the index (the _refuted theorems)."
  },
  {
   "property": "C56",
   "status": "proved",
   "theorems": [
    "C56_cross_repository",
    "C56_release_version",
    "C56_commit_version",
    "C56_nested_module_refuted",
    "C56_two_tags_refuted"
   ],
   "note": "Interface methods, methods declared through an alias and fields of shared structs are excluded by the statement (the C06 _refuted theorems show that their symbols differ). The default version differs from the required one for modules in subdirectories (tag sub/v1.2.3) and for commits with several version tags (refuted)."
  },
  {
   "property": "C57",
   "status": "proved",
   "theorems": [
    "C57_deterministic",
    "C57_success_independent",
    "C57_type_switches"
   ],
   "note": "For the implementation search of the code. Hypothesis: distinct types have distinct symbols (fails for two blank-named types). C57_type_switches: nor does it depend on the iteration order of the implicit objects of type switches. The order of symbol information within a document and of external symbols does depend on map iteration."
  },
  {
   "property": "C58",
   "status": "proved",
   "theorems": [
    "C58_navigation_in_file",
    "C58_type_switch"
   ],
   "note": "Labels are excluded (their uses are local references, C11_local). Uses before the definition: C12."
  },
  {
   "property": "C59",
   "status": "partial",
   "theorems": [
    "C59_function_locals_partial",
    "C59_distinct_locals_partial",
    "C59_function_literal_refuted"
   ],
   "note": "Proved for function declarations and type parameters of types. False inside function literals that initialise package-level variables, whose parameters and var declarations become global symbols that collide (C59_function_literal_refuted)."
  },
  {
   "property": "C60",
   "status": "partial",
   "theorems": [
    "C60_flags_win",
    "C60_remote",
    "C60_git_remote",
    "C60_no_remote",
    "C60_root_absolute",
    "C60_defaults",
    "C60_driver_partial",
    "C60_other_root_refuted",
    "C60_empty_driver_refuted",
    "C60_path_driver_refuted",
    "C60_subdirectory_refuted"
   ],
   "note": "Missing because false of the code: with --module-root the version is inferred from the working directory, not the module indexed; GOPACKAGESDRIVER=\"\" is taken for a driver and a driver found in PATH is not noticed; in a subdirectory the module of the enclosing go.mod is not found."
  },
  {
   "property": "C61",
   "status": "partial",
   "theorems": [
    "C61_declared_hover_partial",
    "C61_local_hover_partial"
   ],
   "note": "Documentation and value symbols need no function literal with declarations earlier in the same group (false otherwise: C17, C19); local symbols as in C59. Signatures are those of C62 (C62_signature_in_index)."
  },
  {
   "property": "C62",
   "status": "partial",
   "theorems": [
    "C62_values",
    "C62_type_texts",
    "C62_types_partial",
    "C62_paths_irrelevant_partial",
    "C62_nonempty",
    "C62_signature_in_index",
    "C62_type_parameters_refuted",
    "C62_alias_constraint_refuted",
    "C62_local_packages_refuted"
   ],
   "note": "types.TypeString and ObjectString modelled in full from memory; go/format is an oracle assumed to change layout only. C62_type_texts: the type texts follow the Go grammar, which SpecTypeText.v states independently of the printer. False of the code, with witnesses: a generic type declaration does not show its type parameters; constraints of generic aliases are written with import paths; local symbols drop package names."
  },
  {
   "property": "C63",
   "status": "partial",
   "theorems": [
    "C63_type_members",
    "C63_anonymous_members_partial",
    "C63_value_members_partial",
    "C63_embedded_refuted",
    "C63_slice_refuted",
    "C63_behind_refuted",
    "C63_type_slice_refuted",
    "C63_inline_refuted"
   ],
   "note": "Proved for all named and embedded members (of names, pointers, qualified and instantiated names) in type declarations and in literals nested in their fields, for every field, method or parameter declared in the literal type or in the initial value of package-level variables (any number of names, composite literals, function literals), and there for embedded fields whose type begins with the name. False: every member behind a slice, array, map, pointer, channel or function type in the declared type of a variable or in the type of a type declaration, and every member behind a channel, function type or parentheses in a field, is only document-local (C63_behind_refuted, for all programs; C63_slice_refuted and C63_type_slice_refuted show that uses in other files are then no references). False, with witnesses, also for embedded pointers and qualified types in the struct type of a variable (registered at the star or package name), and for specs with several variables at the same line and column of two files (shared symbols)."
  },
  {
   "property": "C64",
   "status": "proved",
   "theorems": [
    "C64_index_file",
    "C64_ends",
    "C64_failure",
    "C64_no_crash"
   ],
   "note": "The composition of all parts: options, loading, both passes, search, output file. Hypotheses: what the go command and go/types guarantee about the packages (go_works). Index files of 2^63 bytes or more are excluded. Example: ExEnd.v."
  },
  {
   "property": "C65",
   "status": "proved",
   "theorems": [
    "C65_project_root",
    "C65_injective"
   ],
   "note": "net/url is modelled from memory (Url.v)."
  },
  {
   "property": "C66",
   "status": "partial",
   "theorems": [
    "C66_every_message_encodes_partial",
    "C66_succeeds_partial",
    "C66_signature_texts",
    "C66_signatures",
    "C66_invalid_signature_fails",
    "C66_tag_refuted"
   ],
   "note": "Proved: a run whose texts are valid succeeds if every tag in the type of a declared field is valid UTF-8, and such tags are the only obstacle (C66_signature_texts, C66_signatures are equivalences). False in general: a tag such as \"\\xff\" in an anonymous struct type makes the whole run fail (C66_tag_refuted)."
  },
  {
   "property": "C67",
   "status": "proved",
   "theorems": [
    "C67_references_precise",
    "C67_definitions_precise",
    "C67_descriptions_precise",
    "C67_type_parameter_refuted"
   ],
   "note": "Proved with the exception written in the property; C67_type_parameter_refuted shows that the exception cannot be dropped (finding 20). Example: ExPrecise.v."
  },
  {
   "property": "C68",
   "status": "partial",
   "theorems": [
    "C68_result_methods",
    "C68_result_methods_navigate_partial",
    "C68_distinct",
    "C68_struct_result_refuted",
    "C68_two_results_refuted"
   ],
   "note": "Proved for the methods of interface literals anywhere in the results (through structs, maps, slices, pointers, channels, results of function types). False of the code: fields of struct literals in results are only local (C68_struct_result_refuted); two interface literals in the results of one function share the symbols of equally named methods (C68_two_results_refuted)."
  },
  {
   "property": "C69",
   "status": "proved",
   "theorems": [
    "C69_occurrences",
    "C69_identifiers",
    "C69_selects_unique",
    "C69_other_units",
    "C69_line_directive",
    "C69_directive_line",
    "C69_line_directive_refuted",
    "C69_characters_refuted"
   ],
   "note": "go/token is modelled from memory (Source.v: line tables, line directives, file sets). C69_line_directive_refuted shows why line directives are excluded (finding 22); C69_characters_refuted that clients which count characters instead of bytes select another text on lines that are not ASCII (the documents leave the position encoding unspecified, finding 23), C69_other_units that on ASCII lines all encodings agree. Example: ExSource.v. C69_line_directive: after a directive with a column the ranges select the text in the file the directive names; C69_directive_line: without a column the line is still right."
  },
  {
   "property": "C70",
   "status": "proved",
   "theorems": [
    "C70_one_definition",
    "C70_one_description",
    "C70_init_refuted"
   ],
   "note": "Positions (document number, occurrence number) are shown equal, so duplicates are excluded, not only different places. C70_init_refuted: all functions named init of a package share one symbol, which then has several definitions (finding 24). Example: ExUnique.v."
  },
  {
   "property": "C71",
   "status": "proved",
   "theorems": [
    "C71_packages",
    "C71_packages_deterministic",
    "C71_readable",
    "C71_missing",
    "C71_missing_no_crash",
    "C71_ends"
   ],
   "note": "C71_missing shows that the missing command can never report anything (finding 25). Example: ExCommands.v."
  },
  {
   "property": "C72",
   "status": "proved",
   "theorems": [
    "C72_profile",
    "C72_profile_possible",
    "C72_no_profile",
    "C72_profile_error",
    "C72_same_file_refuted"
   ],
   "note": "C72_same_file_refuted shows why the output must be another file (finding 26). The profile (runtime/pprof) is an arbitrary text. Example: ExCommands.v."
  },
  {
   "property": "C73",
   "status": "proved",
   "theorems": [
    "C73_imports",
    "C73_qualifiers",
    "C73_clauses",
    "C73_in_project",
    "C73_cross_repository",
    "C73_only_clauses",
    "C73_only_imports"
   ],
   "note": "Module paths and versions that start with a space are excluded in the two precision theorems (symbols would be ambiguous, C01). Example: ExImport.v."
  },
  {
   "property": "C74",
   "status": "partial",
   "theorems": [
    "C74_stable",
    "C74_followed",
    "C74_removed",
    "C74_changed",
    "C74_members",
    "C74_inline_refuted"
   ],
   "note": "Proved for package-level declarations (values as in C17: no earlier spec of unusual form in the group) and for members of anonymous types in type declarations and in the declared type of variables. False for members of anonymous types in specs with several variables: their symbol contains line and column of the spec (C74_inline_refuted)."
  },
  {
   "property": "C75",
   "status": "partial",
   "theorems": [
    "C75_described_defined_partial",
    "C75_unnamed_described",
    "C75_unnamed_refuted"
   ],
   "note": "Proved for every description except those of blank names and of unnamed fields, parameters, results and embedded elements at whose registered position go/types records no definition. False of the code there: each unnamed parameter or result type in a function literal of a package-level variable becomes a described symbol (C75_unnamed_described, for all programs) that nothing defines (C75_unnamed_refuted). Example: ExDefined.v."
  },
  {
   "property": "C76",
   "status": "proved",
   "theorems": [
    "C76_only_relationships",
    "C76_always_succeeds",
    "C76_whole_command",
    "C76_still_succeeds"
   ],
   "note": "For Index and for the whole command (C76_whole_command: the decoded files of two runs; C76_still_succeeds: the flag never makes a run fail). Map iteration orders and search schedules of the two runs are independent. Examples: ExSkip.v, ExSkipRun.v."
  },
  {
   "property": "C77",
   "status": "proved",
   "theorems": [
    "C77_implementations",
    "C77_leads_to_definition",
    "C77_methods",
    "C77_external"
   ],
   "note": "In terms of declarations; the facts about go/types scopes it needs are listed in scopes_ok (PropFind.v). Satisfaction is that of C34. Example: ExFind.v."
  },
  {
   "property": "C78",
   "status": "partial",
   "theorems": [
    "C78_remote_interface",
    "C78_remote_type",
    "C78_remote_method_refuted"
   ],
   "note": "Proved for types and interfaces in both directions. False for methods: no method of B is ever related to the symbol that the index of A defines at an interface method (C78_remote_method_refuted, for all programs; finding 28). Example: ExFindCross.v."
  },
  {
   "property": "C79",
   "status": "proved",
   "theorems": [
    "C79_same_load",
    "C79_same_index",
    "C79_same_success"
   ],
   "note": "For runs that load the same packages; the facts about Go it needs are go_works (PropEnd.v), one package per path in a build (one_build; without it the tables can differ: C79_needs_one_build, ExOnce.v) and scopes_ok (PropFind.v). Examples: ExOnce.v, with two runs whose files differ in their bytes, and a package graph with recompiled test variants."
  },
  {
   "property": "C80",
   "status": "proved",
   "theorems": [
    "C80_same_index",
    "C80_same_success"
   ],
   "note": "For every rearrangement of positions that is one to one, keeps token.NoPos and moves an identifier as a whole (same_but_positions, PropMove.v; it may even split a file). Reduced to C79: the second run is, step by step, a run at the positions of the first with other map iteration orders. Pointers of nodes and objects are names only and are kept. Example: ExMove.v, with every identifier moved."
  },
  {
   "property": "C81",
   "status": "partial",
   "theorems": [
    "C81_same_documents_partial",
    "C81_same_definitions",
    "C81_interface_method_refuted",
    "C81_alias_receiver_refuted",
    "C81_deprecated_refuted"
   ],
   "note": "part_of, same_use and same_imports (PropPart.v) say what the two loads have in common; positions of the files of the smaller project are the same in both (C80 is about other positions). Proved for all references to package-level declarations that the code names alike from source and from export data (object_of_key, C05), and, whatever the file refers to, for definitions and symbol information. False of the code for references to methods of interfaces of another package and to methods declared on an alias (C81_interface_method_refuted, C81_alias_receiver_refuted, for all programs; finding of C06), and the deprecation marks differ, since export data has no documentation (C81_deprecated_refuted). Not claimed: references to fields of anonymous struct types of other packages. Examples: ExPart.v, ExPartMethod.v."
  },
  {
   "property": "C82",
   "status": "proved",
   "theorems": [
    "C82_other_documents",
    "C82_edited_document",
    "C82_whole_command"
   ],
   "note": "outline, same_declarations, edited, untouched (PropEdit.v) say what an edit keeps. C82_other_documents and C82_edited_document are about the index of a loaded project, with the text of the second project at the token.Pos of the first; C82_whole_command is about two runs of the command whose files may be at any other positions (SpecMove.v) and that load the packages again. Line numbers of edited files may change, except of var and const specs with several names, whose line and column are part of the symbols of the members of their type: there the property is false of the code (C74_inline_refuted). Up to relationships, as edited bodies cannot change them but C57/C79 treat them. Examples: ExEdit.v, ExEditRun.v."
  },
  {
   "property": "C83",
   "status": "proved",
   "theorems": [
    "C83_same_index",
    "C83_moved",
    "C83_in_place"
   ],
   "note": "comments_only, same_files, groups_stay, recommented_index (SpecComment.v) and same_but_comments (PropComment.v) say what a change of comments keeps. C83_moved is C83_same_index for files at other positions of the FileSet (longer comments make longer files). The line and column of a var or const with several names must stay: they are part of the symbols of the members of its type (C74_inline_refuted). That the second run succeeds is not claimed: a comment that is not UTF-8 cannot be written. Pointers of nodes are names only and are kept. Proved by a relation between the two runs that is kept by every step of both passes, the search and the loader. Example: ExComment.v."
  },
  {
   "property": "C84",
   "status": "proved",
   "theorems": [
    "C84_other_documents",
    "C84_whole_command"
   ],
   "note": "grown, laid_out, refers_back (PropGrow.v) say what an addition keeps: module and path of the packages that were there, their files and the facts go/types has about them; laid_out is what go/parser gives (a name of a file is behind its package clause and in that file). refers_back: the file refers to no added declaration or package, as every file of a project that compiled before. The information about the package itself is left out: it is recorded with the first file, which an added file can be (C84_package_moves), and its documentation comes from all files. Up to relationships, which added types can change (C57). C84_other_documents is about the index of a loaded project with the old files at the same token.Pos; C84_whole_command is about two runs of the command, the files at any positions. Examples: ExGrow.v (a file and a package added), ExGrowRun.v (doc.go added before p.go, the whole command)."
  },
  {
   "property": "C85",
   "status": "proved",
   "theorems": [
    "C85_same_documents"
   ],
   "note": "el_fset, el_paths, el_near, el_options (SpecElsewhere.v) and same_elsewhere (PropElsewhere.v) say what moving a checkout keeps: [el] is an injection of paths, the files of the packages have the same path relative to the project root, the same base name and extension, module directories are nested in the root if and only if they were, go.mod files and repositories are the same; flags, arguments and environment are free as long as make_options gives the same options but for the root. The second run needs no guarantees of its own but map iteration orders. That the second run succeeds is not claimed. The metadata differs in the project root (and arguments): C85_not_empty."
  }
 ]
}