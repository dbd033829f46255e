# Formal model of scip-go: design

The model is written in Coq 8.16.1 (standard library and std++), in `rocq/theories`. It is a
function-by-function transcription of the Go sources under /repo into total, computable Gallina; every
definition cites the file and lines it models, and says where it simplifies. The model is executable: the
`Ex*.v` files run whole projects through it with `vm_compute`.

## Conventions

* Go `string` = Coq `string` (a sequence of bytes).
* Go pointers whose identity matters (`*ast.Ident`, `types.Object`, `*packages.Package`,
  `*scip.SymbolInformation`) carry a numeric identity; memory shared through pointers is a heap or an explicit
  table (`P_Mem`).
* `panic` is a value (`Panic`), an `error` return is a value. Nothing in the model is partial: loops whose
  termination is not structural carry fuel, with theorems that the fuel given suffices (or that no fuel suffices:
  `C37_nontermination_refuted`).
* Go map iteration order is an explicit argument (any permutation of the entries), and theorems quantify over it.
* Concurrency (`internal/output`) is a small-step interleaving semantics; theorems quantify over schedules.
* packages.Load parses files at the same time; which positions (token.Pos) they get depends on the schedule.  That is
  modelled by its effect: any one-to-one rearrangement `mv` of positions that keeps NoPos and moves an identifier as a
  whole (`SpecMove`), and C80 says that the index does not depend on it.
* External code (go/types, go/packages, the file system, git, sha256, crc32, vcs, go/format) is a parameter of the
  model or is modelled from its documentation; what is assumed about it is a visible hypothesis of the theorem.
* Go slices are lists. `append(s.scope.descriptors, d)` can share a backing array with the scope, but the result
  is consumed by FormatSymbol before the next push, so no aliasing is observable.
* `Theorem C.._refuted` shows, with a witness program (or for a whole family), that the English property does not
  hold of the code. `_partial` marks a theorem that proves less than the English statement.

## Layout

| files | contents |
|---|---|
| GoStr, Regex, Semver, Quote, Paths | Go's `strings`, `regexp` (anchored patterns), `x/mod/semver` and pseudo-versions, `strconv.Unquote`, `path/filepath` on Unix |
| Scip, Proto | SCIP messages, `FormatSymbol`, `CanonicalizeRelationships` (scip bindings v0.7.1); the protobuf wire format |
| GoTypes, Ast, Packages, Source | what scip-go reads of go/types, go/ast, go/packages; go/token on source text |
| Symbols | internal/symbols |
| Document, Signature | internal/document (hover text, struct tags; signatures with the printer of go/types) |
| Lookup | internal/lookup |
| Pass1, Pass2 | internal/visitors: the declaration pass; the file visitor |
| Loader | internal/loader, internal/config, `GetPackages` |
| Index | internal/index: `Index`, `indexVisitPackages`, `ListMissing`, package descriptions |
| Fingerprint, Impls | internal/implementations with its fingerprint package |
| Output | internal/output |
| Env | internal/git, internal/modules, internal/command, durations, log level |
| Cli, Options, Url | cmd/scip-go; the file URL of the project root |
| Program | the whole command, as the composition of the other files |
| Snapshot, Snap*.v | the model run on the test directories of /repo (below) |
| Spec*.v | specifications, independent of the model's functions |
| Prop*.v | the property theorems; `P_*.v` the proofs they use; `Ex*.v` the programs that meet their hypotheses |

## Trusted base

* The kernel of Coq 8.16.1 and `vm_compute`. No axioms: every theorem of the manifest is followed by `Print
  Assumptions` or rests only on such theorems, and each prints `Closed under the global context`. (The library
  std++ loads the standard library's ssreflect, whose module `Coq.ssr.ssrunder.Under_rel` contains seven opaque
  parameters implemented in the same file; the gate lists them as library axioms. No theorem depends on them.)
* The transcription: that the Gallina definitions do what the cited Go lines do.
* The models of code that is not in /repo, written from memory of its published source or documentation:
  the scip bindings, the protobuf runtime for scip.proto, x/mod semver and pseudo-versions, path/filepath,
  strconv.Quote/Unquote, text/scanner, net/url (remotes, and escaping of paths in file URLs), go/types' Identical, Implements, method sets,
  TypeString and ObjectString, typeutil.IntuitiveMethodSet, go/token (line tables, line directives).
* The contracts assumed of go/types and go/packages, all stated as hypotheses in `SpecOcc` (`typed_file`: which
  objects the type checker records at which identifiers; `defs_at_idents`), `SpecLookup` (`go_object`),
  `SpecDecl` (`wf_pkg_pos`: distinct identifiers have distinct positions) and `SpecIndex` (`indexable`); for the
  whole command they are collected in `PropEnd` (`go_guarantees`, `go_works`).
  `Ex*.v` shows that concrete projects satisfy them.

### Validation against the project's own tests

/repo/internal/testdata/snapshots has 22 input directories and the golden files that the test
`internal/index/scip_test.go` expects for them: every source line with the occurrences, symbols, kinds, signatures,
documentation, relationships, diagnostics and enclosing ranges of the index. `Snapshot.v` is an executable front end
of the model of `index.Index` (loader, both passes, search for implementations; `load_run_sound`: its loader is an
execution of the model's `load_packages`) followed by the test's formatter; `Snap*.v`, one per directory, prove
by computation that **the model's output equals the golden files byte for byte, for all 22 directories**. These are
tests, not proofs of any property: they are evidence for the transcription. The inputs (what packages.Load would
return: syntax trees, `types.Info`, scopes, method sets, modules) come from `tools/snapshot` (`gofront.py`: a scanner,
parser and type checker for the Go that the directories use; `stubs.py`: the declarations they use of the standard
library; `emit.py`: the Coq terms, the sha256 sums and the results of go/format); texts of types and objects are
printed by the model. The golden files contain the output of the code at this commit with its real dependencies, so
they also check the models of the scip bindings, go/types' printer and go/token. (This found one error: go/types
separates type arguments by ", " since Go 1.25, the model had ",".)

The same directories test the hypotheses. `Contract.v` has a decision procedure for everything that the theorems about
an indexed project assume (`indexable`, `analysable`, `iteration_ok` of `search_indexed`, and `scopes_ok` and
`wf_pkg_pos`), with a proof that passing it gives the hypotheses (`contract_ok`, `scopes_contract_ok`); each `Snap*.v`
evaluates it: all 22 directories meet all of them, so the theorems apply to real programs.

### Not modelled

* The go command, packages.Load and the type checker: their results are inputs.
* Parsing of Go source and of the command line (kong), the text of log messages and of progress
  lines other than that it is printed (C55), and time (durations are inputs).
* sha256, crc32 and the vcs library: functions of which nothing is assumed, except, where a theorem says so, that
  a digest distinguishes the texts at hand.
* go/format (in signatures): an oracle assumed to change layout only, where used.
* Files outside the Unix path syntax (Windows).
* Memory exhaustion, and integer overflow except where the code converts to int32 (C14, C15).
* Test helpers (`internal/testutil`, `*_test.go`), and generated or vendored code.

## Properties

| id | property | status | modelled and how it is proved | theorems |
|---|---|---|---|---|
| C01 | Global symbol strings are unambiguous | proved | FormatSymbol of the scip bindings against an independent reader of symbol strings (SpecSymbol). Round trip; injectivity follows. | PropSymbols: `C01_symbol_roundtrip`, `C01_symbol_unambiguous`, `C01_leading_space_refuted` |
| C02 | Composed symbols do not depend on call history | proved | the composer as a state machine with its cache. Invariant over all call histories. | PropSymbols: `C02_compose_stable`, `C02_compose_fresh` |
| C03 | Compose yields a symbol exactly for nameable objects | proved | Compose. Decision rule as an equivalence. | PropSymbols: `C03_compose_nil`, `C03_compose_universe`, `C03_compose_exact`, `C03_compose_namespaced` |
| C04 | Instances and receiver spelling do not change a symbol | proved | Compose and the naming of receiver types. Induction on types. | PropSymbols: `C04_instance`, `C04_receiver_spelling` |
| C05 | A declaration has the same symbol when indexed and when used as a dependency | proved | the declaration pass and Compose: both equal one layout of descriptors per kind of declaration (SpecDecl). | PropDecl: `C05_declared_equals_composed`, `C05_declared_layout` |
| C06 | Cross-index agreement also holds for interface methods, alias receivers and shared struct fields | partial | as C05. False of the code in three families of programs; refuted for every program of each family. | PropDecl: `C06_interface_method_refuted`, `C06_alias_receiver_refuted`, `C06_shared_struct_refuted` |
| C07 | Different package-level declarations have different symbols | proved | the events of the declaration pass. Injectivity of symbols (C01) and of declarations' identities. | PropDecl: `C07_distinct_symbols`, `C07_same_name_shared` |
| C08 | The kind attached to a symbol matches the kind of Go object | partial | KindForObject by cases on objects. False for type parameters (refuted). | PropSymbols: `C08_kind_partial`, `C08_type_parameter_refuted` |
| C09 | Local symbols are unique per document | proved | the file visitor's numbering. Invariant over the traversal, for every iteration order of the locals map. | PropOcc: `C09_locals`; PropIndex: `C09_locals_in_index` |
| C10 | Every definition occurrence is described in its own document | proved | both passes. Invariant of the traversal plus the partition of C16. | PropOcc: `C10_definitions_described`; PropIndex: `C10_definitions_described_in_index` |
| C11 | Go-to-definition: a reference carries the symbol of its definition | proved | both passes and lookup. Determinism of the tables plus the occurrence specification of C13. | PropOcc: `C11_package_level`, `C11_same_package_not_local`, `C11_other_file_not_local`, `C11_local` |
| C12 | Locals referenced before their definition still resolve to the local | partial | false of the code: a use before the definition never gets the local symbol (refuted in general, with a witness). | PropOcc: `C12_forward_reference_refuted`, `C11_local` |
| C13 | Occurrences are complete and exact | proved | refinement: the occurrences of the visitor are those that SpecOcc lists node by node in source order. | PropOcc: `C13_occurrences`, `C13_nodes_in_source_order` |
| C14 | Occurrence ranges are valid SCIP ranges covering the identifier | proved | int32 arithmetic with wrap-around made explicit. Linear arithmetic. | PropOcc: `C14_range_of_positions`, `C14_range_of_name`, `C14_document_ranges` |
| C15 | Import references cover exactly the import path between the quotes | proved | as C14, for import specs; false when the package path is not the literal (vendoring). | PropOcc: `C15_import_range`, `C15_vendored_refuted` |
| C16 | Package symbols are partitioned among the documents | proved | SymbolsForFile. Permutation argument over the files of a package. | PropDecl: `C16_partition` |
| C17 | Declaring one variable does not affect the symbols of another | partial | the scope stack of the var visitor. Invariant when the earlier specs of the group have common types; the scope never shrinks, so after a type form the visitor does not know every later symbol of the group is wrong. | PropDecl: `C17_value_symbol_partial`, `C17_parenthesised_type_refuted`; PropGroup: `C17_disturbed_refuted` |
| C18 | Deprecation diagnostics are exact | proved | IsDocDeprecated against a specification of paragraphs; occurrences by C13. | PropDecl: `C18_deprecated_text`; PropOcc: `C18_definitions`, `C18_references`, `C18_only_deprecated` |
| C19 | Hover documentation follows the declaration's comments | partial | extractHoverText and SetNewSymbolForPos. Which comments are shown, by cases on the declaring node; false for nested groups. | PropDecl: `C19_documentation_partial`, `C19_entries`, `C19_nested_group_refuted` |
| C20 | Each package is described once, its docs ordered by relevance | proved | findPackageDocs against a stable ordering; one description per package over the whole run. | PropIndex: `C20_package_docs`, `C20_described_once` |
| C21 | Visiting a file never crashes | proved | all panics of the model are reachable or not: equivalence for a file, absence for the whole run. | PropOcc: `C21_no_panic`, `C21_panics_iff`, `C21_bare_package_name_refuted`; PropIndex: `C21_index_no_crash`; PropImpl: `C21_search_no_crash`, `search_contract`, `C21_run_no_crash` |
| C22 | Registering symbols: repeat is a no-op, conflict is last-wins | proved | the package table. Invariant over histories of registrations. | PropDecl: `C22_last_change_wins`, `C22_unregistered` |
| C23 | Symbol lookup of an object is independent of earlier lookups | proved | GetSymbolOfObject with its caches. Invariant: caches never change an answer. | PropOcc: `C23_history_independent` |
| C24 | Objects resolve to declared entries before composed ones | proved | as C23: the answer is given by the relation `resolves` of SpecLookup. | PropOcc: `C24_resolution` |
| C25 | Module versions are normalised for cross-repository navigation | proved | normalizePackage by cases, for every module, world and option; idempotence for settled versions. | PropModule: `C25_path_and_version_nonempty`, `C25_known_version`, `C25_unknown_version`, `C25_replacement`, `C25_local_module`, `C25_idempotent`, `C25_idempotent_refuted`; PropLoad: `C25_loaded` |
| C26 | Every transitively imported package is loaded | proved | addImportsToPkgs for every iteration order. Invariant and reachability (induction on import paths). | PropLoader: `C26_reachable_packages_loaded`, `C26_project_packages`, `C26_smaller_variant_refuted` |
| C27 | The variant with most files wins, whatever the visiting order | proved | as C26, with a termination measure. | PropLoader: `C27_largest_variant_recorded`, `C27_visited_covered`, `C27_traversal_terminates`, `C27_traversal_progress`, `C27_order_independent`, `C27_std_prefix_refuted` |
| C28 | Standard library and driver overrides | proved | as C25 for the standard library and for drivers. | PropModule: `C28_standard_library`, `C28_standard_library_unknown_version`, `C28_driver`; PropBuiltin: `C28_builtin_entry` |
| C29 | Every loaded package gets a package symbol, and imports resolve to it | proved | SetPkgSymbol over the load result. | PropLoader: `C29_package_symbols` |
| C30 | Identical types have equal fingerprints | proved | Encode. Induction on identity of types (SpecTypes). | PropFinger: `C30_identical_types` |
| C31 | Fingerprints of non-tricky types determine the type | proved | the parser of fingerprints (P_Parse) and structural induction. | PropFinger: `C31_same_structure`, `C31_identical_iff`, `C31_local_types_refuted`; PropEncodable: `C31_encodable_iff` |
| C32 | The method-count and method-mask filters lose no implementation | proved | filters of findImplementations for every checksum function; types.Implements against a specification. | PropImpl: `C32_filters_lose_nothing`, `C32_checks_exact`, `C32_mask_fits` |
| C33 | The unexported-method filter loses no implementation | partial | the unexported-method filter; false through embedding (refuted). | PropImpl: `C33_unexported_filter_partial`; ExImpl: `C33_embedded_refuted` |
| C34 | Implementation relationships are exact, sorted, duplicate-free and order-independent | proved | the search for implementations over shared mutable entries; refinement to an order-free specification (SpecImpl). | PropImpl: `C34_exact`, `C34_order_independent`, `C34_documents`; ExImpl: `C34_irreflexive_refuted` |
| C35 | External symbols are exactly the remote types implementing local interfaces | proved | as C34. | PropImpl: `C35_external_symbols`, `C34_documents` |
| C36 | Candidate extraction | proved | the extractor against a specification of candidates. | PropImpl: `C36_candidates` |
| C37 | Fingerprint matching is sound for identical types | proved | Parse, Encode, Match and the unifier. Round trip and soundness; limits refuted. | PropFinger: `C37_parse`, `C37_text`, `C37_matches_self`, `C37_matches_equal`, `C37_matches_instance`, `C37_typeparam_name_refuted`, `C37_nontermination_refuted`, `C37_index_panic_refuted`, `C37_negative_array_refuted` |
| C38 | Emission order and error handling of Index | proved | Index as a program with an explicit writer that may fail at any message. | PropIndex: `C38_emission_order`, `C38_write_failure`, `C38_load_failure`, `C38_search_failure` |
| C39 | The concatenated output is one valid index | proved | the wire format byte by byte: varints, lengths, UTF-8; decoding the concatenation. | PropProto: `C39_concatenation_is_index`, `C39_truncated_rejected`, `C39_marshal_fails_iff` |
| C40 | A failed run leaves no output file | partial | IndexCmd.Run over a file system with symbolic links and failing operations, also killed at any point. | PropCli: `C40_success`, `C40_success_decodes`, `C40_failure_removes`, `C40_early_failure`, `C40_only_output_touched`, `C40_exit_code`, `C40_killed`, `C40_crash_leaves_file_refuted`, `C40_failure_destroys_previous_refuted`, `C40_symlink_refuted`, `C40_remove_failure_refuted` |
| C41 | Index waits for its worker under every schedule | proved | small-step interleaving semantics of the worker, the ticker and the printer; all schedules. | PropOutput: `C41_returns_after_worker`, `C41_progress`, `C41_every_step_progresses`, `C41_can_always_return`, `C41_index_worker`; PropPrint: `C41_shown`; PropScreen: `C41_screen`; PropImpl: `C41_search_counter` |
| C42 | Every parsed file gets a document | proved | the run of Index; ListMissing on the same input. | PropIndex: `C42_every_file_has_document`, `C42_list_missing_empty` |
| C43 | Package listing is sorted, duplicate-free and complete | proved | GetPackages against sortedness, completeness and order independence. | PropLoader: `C43_get_packages`, `C43_order_independent` |
| C44 | Relative paths identify files | proved | filepath.Clean, Rel and Join on Unix; a specification of paths as lists of names. | PropPaths: `C44_relative_path_resolves`, `C44_join_resolves`, `C44_distinct_files`, `C44_below_root`, `C44_outside_root` |
| C45 | The module root search finds the nearest enclosing go.mod | partial | searchForGoMod on directory trees; exact behaviour, termination; refuted inside repositories. | PropPaths: `C45_search_terminates`, `C45_nearest_outside_repository_partial`, `C45_refuted_inside_repository`, `C45_nearest_gomod_refuted` |
| C46 | Repository names do not depend on the remote's URL style | proved | parseRemote and net/url on the forms of remotes. | PropEnv: `C46_repository_name`, `C46_same_name`, `C46_absolute_scp_refuted`, `C46_other_user_refuted`; PropEscape: `C46_escaped_path`, `C46_bad_escape`, `C46_no_scheme` |
| C47 | The inferred module version prefers semver tags | proved | InferModuleVersion on the outputs of git. | PropEnv: `C47_version_tag`, `C47_other_tag`, `C47_commit`, `C47_git_fails`; PropEscape: `C47_short_commit` |
| C48 | Module name resolution reports failures | partial | ModuleName by cases on the environment; swallowed errors refuted. | PropEnv: `C48_explicit_name`, `C48_go_mod`, `C48_unparsable_go_mod`, `C48_repository`, `C48_failure_reported_refuted`, `C48_no_module_line_refuted` |
| C49 | Displayed durations are close and stable | proved | humanElapsed. Arithmetic over all durations. | PropEnv: `C49_close`, `C49_precise`, `C49_stable`, `C49_monotone` |
| C50 | Log level selection | proved | getLogLevel. | PropEnv: `C50_quiet`, `C50_verbosity`, `C50_negative_refuted` |
| C51 | Struct tags are shown with backticks, the rest of the text is kept | proved | quotedTagsToBacktick and strconv.Unquote against a grammar of Go text with literals. | PropQuote: `C51_tags_in_backticks`, `C51_no_quotes`, `C51_invalid_literals_kept`, `C51_unterminated_refuted`, `C51_backtick_in_tag_refuted` |
| C52 | Identical anonymous types share member symbols | proved | the visitors on nested literals, with the digest as a parameter. | PropAnon: `C52_anonymous_members`, `C52_identical_types_share`, `C52_different_types_differ`, `C52_no_clash`; PropReach: `C52_value_members` |
| C53 | Every package-level declaration reaches the index | proved | the run of Index: from syntax to documents (composition of C05, C13, C16 and C38). | PropIndex: `C53_declarations_in_index` |
| C54 | Every use of a project declaration resolves to its symbol across files and packages | proved | as C53 with lookup across packages. | PropIndex: `C54_references_in_index` |
| C55 | With -q -o - stdout is exactly the index | proved | the printing of the CLI around the writer.  The texts printed are modelled too (Output.v print_text, with_progress; PropPrint: printed, by log level). | PropCli: `C55_quiet_stdout`, `C55_default_stdout_refuted`; PropPrint: `C55_stdout`, `C55_nothing_else`; ExPrint: `C55_progress_on_stdout_refuted` |
| C56 | Cross-repository navigation | proved | two runs on two projects; the version part through the loader and git inference. | PropCross: `C56_cross_repository`, `C56_release_version`, `C56_commit_version`, `C56_nested_module_refuted`, `C56_two_tags_refuted` |
| C57 | The index is deterministic | proved | two runs with different iteration orders of every map; induction along the pipeline. | PropDet: `C57_deterministic`, `C57_success_independent`; PropSwitch: `C57_type_switches` |
| C58 | Navigation inside a file works for every object | proved | as C53, for any two identifiers of a file. | PropNav: `C58_navigation_in_file`, `C58_type_switch` |
| C59 | What is declared inside a function is local to its document | partial | which identifiers the declaration pass does not register (positions); numbering of locals; false in function literals of package-level variables. | PropLocal: `C59_function_locals_partial`, `C59_distinct_locals_partial`; ExLocal: `C59_function_literal_refuted` |
| C60 | The options of a run follow the command line and the module it is started in | partial | makeOptions over a machine: directories, repositories, commands, environment. | PropOptions: `C60_flags_win`, `C60_remote`, `C60_root_absolute`, `C60_defaults`, `C60_driver_partial`, `C60_other_root_refuted`, `C60_empty_driver_refuted`, `C60_path_driver_refuted`, `C60_subdirectory_refuted`; PropRemote: `C60_git_remote`, `C60_no_remote` |
| C61 | Hover information of declared and local symbols reaches the index | partial | the table entry of a declaration and of a local through to the document. | PropHover: `C61_declared_hover_partial`, `C61_local_hover_partial` |
| C62 | Signature texts read like the declaration | partial | the printer of go/types, and its use with qualifiers; go/format as an oracle. | PropSig: `C62_values`, `C62_types_partial`, `C62_paths_irrelevant_partial`, `C62_nonempty`, `C62_type_parameters_refuted`, `C62_alias_constraint_refuted`, `C62_local_packages_refuted`; PropTypeText: `C62_type_texts`; PropHover: `C62_signature_in_index` |
| C63 | Members of anonymous types can be navigated | partial | C52 through to the documents: a table entry at an identifier's position gives a description, a definition and all references; `reaches` describes where the declaration pass finds field lists in initial values; `behind_declared` describes the identifiers it never reaches, which are numbered as locals; `type_member` is every member of a declared type, embedded ones included (PropTypeMember). | PropTypeMember: `C63_type_members`; PropMember: `C63_anonymous_members_partial`; PropReach: `C63_value_members_partial`; ExMember: `C63_embedded_refuted`; ExReach: `C63_slice_refuted`, `C63_inline_refuted`; PropBehind: `C63_behind_refuted`; ExBehind: `C63_type_slice_refuted` |
| C64 | The command writes a right index or fails cleanly | proved | the parts composed as one relation (Program.v); C60, C27, C38, C40, C56, C44 put together; totality of loading by the termination order of C27. | PropEnd: `C64_index_file`, `C64_ends`, `C64_failure`, `C64_no_crash` |
| C65 | The project root in the metadata is a URL of the module root | proved | net/url's path escaping; an independent reader of percent escapes. | PropUrl: `C65_project_root`, `C65_injective` |
| C66 | Runs fail only for reasons outside scip-go | partial | closure of valid UTF-8 under every text operation of the code (P_Valid, P_Text, P_SigText); the signature of a field is split into plain parts and quoted tags; the failing tag as a concrete project. | PropText: `C66_every_message_encodes_partial`, `C66_succeeds_partial`, `C66_signature_texts`, `C66_signatures`, `C66_invalid_signature_fails`; ExTag: `C66_tag_refuted` |
| C67 | Find-references is precise | proved | inversion of the first pass (P_Precise: every table entry with the symbol of a package-level entity is at an identifier that introduces it, by induction over the visitors), the lookup and the second pass; hypothesis: syntax trees follow the Go grammar (SpecPrecise); the exception as a concrete project. | PropPrecise: `C67_references_precise`, `C67_definitions_precise`, `C67_descriptions_precise`; ExPrecise: `C67_type_parameter_refuted` |
| C68 | Members of anonymous types in function results can be navigated | partial | inversion of funcVisitor on result types (PropResult: events at a method's position are unique), then the registration lemmas of C63; the struct case and the collision as a concrete project. | PropResult: `C68_result_methods`, `C68_result_methods_navigate_partial`, `C68_distinct`; ExResult: `C68_struct_result_refuted`, `C68_two_results_refuted` |
| C69 | Ranges select the names in the source text | proved | a model of go/token over real source text (Source.v); a specification of what a range selects in a text that does not mention go/token (SpecSource); the line table is shown to count newlines (P_Source), then the classification of all occurrences of C14 is reused. With line directives: the same arithmetic, relative to the text the directive names (PropDirective). | PropSource: `C69_occurrences`, `C69_identifiers`, `C69_selects_unique`, `C69_other_units`, `C69_line_directive_refuted`; PropDirective: `C69_line_directive`, `C69_directive_line`; ExSource: `C69_characters_refuted` |
| C70 | Go-to-definition has exactly one answer | proved | at most one node of a file produces a definition of the symbol (the occurrences of C14 by node, precision from C67, identifiers at distinct places), at most one table entry describes it; existence from C53; the exception as a concrete project with two init functions. | PropUnique: `C70_one_definition`, `C70_one_description`, `C70_init_refuted` |
| C71 | The packages and missing commands print what is loaded | proved | both commands as relations over the surroundings of C64 (Commands.v); the project table is shown to hold exactly the paths of the roots, the other one from C26; sorted lists without repetition are unique; lines are injective; ListMissing looks up exactly the names it inserted. | PropCommands: `C71_packages`, `C71_packages_deterministic`, `C71_readable`, `C71_missing`, `C71_missing_no_crash`, `C71_ends` |
| C72 | Profiling changes nothing but the profile | proved | the command commutes with emptying a file that is not its output (symbolic links included); the profile is then written to that file. | PropCommands: `C72_profile`, `C72_profile_possible`, `C72_no_profile`, `C72_profile_error`, `C72_same_file_refuted` |
| C73 | Imports and package qualifiers lead to the package | proved | the occurrences of a document by node (C13), the package symbols of the tables (C29), module agreement across repositories (C56); precision by injectivity of symbols (C01) and the shapes of table entries and composed symbols. | PropImport: `C73_imports`, `C73_qualifiers`, `C73_clauses`, `C73_in_project`, `C73_cross_repository`, `C73_only_clauses`, `C73_only_imports` |
| C74 | Symbols survive edits | partial | two runs side by side: the symbol of a declaration is a function of package path, module and key (C53), and the definitions under it are those of the key (C67). | PropStable: `C74_stable`, `C74_followed`, `C74_removed`, `C74_changed`, `C74_members`; ExStable: `C74_inline_refuted` |
| C75 | Described symbols are defined | partial | the origin of every registered symbol by induction over the three declaration visitors, locals through the numbering of local definitions; counterexample program. | PropDefined: `C75_described_defined_partial`, `C75_unnamed_described`; ExDefined: `C75_unnamed_refuted` |
| C76 | --skip-implementations drops only relationships | proved | the tables of the first pass are unique, the search changes relationships only, and occurrences by node are equal under tables that differ in relationships only; lifted to the whole command: neither makeOptions nor the loader reads the flag, and both runs load the same tables (C79). | PropSkip: `C76_only_relationships`, `C76_always_succeeds`; PropSkipRun: `C76_whole_command`, `C76_still_succeeds` |
| C77 | Find implementations leads to exactly the implemented interfaces | proved | candidates of the search are characterised by declarations through the tables of the first pass and injectivity of symbols, then C34 and C35. | PropFind: `C77_implementations`, `C77_leads_to_definition`, `C77_methods`, `C77_external` |
| C78 | Find implementations works across repositories | partial | C77 for program B, the agreement of module and version of C56, and injectivity of symbols; the refutation by the shapes of recorded and composed symbols. | PropFindCross: `C78_remote_interface`, `C78_remote_type`, `C78_remote_method_refuted` |
| C79 | Running the command again gives the same index | proved | the loader walks over the imports of one root at a time; if a build has one package per path, what it records for a root does not depend on the order (invariant over the steps of the walk); so two loads agree on the tables and on the packages in them, Index on the two heaps is the same function, and C57 applies; success by independence from the writer. | PropOnce: `C79_same_load`, `C79_same_index`, `C79_same_success` |
| C80 | The index does not depend on the order in which files are parsed | proved | all of the model (both passes, tables, locals, search, loader) commutes with a one-to-one rearrangement of positions, by induction over syntax and over the loops; map iteration orders of the second run are read back as orders of the first; then C79. | PropMove: `C80_same_index`, `C80_same_success` |
| C81 | Indexing some packages of a project gives the documents of the whole project's index | partial | the tables of a package, and the answers of lookups, are the same in the run on a part of the project (from the table in one run, composed from export data in the other: the link between C23/C56's two ways to name a declaration), then occurrence by occurrence with the specification of a visited file. | PropPart: `C81_same_documents_partial`, `C81_same_definitions`; PropPartMethod: `C81_interface_method_refuted`, `C81_alias_receiver_refuted`; ExPart: `C81_deprecated_refuted` |
| C82 | Editing the bodies of functions changes no other document and no declared symbol | proved | the first pass visits declarations only by what outline keeps (congruence of the three visitors in the facts about declarations), so tables, package symbols and answers of lookups agree; then occurrence by occurrence for untouched files. For the command: loading related packages gives related packages (simulation), and C80's move of positions. | PropEdit: `C82_other_documents`, `C82_edited_document`; PropEditRun: `C82_whole_command` |
| C83 | Comments affect only documentation and deprecation | proved | a relation between the tables, caches, visitor states and documents of the two runs (equal but for documentation, diagnostics and layout) is kept by every step of both passes, of the search for implementations and of Index; loading rewritten packages gives rewritten packages (simulation); then C79's second run, and C80's move of positions. | PropComment: `C83_same_index`, `C83_moved`, `C83_in_place` |
| C84 | Adding files and packages changes no document of the files that were there | proved | tables and lookups of the grown project restricted to places of the old files are those of the old project (events come from the files by position, so an added file's events never meet an old place), then occurrence by occurrence for untouched files; the command by C80's move of positions. | PropGrow: `C84_other_documents`; PropGrowRun: `C84_whole_command` |
| C85 | The documents of the index do not depend on where the project is checked out | proved | every step of the loader, both passes, the search for implementations and Index commutes with renaming module directories and file names (the composer's root is never used because every package of a loaded table has a module); then C79's second run. | PropElsewhere: `C85_same_documents` |

## Findings

Behaviour of the pinned commit that contradicts what a user would rely on, each proved on the model:

1. Interface methods, methods declared through an alias and fields of a struct shared by two named types have
   another symbol in the index of their own module than in a client's index (`C06_*_refuted`).
2. Type parameters are never labelled as such (`C08_type_parameter_refuted`).
3. A use of a type parameter before its definition (`F[S ~[]E, E any]`) is not linked to it (`C12`).
4. After a variable with a parenthesised (or otherwise unhandled) type, later variables of the same group get
   wrong symbols (`C17_parenthesised_type_refuted`; for every later variable of every such group: `C17_disturbed_refuted`).
5. Members of a group after a function literal with declarations show that literal's comments (`C19_nested_group_refuted`).
6. `C21_bare_package_name_refuted`: a package name used without selector (a type error that does not stop the
   load) crashes the indexer.
7. Vendored imports are highlighted with a wrong range (`C15_vendored_refuted`).
8. Symbols with a package field that starts with a space cannot be read back (`C01_leading_space_refuted`).
9. Loading: a variant with more files but fewer imports loses packages (`C26`), a package below `std/` collides with
   the standard library (`C27`), normalising twice can change versions (`C25`).
10. Implementations: a type that gets unexported methods by embedding a type of another package is not found
    (`C33`); a method can be recorded as an implementation of itself (`C34`).
11. Fingerprints: equal for different local types (`C31`); the matcher panics or diverges on some pairs (`C37`).
12. The command line: output file left after a crash or through a symbolic link, previous output destroyed by a
    failed run (`C40`); without -q, `-o -` mixes progress text into the index (`C55`); `-list-missing` can never
    report anything (`C42`); a negative verbosity panics (`C50`).
13. Environment: nearest go.mod missed inside repositories (`C45`), errors swallowed when no module name is found
    (`C48`), scp-like remotes with other users or absolute paths named differently (`C46`), nested-module tags and
    several tags on a commit give a version no client uses (`C56`), options taken from the working directory
    instead of the module root (`C60`).
14. Signatures: generic type declarations lose their type parameters, alias constraints show import paths, locals
    drop package names (`C62`); unterminated quotes and backticks in tags (`C51`).
15. Parameters and variables inside function literals of package-level variables become global symbols that
    collide (`C59_function_literal_refuted`).
16. Embedded pointers in the struct type of a variable are registered at the star: described but not defined
    anywhere, and not found from other files (`C63_embedded_refuted`).
17. A struct tag whose value is not valid UTF-8 (`"\xff"`) in an anonymous struct type of a declared field makes the
    encoding of its document, and so the whole run, fail (`C66_tag_refuted`).

18. Fields of a struct behind a slice, array, map, pointer or channel in the declared type of a package-level variable
    (`var x []struct{ A int }`) are only local symbols of their file, and their uses in other files are no references
    (`C63_slice_refuted`). The same holds for `type T []struct{...}` and the like, and for members behind channels,
    function types or parentheses in the fields of a declared type (`C63_behind_refuted`, for every such member;
    `C63_type_slice_refuted`).
19. Fields in the values of `var a, b = ...` are filed under line and column without the file: two such specs at the
    same place in two files of a package share symbols (`C63_inline_refuted`), and the symbols change whenever the
    declaration moves to another line (`C74_inline_refuted`).
20. A type parameter used before its declaration (`func F[S ~[]E, E any]`) gets the symbol of the package-level type of
    the same name if there is one in the package: find-references of `type E int` shows it, though it is another entity
    (`C67_type_parameter_refuted`).
21. Fields of a struct literal in a function's results (`func F() struct{ A int }`) are only local symbols of their file;
    `F().A` in another file is no reference (`C68_struct_result_refuted`).  Two interface literals in one function's
    results share the symbols of methods with the same name (`C68_two_results_refuted`).
22. After a line directive without a column (`//line f.y:10`: output of goyacc, and the Go files that cgo generates and
    that the loader returns for packages that use cgo) go/token answers column 0, and every range becomes
    `[line, -1, -1]`: it selects nothing, and its line is that of another file (`C69_line_directive_refuted`).  The
    other theorems exclude such files by the hypothesis that positions are positive (`wff_fit_ident`).
23. Documents do not say in which unit columns count (`position_encoding` is never set).  They are byte offsets; clients
    that count characters or UTF-16 units select another text on lines that are not ASCII (`C69_characters_refuted`).
24. All functions named `init` of a package get the same global symbol (`p/init().`): it has several definitions, and the
    description of each of them (`C70_init_refuted`).
25. `scip-go missing` looks up the names of the loaded files in a table that it has just filled with them: it always
    prints `No missing documents` (`C71_missing`).  `scip-go packages` lists the project's own packages (and builtin)
    under `Dependency packages` too (`C71_packages`).
26. `scip-go index --profile n -o mem.pprof` exits with code 0, but the profile overwrites the index
    (`C72_same_file_refuted`).
27. Unnamed parameters and results of function literals in package-level variables (`var F = func(int) error {...}`)
    become described symbols named after their types (`p/F:int.`, `p/F:error.`) that are defined nowhere; two of the same
    type are described twice under one symbol (`C75_unnamed_refuted`, `C75_unnamed_described`).
28. A method that implements a method of an interface of another module is related to a symbol (`p/I#M().`) that the index
    of that module never defines (it defines `p/I#M.`, see 1), and methods of types of other modules are not related at all:
    across repositories, find implementations works for types only (C78_remote_method_refuted).

## Tests of the theorems against wrong programs

`tools/mutate.py` applies one edit of `tools/mutations*.py` to a definition of the model in a scratch copy, rebuilds,
and records which proofs fail and which theorems of the manifest rest on them (directly or through the proofs that
failed) in `seeded/LOG.jsonl`: 464 entries: 411 killed, 30 SURVIVED, 17 other, 3 SURVIVED, then killed, 2 equivalent, 1 SURVIVED, then tightened. "killed": a theorem of a claim that the edit breaks fails;
"other": only supporting lemmas or theorems of other claims fail; "SURVIVED": everything still builds (the note in
the entry says why: dead code, or an edit that does not change behaviour).
