C01: FormatSymbol of the scip bindings against an independent reader of symbol strings (SpecSymbol). Round trip; injectivity follows.
C02: the composer as a state machine with its cache. Invariant over all call histories.
C03: Compose. Decision rule as an equivalence.
C04: Compose and the naming of receiver types. Induction on types.
C05: the declaration pass and Compose: both equal one layout of descriptors per kind of declaration (SpecDecl).
C06: as C05. False of the code in three families of programs; refuted for every program of each family.
C07: the events of the declaration pass. Injectivity of symbols (C01) and of declarations' identities.
C08: KindForObject by cases on objects. False for type parameters (refuted).
C09: the file visitor's numbering. Invariant over the traversal, for every iteration order of the locals map.
C10: both passes. Invariant of the traversal plus the partition of C16.
C11: both passes and lookup. Determinism of the tables plus the occurrence specification of C13.
C12: false of the code: a use before the definition never gets the local symbol (refuted in general, with a witness).
C13: refinement: the occurrences of the visitor are those that SpecOcc lists node by node in source order.
C14: int32 arithmetic with wrap-around made explicit. Linear arithmetic.
C15: as C14, for import specs; false when the package path is not the literal (vendoring).
C16: SymbolsForFile. Permutation argument over the files of a package.
C17: the scope stack of the var visitor. Invariant when the earlier specs of the group have common types; the scope never shrinks, so after a type form the visitor does not know every later symbol of the group is wrong.
C18: IsDocDeprecated against a specification of paragraphs; occurrences by C13.
C19: extractHoverText and SetNewSymbolForPos. Which comments are shown, by cases on the declaring node; false for nested groups.
C20: findPackageDocs against a stable ordering; one description per package over the whole run.
C21: all panics of the model are reachable or not: equivalence for a file, absence for the whole run.
C22: the package table. Invariant over histories of registrations.
C23: GetSymbolOfObject with its caches. Invariant: caches never change an answer.
C24: as C23: the answer is given by the relation `resolves` of SpecLookup.
C25: normalizePackage by cases, for every module, world and option; idempotence for settled versions.
C26: addImportsToPkgs for every iteration order. Invariant and reachability (induction on import paths).
C27: as C26, with a termination measure.
C28: as C25 for the standard library and for drivers.
C29: SetPkgSymbol over the load result.
C30: Encode. Induction on identity of types (SpecTypes).
C31: the parser of fingerprints (P_Parse) and structural induction.
C32: filters of findImplementations for every checksum function; types.Implements against a specification.
C33: the unexported-method filter; false through embedding (refuted).
C34: the search for implementations over shared mutable entries; refinement to an order-free specification (SpecImpl).
C35: as C34.
C36: the extractor against a specification of candidates.
C37: Parse, Encode, Match and the unifier. Round trip and soundness; limits refuted.
C38: Index as a program with an explicit writer that may fail at any message.
C39: the wire format byte by byte: varints, lengths, UTF-8; decoding the concatenation.
C40: IndexCmd.Run over a file system with symbolic links and failing operations, also killed at any point.
C41: small-step interleaving semantics of the worker, the ticker and the printer; all schedules.
C42: the run of Index; ListMissing on the same input.
C43: GetPackages against sortedness, completeness and order independence.
C44: filepath.Clean, Rel and Join on Unix; a specification of paths as lists of names.
C45: searchForGoMod on directory trees; exact behaviour, termination; refuted inside repositories.
C46: parseRemote and net/url on the forms of remotes.
C47: InferModuleVersion on the outputs of git.
C48: ModuleName by cases on the environment; swallowed errors refuted.
C49: humanElapsed. Arithmetic over all durations.
C50: getLogLevel.
C51: quotedTagsToBacktick and strconv.Unquote against a grammar of Go text with literals.
C52: the visitors on nested literals, with the digest as a parameter.
C53: the run of Index: from syntax to documents (composition of C05, C13, C16 and C38).
C54: as C53 with lookup across packages.
C55: the printing of the CLI around the writer.  The texts printed are modelled too (Output.v print_text, with_progress; PropPrint: printed, by log level).
C56: two runs on two projects; the version part through the loader and git inference.
C57: two runs with different iteration orders of every map; induction along the pipeline.
C58: as C53, for any two identifiers of a file.
C59: which identifiers the declaration pass does not register (positions); numbering of locals; false in function literals of package-level variables.
C60: makeOptions over a machine: directories, repositories, commands, environment.
C61: the table entry of a declaration and of a local through to the document.
C62: the printer of go/types, and its use with qualifiers; go/format as an oracle.
C63: C52 through to the documents: a table entry at an identifier's position gives a description, a definition and all references; `reaches` describes where the declaration pass finds field lists in initial values; `behind_declared` describes the identifiers it never reaches, which are numbered as locals; `type_member` is every member of a declared type, embedded ones included (PropTypeMember).
C64: the parts composed as one relation (Program.v); C60, C27, C38, C40, C56, C44 put together; totality of loading by the termination order of C27.
C65: net/url's path escaping; an independent reader of percent escapes.
C66: closure of valid UTF-8 under every text operation of the code (P_Valid, P_Text, P_SigText); the signature of a field is split into plain parts and quoted tags; the failing tag as a concrete project.
C67: inversion of the first pass (P_Precise: every table entry with the symbol of a package-level entity is at an identifier that introduces it, by induction over the visitors), the lookup and the second pass; hypothesis: syntax trees follow the Go grammar (SpecPrecise); the exception as a concrete project.
C68: inversion of funcVisitor on result types (PropResult: events at a method's position are unique), then the registration lemmas of C63; the struct case and the collision as a concrete project.
C69: a model of go/token over real source text (Source.v); a specification of what a range selects in a text that does not mention go/token (SpecSource); the line table is shown to count newlines (P_Source), then the classification of all occurrences of C14 is reused. With line directives: the same arithmetic, relative to the text the directive names (PropDirective).
C70: at most one node of a file produces a definition of the symbol (the occurrences of C14 by node, precision from C67, identifiers at distinct places), at most one table entry describes it; existence from C53; the exception as a concrete project with two init functions.
C71: both commands as relations over the surroundings of C64 (Commands.v); the project table is shown to hold exactly the paths of the roots, the other one from C26; sorted lists without repetition are unique; lines are injective; ListMissing looks up exactly the names it inserted.
C72: the command commutes with emptying a file that is not its output (symbolic links included); the profile is then written to that file.
C73: the occurrences of a document by node (C13), the package symbols of the tables (C29), module agreement across repositories (C56); precision by injectivity of symbols (C01) and the shapes of table entries and composed symbols.
C74: two runs side by side: the symbol of a declaration is a function of package path, module and key (C53), and the definitions under it are those of the key (C67).
C75: the origin of every registered symbol by induction over the three declaration visitors, locals through the numbering of local definitions; counterexample program.
C76: the tables of the first pass are unique, the search changes relationships only, and occurrences by node are equal under tables that differ in relationships only; lifted to the whole command: neither makeOptions nor the loader reads the flag, and both runs load the same tables (C79).
C77: candidates of the search are characterised by declarations through the tables of the first pass and injectivity of symbols, then C34 and C35.
C78: C77 for program B, the agreement of module and version of C56, and injectivity of symbols; the refutation by the shapes of recorded and composed symbols.
C79: the loader walks over the imports of one root at a time; if a build has one package per path, what it records for a root does not depend on the order (invariant over the steps of the walk); so two loads agree on the tables and on the packages in them, Index on the two heaps is the same function, and C57 applies; success by independence from the writer.
C80: all of the model (both passes, tables, locals, search, loader) commutes with a one-to-one rearrangement of positions, by induction over syntax and over the loops; map iteration orders of the second run are read back as orders of the first; then C79.
C81: the tables of a package, and the answers of lookups, are the same in the run on a part of the project (from the table in one run, composed from export data in the other: the link between C23/C56's two ways to name a declaration), then occurrence by occurrence with the specification of a visited file.
C82: the first pass visits declarations only by what outline keeps (congruence of the three visitors in the facts about declarations), so tables, package symbols and answers of lookups agree; then occurrence by occurrence for untouched files. For the command: loading related packages gives related packages (simulation), and C80's move of positions.
C83: a relation between the tables, caches, visitor states and documents of the two runs (equal but for documentation, diagnostics and layout) is kept by every step of both passes, of the search for implementations and of Index; loading rewritten packages gives rewritten packages (simulation); then C79's second run, and C80's move of positions.
C84: tables and lookups of the grown project restricted to places of the old files are those of the old project (events come from the files by position, so an added file's events never meet an old place), then occurrence by occurrence for untouched files; the command by C80's move of positions.
C85: every step of the loader, both passes, the search for implementations and Index commutes with renaming module directories and file names (the composer's root is never used because every package of a loaded table has a module); then C79's second run.
