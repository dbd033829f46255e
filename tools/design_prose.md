# Formal model of scip-go: design

The model is written in Coq 8.16.1 (standard library and std++), in `rocq/theories`. It is a
function-by-function transcription of the Go sources under /repo into total, computable Gallina; every
definition cites the file and lines it models, and says where it simplifies. The model is executable: the
`Ex*.v` files run whole projects through it with `vm_compute`.

## Conventions

* Go `string` = Coq `string` (a sequence of bytes).
* Go pointers whose identity matters (`*ast.Ident`, `types.Object`, `*packages.Package`,
  `*scip.SymbolInformation`) carry a numeric identity; memory shared through pointers is a heap or an explicit
  table (`P_Mem`).
* `panic` is a value (`Panic`), an `error` return is a value. Nothing in the model is partial: loops whose
  termination is not structural carry fuel, with theorems that the fuel given suffices (or that no fuel suffices:
  `C37_nontermination_refuted`).
* Go map iteration order is an explicit argument (any permutation of the entries), and theorems quantify over it.
* Concurrency (`internal/output`) is a small-step interleaving semantics; theorems quantify over schedules.
* packages.Load parses files at the same time; which positions (token.Pos) they get depends on the schedule.  That is
  modelled by its effect: any one-to-one rearrangement `mv` of positions that keeps NoPos and moves an identifier as a
  whole (`SpecMove`), and C80 says that the index does not depend on it.
* External code (go/types, go/packages, the file system, git, sha256, crc32, vcs, go/format) is a parameter of the
  model or is modelled from its documentation; what is assumed about it is a visible hypothesis of the theorem.
* Go slices are lists. `append(s.scope.descriptors, d)` can share a backing array with the scope, but the result
  is consumed by FormatSymbol before the next push, so no aliasing is observable.
* `Theorem C.._refuted` shows, with a witness program (or for a whole family), that the English property does not
  hold of the code. `_partial` marks a theorem that proves less than the English statement.

## Layout

| files | contents |
|---|---|
| GoStr, Regex, Semver, Quote, Paths | Go's `strings`, `regexp` (anchored patterns), `x/mod/semver` and pseudo-versions, `strconv.Unquote`, `path/filepath` on Unix |
| Scip, Proto | SCIP messages, `FormatSymbol`, `CanonicalizeRelationships` (scip bindings v0.7.1); the protobuf wire format |
| GoTypes, Ast, Packages, Source | what scip-go reads of go/types, go/ast, go/packages; go/token on source text |
| Symbols | internal/symbols |
| Document, Signature | internal/document (hover text, struct tags; signatures with the printer of go/types) |
| Lookup | internal/lookup |
| Pass1, Pass2 | internal/visitors: the declaration pass; the file visitor |
| Loader | internal/loader, internal/config, `GetPackages` |
| Index | internal/index: `Index`, `indexVisitPackages`, `ListMissing`, package descriptions |
| Fingerprint, Impls | internal/implementations with its fingerprint package |
| Output | internal/output |
| Env | internal/git, internal/modules, internal/command, durations, log level |
| Cli, Options, Url | cmd/scip-go; the file URL of the project root |
| Program | the whole command, as the composition of the other files |
| Snapshot, Snap*.v | the model run on the test directories of /repo (below) |
| Spec*.v | specifications, independent of the model's functions |
| Prop*.v | the property theorems; `P_*.v` the proofs they use; `Ex*.v` the programs that meet their hypotheses |

## Trusted base

* The kernel of Coq 8.16.1 and `vm_compute`. No axioms: every theorem of the manifest is followed by `Print
  Assumptions` or rests only on such theorems, and each prints `Closed under the global context`. (The library
  std++ loads the standard library's ssreflect, whose module `Coq.ssr.ssrunder.Under_rel` contains seven opaque
  parameters implemented in the same file; the gate lists them as library axioms. No theorem depends on them.)
* The transcription: that the Gallina definitions do what the cited Go lines do.
* The models of code that is not in /repo, written from memory of its published source or documentation:
  the scip bindings, the protobuf runtime for scip.proto, x/mod semver and pseudo-versions, path/filepath,
  strconv.Quote/Unquote, text/scanner, net/url (remotes, and escaping of paths in file URLs), go/types' Identical, Implements, method sets,
  TypeString and ObjectString, typeutil.IntuitiveMethodSet, go/token (line tables, line directives).
* The contracts assumed of go/types and go/packages, all stated as hypotheses in `SpecOcc` (`typed_file`: which
  objects the type checker records at which identifiers; `defs_at_idents`), `SpecLookup` (`go_object`),
  `SpecDecl` (`wf_pkg_pos`: distinct identifiers have distinct positions) and `SpecIndex` (`indexable`); for the
  whole command they are collected in `PropEnd` (`go_guarantees`, `go_works`).
  `Ex*.v` shows that concrete projects satisfy them.

### Validation against the project's own tests

/repo/internal/testdata/snapshots has 22 input directories and the golden files that the test
`internal/index/scip_test.go` expects for them: every source line with the occurrences, symbols, kinds, signatures,
documentation, relationships, diagnostics and enclosing ranges of the index. `Snapshot.v` is an executable front end
of the model of `index.Index` (loader, both passes, search for implementations; `load_run_sound`: its loader is an
execution of the model's `load_packages`) followed by the test's formatter; `Snap*.v`, one per directory, prove
by computation that **the model's output equals the golden files byte for byte, for all 22 directories**. These are
tests, not proofs of any property: they are evidence for the transcription. The inputs (what packages.Load would
return: syntax trees, `types.Info`, scopes, method sets, modules) come from `tools/snapshot` (`gofront.py`: a scanner,
parser and type checker for the Go that the directories use; `stubs.py`: the declarations they use of the standard
library; `emit.py`: the Coq terms, the sha256 sums and the results of go/format); texts of types and objects are
printed by the model. The golden files contain the output of the code at this commit with its real dependencies, so
they also check the models of the scip bindings, go/types' printer and go/token. (This found one error: go/types
separates type arguments by ", " since Go 1.25, the model had ",".)

The same directories test the hypotheses. `Contract.v` has a decision procedure for everything that the theorems about
an indexed project assume (`indexable`, `analysable`, `iteration_ok` of `search_indexed`, and `scopes_ok` and
`wf_pkg_pos`), with a proof that passing it gives the hypotheses (`contract_ok`, `scopes_contract_ok`); each `Snap*.v`
evaluates it: all 22 directories meet all of them, so the theorems apply to real programs.

### Not modelled

* The go command, packages.Load and the type checker: their results are inputs.
* Parsing of Go source and of the command line (kong), the text of log messages and of progress
  lines other than that it is printed (C55), and time (durations are inputs).
* sha256, crc32 and the vcs library: functions of which nothing is assumed, except, where a theorem says so, that
  a digest distinguishes the texts at hand.
* go/format (in signatures): an oracle assumed to change layout only, where used.
* Files outside the Unix path syntax (Windows).
* Memory exhaustion, and integer overflow except where the code converts to int32 (C14, C15).
* Test helpers (`internal/testutil`, `*_test.go`), and generated or vendored code.

## Properties

@@TABLE@@

## Findings

Behaviour of the pinned commit that contradicts what a user would rely on, each proved on the model:

1. Interface methods, methods declared through an alias and fields of a struct shared by two named types have
   another symbol in the index of their own module than in a client's index (`C06_*_refuted`).
2. Type parameters are never labelled as such (`C08_type_parameter_refuted`).
3. A use of a type parameter before its definition (`F[S ~[]E, E any]`) is not linked to it (`C12`).
4. After a variable with a parenthesised (or otherwise unhandled) type, later variables of the same group get
   wrong symbols (`C17_parenthesised_type_refuted`; for every later variable of every such group: `C17_disturbed_refuted`).
5. Members of a group after a function literal with declarations show that literal's comments (`C19_nested_group_refuted`).
6. `C21_bare_package_name_refuted`: a package name used without selector (a type error that does not stop the
   load) crashes the indexer.
7. Vendored imports are highlighted with a wrong range (`C15_vendored_refuted`).
8. Symbols with a package field that starts with a space cannot be read back (`C01_leading_space_refuted`).
9. Loading: a variant with more files but fewer imports loses packages (`C26`), a package below `std/` collides with
   the standard library (`C27`), normalising twice can change versions (`C25`).
10. Implementations: a type that gets unexported methods by embedding a type of another package is not found
    (`C33`); a method can be recorded as an implementation of itself (`C34`).
11. Fingerprints: equal for different local types (`C31`); the matcher panics or diverges on some pairs (`C37`).
12. The command line: output file left after a crash or through a symbolic link, previous output destroyed by a
    failed run (`C40`); without -q, `-o -` mixes progress text into the index (`C55`); `-list-missing` can never
    report anything (`C42`); a negative verbosity panics (`C50`).
13. Environment: nearest go.mod missed inside repositories (`C45`), errors swallowed when no module name is found
    (`C48`), scp-like remotes with other users or absolute paths named differently (`C46`), nested-module tags and
    several tags on a commit give a version no client uses (`C56`), options taken from the working directory
    instead of the module root (`C60`).
14. Signatures: generic type declarations lose their type parameters, alias constraints show import paths, locals
    drop package names (`C62`); unterminated quotes and backticks in tags (`C51`).
15. Parameters and variables inside function literals of package-level variables become global symbols that
    collide (`C59_function_literal_refuted`).
16. Embedded pointers in the struct type of a variable are registered at the star: described but not defined
    anywhere, and not found from other files (`C63_embedded_refuted`).
17. A struct tag whose value is not valid UTF-8 (`"\xff"`) in an anonymous struct type of a declared field makes the
    encoding of its document, and so the whole run, fail (`C66_tag_refuted`).

18. Fields of a struct behind a slice, array, map, pointer or channel in the declared type of a package-level variable
    (`var x []struct{ A int }`) are only local symbols of their file, and their uses in other files are no references
    (`C63_slice_refuted`). The same holds for `type T []struct{...}` and the like, and for members behind channels,
    function types or parentheses in the fields of a declared type (`C63_behind_refuted`, for every such member;
    `C63_type_slice_refuted`).
19. Fields in the values of `var a, b = ...` are filed under line and column without the file: two such specs at the
    same place in two files of a package share symbols (`C63_inline_refuted`), and the symbols change whenever the
    declaration moves to another line (`C74_inline_refuted`).
20. A type parameter used before its declaration (`func F[S ~[]E, E any]`) gets the symbol of the package-level type of
    the same name if there is one in the package: find-references of `type E int` shows it, though it is another entity
    (`C67_type_parameter_refuted`).
21. Fields of a struct literal in a function's results (`func F() struct{ A int }`) are only local symbols of their file;
    `F().A` in another file is no reference (`C68_struct_result_refuted`).  Two interface literals in one function's
    results share the symbols of methods with the same name (`C68_two_results_refuted`).
22. After a line directive without a column (`//line f.y:10`: output of goyacc, and the Go files that cgo generates and
    that the loader returns for packages that use cgo) go/token answers column 0, and every range becomes
    `[line, -1, -1]`: it selects nothing, and its line is that of another file (`C69_line_directive_refuted`).  The
    other theorems exclude such files by the hypothesis that positions are positive (`wff_fit_ident`).
23. Documents do not say in which unit columns count (`position_encoding` is never set).  They are byte offsets; clients
    that count characters or UTF-16 units select another text on lines that are not ASCII (`C69_characters_refuted`).
24. All functions named `init` of a package get the same global symbol (`p/init().`): it has several definitions, and the
    description of each of them (`C70_init_refuted`).
25. `scip-go missing` looks up the names of the loaded files in a table that it has just filled with them: it always
    prints `No missing documents` (`C71_missing`).  `scip-go packages` lists the project's own packages (and builtin)
    under `Dependency packages` too (`C71_packages`).
26. `scip-go index --profile n -o mem.pprof` exits with code 0, but the profile overwrites the index
    (`C72_same_file_refuted`).
27. Unnamed parameters and results of function literals in package-level variables (`var F = func(int) error {...}`)
    become described symbols named after their types (`p/F:int.`, `p/F:error.`) that are defined nowhere; two of the same
    type are described twice under one symbol (`C75_unnamed_refuted`, `C75_unnamed_described`).
28. A method that implements a method of an interface of another module is related to a symbol (`p/I#M().`) that the index
    of that module never defines (it defines `p/I#M.`, see 1), and methods of types of other modules are not related at all:
    across repositories, find implementations works for types only (C78_remote_method_refuted).

## Tests of the theorems against wrong programs

`tools/mutate.py` applies one edit of `tools/mutations*.py` to a definition of the model in a scratch copy, rebuilds,
and records which proofs fail and which theorems of the manifest rest on them (directly or through the proofs that
failed) in `seeded/LOG.jsonl`: @@MUTATIONS@@. "killed": a theorem of a claim that the edit breaks fails;
"other": only supporting lemmas or theorems of other claims fail; "SURVIVED": everything still builds (the note in
the entry says why: dead code, or an edit that does not change behaviour).
