#!/usr/bin/env python3
# Generates ../properties.jsonl (one JSON object per line).
import json, os
P = []
def p(id, title, statement, quantifier, why, anchors):
    P.append(dict(id=id, title=title, statement=statement, quantifier=quantifier,
                  why_tests_cant=why, anchors=anchors))

p("C01", "Global symbol strings are unambiguous",
  "The string emitted for a global symbol determines the package manager, package name, package version and the full list of descriptors (name and kind) it was built from: two symbols built from different data never have the same string, whatever characters (spaces, backticks, slashes, '#', '.', '()') the names contain.",
  "all schemes, packages and descriptor lists of the shapes scip-go builds",
  "Escaping bugs only show on particular characters in particular positions; a test samples finitely many names.",
  ["internal/symbols/symbols.go:FromDescriptors", "internal/symbols/composer.go:Compose", "internal/visitors/scope.go:makeSymbol"])
p("C02", "Composed symbols do not depend on call history",
  "For every history of Compose calls, an object always gets the same answer: once a non-empty symbol was returned for an object (or an instance of it) every later call returns that symbol; if each object is always composed with the same package, the answer is the one a fresh composer would give.",
  "all sequences (hence all interleavings, the method body runs under one mutex) of Compose calls",
  "Memoisation bugs appear only for particular orders of calls on particular objects.",
  ["internal/symbols/composer.go:Compose"])
p("C03", "Compose yields a symbol exactly for nameable objects",
  "Compose returns the empty string exactly when the object is nil, belongs to no package, is of a kind without descriptors (label, builtin, nil), is a method whose receiver has no named base type, or is a field not directly in a package-level named struct type; otherwise it returns a well-formed symbol in the object's package namespace.",
  "all objects and packages", "An exhaustive decision rule over every object shape.",
  ["internal/symbols/composer.go:Compose", "internal/symbols/composer.go:describeFunc", "internal/symbols/composer.go:describeVar", "internal/symbols/composer.go:locateOwner"])
p("C04", "Instances and receiver spelling do not change a symbol",
  "Compose gives an instantiated generic function/method/field the symbol of its generic declaration, and gives a method the same symbol for receivers T, *T, **T or an alias of these.",
  "all objects, all receiver type nestings", "Unbounded nesting of pointers and aliases.",
  ["internal/symbols/composer.go:Compose", "internal/symbols/composer.go:nameType"])
p("C05", "A declaration has the same symbol when indexed and when used as a dependency",
  "For package-level types, functions, constants and variables, methods on named types, and direct fields of package-level struct types, the symbol recorded while visiting the declaring package's syntax equals the symbol composed on demand when the package is only a dependency, so that cross-repository navigation links up.",
  "all packages, declarations and names", "Two independent code paths must agree on every input.",
  ["internal/visitors/visitor_func.go:Visit", "internal/visitors/visitor_type.go:Visit", "internal/visitors/visitor_var.go:Visit", "internal/symbols/composer.go:Compose"])
p("C06", "Cross-index agreement also holds for interface methods, alias receivers and shared struct fields",
  "The agreement of C05 extends to interface methods, to methods declared on an alias receiver, and to fields of a struct type that several named types share as underlying type.",
  "all packages and declarations", "Snapshot tests index one side only, so a disagreement between the two paths is invisible to them.",
  ["internal/visitors/visitor_type.go:Visit", "internal/visitors/visitor_func.go:baseTypeName", "internal/symbols/composer.go:locateOwner"])
p("C07", "Different package-level declarations have different symbols",
  "Within a package, two package-level declarations (types, functions, methods, constants, variables, struct fields/interface methods of named types) with different Go identities get different symbols.",
  "all packages obeying Go's no-redeclaration rules", "Quantifies over pairs of declarations in any package.",
  ["internal/visitors/visitor_type.go:Visit", "internal/visitors/visitor_var.go:Visit", "internal/visitors/visitor_func.go:Visit"])
p("C08", "The kind attached to a symbol matches the kind of Go object",
  "Functions, methods, interface methods, structs, interfaces, aliases, other types, fields, variables, constants, packages and type parameters are labelled with the corresponding SCIP kind; a missing object is labelled unspecified.",
  "all Go objects", "A total decision table.", ["internal/symbols/kind.go:KindForObject"])
p("C09", "Local symbols are unique per document",
  "In every document, the local symbols are exactly 'local 0' .. 'local n-1', each belonging to exactly one definition position, and each has exactly one symbol-information entry.",
  "all source files and traversals", "Numbering bugs depend on the whole traversal history of the file.",
  ["internal/visitors/visitor_file.go:createNewLocalSymbol", "internal/visitors/visitor_file.go:ToScipDocument"])
p("C10", "Every definition occurrence is described in its own document",
  "Apart from the package clause, the symbol of every definition occurrence of a document has a symbol-information entry in that same document.",
  "all files, packages and symbol tables", "Relates two passes over arbitrary syntax.",
  ["internal/visitors/visitor_file.go:Visit", "internal/visitors/visitor_file.go:ToScipDocument", "internal/lookup/lookup.go:SymbolsForFile"])
p("C11", "Go-to-definition: a reference carries the symbol of its definition",
  "A reference to an object declared at package level (or otherwise registered while visiting the declarations) in any project package, and a reference to a local whose definition was visited earlier in the same file, carries exactly the symbol of the definition occurrence.",
  "all pairs of definition and reference, across files and packages", "Holds between arbitrary pairs of identifiers in arbitrary programs.",
  ["internal/visitors/visitor_file.go:Visit", "internal/lookup/lookup.go:GetSymbolOfObject"])
p("C12", "Locals referenced before their definition still resolve to the local",
  "A reference to a local object carries the local's symbol even if the reference precedes the definition in the file (as in func F[S ~[]E, E any]).",
  "all files", "Depends on traversal order on unusual but legal programs.",
  ["internal/visitors/visitor_file.go:Visit"])
p("C13", "Occurrences are complete and exact",
  "A document's occurrences are exactly: the package clause first, then in source traversal order one definition per defining non-blank identifier, one read reference per identifier resolved to a symbol, and the references of import specs and package qualifiers; nothing else.",
  "all files", "The exact output sequence for every possible syntax tree.",
  ["internal/visitors/visitor_file.go:Visit", "internal/visitors/visitor_file.go:NewFileVisitor"])
p("C14", "Occurrence ranges are valid SCIP ranges covering the identifier",
  "Every range has three elements when start and end lie on the same line and four otherwise, decodes to the zero-based start and end of the token, and is never inverted for positions that fit in 32 bits.",
  "all positions", "Arithmetic over all line/column values.",
  ["internal/visitors/visitors.go:scipRange", "internal/symbols/symbols.go:RangeFromName"])
p("C15", "Import references cover exactly the import path between the quotes",
  "The reference emitted for an import spec spans exactly the characters between the quotes of the path literal when the imported package's path is the literal text.",
  "all import specs", "Arithmetic over all positions and path lengths.",
  ["internal/visitors/visitor_file.go:emitImportReference", "internal/symbols/symbols.go:RangeFromName"])
p("C16", "Package symbols are partitioned among the documents",
  "Every symbol-information entry recorded for a package is emitted in exactly one document, the one of the file that contains its position, independently of map iteration order.",
  "all symbol tables, file sets and map iteration orders", "Go map iteration is randomised; tests see one order.",
  ["internal/lookup/lookup.go:SymbolsForFile"])
p("C17", "Declaring one variable does not affect the symbols of another",
  "The symbol of a package-level variable or constant is its package namespace followed by its name, whatever other specs precede it in the same declaration group.",
  "all var/const declaration groups", "A scope-stack discipline that must hold after every syntactic form.",
  ["internal/visitors/visitor_var.go:Visit", "internal/visitors/scope.go"])
p("C18", "Deprecation diagnostics are exact",
  "A definition or global reference carries the 'Deprecated' diagnostic exactly when some line of the symbol's documentation starts with 'Deprecated:'.",
  "all documentation strings and identifiers", "Quantifies over all texts.",
  ["internal/document/document.go:IsDocDeprecated", "internal/visitors/visitor_file.go:isDeprecated"])
p("C19", "Hover documentation follows the declaration's comments",
  "The documentation of a declared symbol is: first its own doc comment (falling back to the enclosing declaration's), then the declaration block's comment when different; never an empty string, never the same text twice, at most two entries.",
  "all declarations and comment texts", "All combinations of nested comments.",
  ["internal/document/document.go:SetNewSymbolForPos", "internal/document/document.go:extractHoverText"])
p("C20", "Each package is described once, its docs ordered by relevance",
  "Package documentation lists every package comment exactly once, doc.go first, then the file named like the package, then other files, then tests, keeping the load order within a class.",
  "all packages and file lists", "Stable-sort property over all lists.",
  ["internal/index/package_ident.go:findPackageDocs", "internal/index/package_ident.go:fileRelevance"])
p("C21", "Visiting a file never crashes",
  "For every file of a type-checked package the file visitor terminates without panicking.",
  "all files satisfying what go/types guarantees for error-free packages (and: also files with type errors)", "Absence of a crash for every input.",
  ["internal/visitors/visitor_file.go:Visit", "internal/visitors/visitor_file.go:createNewLocalSymbol", "internal/lookup/lookup.go:GetSymbolOfObject"])
p("C22", "Registering symbols: repeat is a no-op, conflict is last-wins",
  "After any sequence of registrations, looking up a position returns the entry of the last registration at that position that changed its symbol; re-registering the same symbol keeps the original entry.",
  "all registration sequences", "All histories.",
  ["internal/lookup/lookup.go:Set", "internal/lookup/lookup.go:Get"])
p("C23", "Symbol lookup of an object is independent of earlier lookups",
  "The process-wide skip cache and the composer memo never change the answer of GetSymbolOfObject: after any history of lookups the answer equals the one on a fresh process.",
  "all histories of lookups", "History dependence needs particular sequences.",
  ["internal/lookup/lookup.go:GetSymbolOfObject"])
p("C24", "Objects resolve to declared entries before composed ones",
  "GetSymbolOfObject returns the entry registered at the object's position in its own package, else in '<path>.test', else in '<path> [<path>.test]', else a composed symbol, else an error; universe objects, labels and unsafe objects yield nothing.",
  "all objects and tables", "Decision rule over all states.",
  ["internal/lookup/lookup.go:GetSymbolOfObject", "internal/lookup/lookup.go:testPackageCombinations"])
p("C25", "Module versions are normalised for cross-repository navigation",
  "After loading, every package has a non-empty module path and version; a pseudo-version becomes its revision, build metadata is dropped, any other non-empty version is kept; an unknown version becomes the indexed module's version for siblings and '.' otherwise; normalising again changes nothing.",
  "all versions, modules and options", "All version strings; idempotence.",
  ["internal/loader/loader.go:normalizePackage", "internal/loader/loader.go:hasSameRepoRoot", "internal/loader/loader.go:isNestedDir"])
p("C26", "Every transitively imported package is loaded",
  "After loading, the package table contains every package reachable through imports from the requested packages, and only those (plus builtin).",
  "all import graphs (including cycles) and all map iteration orders", "Graph closure for every graph and visiting order.",
  ["internal/loader/loader.go:addImportsToPkgs", "internal/loader/loader.go:LoadPackages"])
p("C27", "The variant with most files wins, whatever the visiting order",
  "When several variants of a package share an import path, the table keeps one with the maximal number of parsed files among those visited; the traversal terminates on every graph; the result's file counts do not depend on import iteration order.",
  "all import graphs and iteration orders", "Random map iteration; tests see few orders.",
  ["internal/loader/loader.go:addImportsToPkgs"])
p("C28", "Standard library and driver overrides",
  "Packages without module or of module 'std', and all packages when indexing the standard library, belong to module github.com/golang/go/src at the configured Go version with any 'std/' prefix removed from the path; with a packages driver the module is taken from the options; unless a package of that path is loaded, an empty package builtin of module github.com/golang/go/src/builtin at the Go version is known but is no project package.",
  "all packages and options", "Decision rule.", ["internal/loader/loader.go:normalizePackage", "internal/loader/loader.go:isStandardLib"])
p("C29", "Every loaded package gets a package symbol, and imports resolve to it",
  "Registering package symbols never panics after a successful load, and every import of a project package resolves to the symbol of the imported package path.",
  "all load results", "All graphs.", ["internal/lookup/lookup.go:SetPkgSymbol", "internal/symbols/symbols.go:FromDescriptors", "internal/visitors/visitor_file.go:Visit"])
p("C30", "Identical types have equal fingerprints",
  "If two method signatures are identical Go types then their fingerprints are equal strings.",
  "all pairs of types", "All type structures of any depth.",
  ["internal/implementations/fingerprint/fingerprint.go:Encode"])
p("C31", "Fingerprints of non-tricky types determine the type",
  "If two non-tricky types have equal fingerprints then they are built the same way from the same basic and (package-path, name)-named types.",
  "all pairs of types", "Injectivity of a printer over all trees.",
  ["internal/implementations/fingerprint/fingerprint.go:Encode"])
p("C32", "The method-count and method-mask filters lose no implementation",
  "Whenever a type implements an interface (types.Implements on T or *T), the type passes the method-count and bitmask pre-checks.",
  "all types, interfaces, hash functions", "False negatives depend on hash bits.",
  ["internal/implementations/implementations.go:methodMask", "internal/implementations/implementations.go:findImplementations"])
p("C33", "The unexported-method filter loses no implementation",
  "Whenever a type implements an interface having unexported methods, the type passes the same-package pre-check.",
  "all types and interfaces", "Depends on embedding across packages; absent from the snapshots.",
  ["internal/implementations/implementations.go:findImplementations", "internal/implementations/implementations.go:hasUnexportedMethods"])
p("C34", "Implementation relationships are exact, sorted, duplicate-free and order-independent",
  "After the analysis a local concrete type's symbol has an implementation relationship to exactly the interfaces (local and remote) that pass the checks, in sorted order without duplicates, independently of map iteration order; the same for its methods.",
  "all sets of types and interfaces, all map iteration orders", "Random iteration order and aliasing of shared method entries.",
  ["internal/implementations/implementations.go:findImplementations", "internal/implementations/implementations.go:AddImplementationRelationships"])
p("C35", "External symbols are exactly the remote types implementing local interfaces",
  "An external symbol is emitted for exactly those exported remote concrete types that implement some local interface; remote-to-remote relationships are never emitted.",
  "all package sets", "Set equality over all inputs.",
  ["internal/implementations/implementations.go:AddImplementationRelationships"])
p("C36", "Candidate extraction",
  "Candidates are exactly the package-level named types with at least one method: all of them in project packages, the exported ones in dependencies; interfaces and concrete types are separated.",
  "all packages", "Set equality.", ["internal/implementations/extractor.go:Extract", "internal/implementations/extractor.go:classify"])
p("C37", "Fingerprint matching is sound for identical types",
  "Matches(t, t) holds for every parsed fingerprint; types without type parameters match exactly when equal; parsing an encoded type yields its tree.",
  "all fingerprints", "All trees.", ["internal/implementations/fingerprint/fingerprint.go:unify", "internal/implementations/fingerprint/fingerprint.go:parseFingerprint"])
p("C38", "Emission order and error handling of Index",
  "Index writes the metadata first, then one document per parsed file in package-path order and file order, then external symbols; if any write fails nothing further is written and exactly that error is returned; if loading fails only the metadata has been written.",
  "all projects, all points at which the writer fails", "Every failure point.",
  ["internal/index/scip.go:Index"])
p("C39", "The concatenated output is one valid index",
  "The bytes written for the sequence of messages, concatenated, decode as one SCIP Index with that metadata, all documents in order and all external symbols in order.",
  "all message sequences and payloads", "All byte strings.",
  ["cmd/scip-go/main.go:Run"])
p("C40", "A failed run leaves no output file",
  "If indexing fails, a regular output file is removed and the error is reported; on success the output file is kept with exactly the written bytes; stdout and non-regular outputs are never removed.",
  "all failure points and output kinds", "Every crash point of the run.",
  ["cmd/scip-go/main.go:Run"])
p("C41", "Index waits for its worker under every schedule",
  "Under every interleaving of the worker, the waiter and the progress printer, the progress function returns only after the worker has finished, the error seen afterwards is the worker's final error, and printed progress never exceeds the total.",
  "all schedules and tick timings", "Schedules.",
  ["internal/output/output.go:WithProgressParallel", "internal/index/scip.go:Index"])
p("C42", "Every parsed file gets a document",
  "After visiting, every parsed file of every project package has a document (so 'scip-go missing' lists nothing and indexing dereferences no missing document), with that file's relative path.",
  "all projects and visiting orders", "All projects.",
  ["internal/visitors/visitors.go:VisitPackageSyntax", "internal/index/scip.go:ListMissing", "internal/index/scip.go:indexVisitPackages"])
p("C43", "Package listing is sorted, duplicate-free and complete",
  "GetPackages returns the project package paths and all package paths, each sorted and without duplicates, independently of map iteration order, and every project path is among all paths.",
  "all load results and map iteration orders", "Random iteration order.",
  ["internal/index/scip.go:GetPackages"])
p("C44", "Relative paths identify files",
  "The relative path of a document, resolved against the module root, is the file's absolute path; distinct files get distinct relative paths; files under the module root get a path without '..'.",
  "all clean absolute paths", "All paths.", ["internal/visitors/visitors.go:VisitPackageSyntax"])
p("C45", "The module root search finds the nearest enclosing go.mod",
  "The default module root is the nearest ancestor of the working directory, within the repository, that contains a go.mod; the search terminates.",
  "all directory layouts", "All layouts.", ["cmd/scip-go/paths.go:searchForGoMod"])
p("C46", "Repository names do not depend on the remote's URL style",
  "git@host:path.git, https://host/path.git, ssh://git@host:port/path.git (with or without .git) give the same repository name host/path; in URLs the path's percent escapes are read, and a malformed escape or a missing scheme yields no name.",
  "all hosts and paths", "All strings.", ["internal/git/infer_repo.go:parseRemote"])
p("C47", "The inferred module version prefers semver tags",
  "With tags on HEAD the first valid semantic version tag is chosen, else the first tag; without tags the first 12 characters of the commit.",
  "all tag lists and commits", "All tag lists.", ["internal/git/infer_module_version.go:InferModuleVersion"])
p("C48", "Module name resolution reports failures",
  "If no module name can be determined an error is returned; an explicit name wins; otherwise the go.mod module path; otherwise the name derived from the repository.",
  "all environments", "All failure combinations.", ["internal/modules/modules.go:ModuleName", "internal/modules/modules.go:resolveModuleName"])
p("C49", "Displayed durations are close and stable",
  "The displayed duration never exceeds the elapsed time, differs from it by less than the unit chosen, and formatting twice changes nothing; longer times never display shorter.",
  "all non-negative durations", "Arithmetic over all durations.", ["internal/output/duration.go:humanElapsed"])
p("C50", "Log level selection",
  "Quiet always selects error level; otherwise each -V lowers the threshold one step down to debug, and never fails for any non-negative count.",
  "all flag combinations", "All counts.", ["cmd/scip-go/main.go:getLogLevel"])
p("C51", "Struct tags are shown with backticks, the rest of the text is kept",
  "Rewriting quoted tags leaves text without double quotes untouched and replaces each complete quoted literal by its value in backticks.",
  "all strings", "All strings.", ["internal/document/document.go:quotedTagsToBacktick"])
p("C52", "Identical anonymous types share member symbols",
  "Members of anonymous struct/interface types nested in a declaration get a scope derived only from the canonical type text, so identical types share symbols and the scope name can never clash with a Go identifier.",
  "all nested anonymous types", "All nestings.", ["internal/visitors/anon_type_key.go:anonTypeKey", "internal/visitors/visitor_type.go:walkAnonymousTypeFields"])
p("C53", "Every package-level declaration reaches the index",
  "In the output of a successful run, for every declaration in every file of every project package (functions, methods, types, variables, constants, struct fields, interface methods) the document of that file has a symbol information with the declaration's symbol, and a definition occurrence of it at the declared identifier.",
  "all type-checked projects, declarations, writers that succeed and map iteration orders", "All programs.",
  ["internal/index/scip.go:Index", "internal/visitors/visitors.go:VisitPackageSyntax", "internal/visitors/visitor_file.go:fileVisitor"])
p("C54", "Every use of a project declaration resolves to its symbol across files and packages",
  "In the output of a successful run, an identifier in any file of the project that go/types resolves to a package-level declaration of any project package has a reference occurrence, exactly at the identifier, with the symbol of that declaration: cross-file and cross-package references link up with definitions.",
  "all type-checked projects, uses and map iteration orders", "All programs.",
  ["internal/index/scip.go:Index", "internal/lookup/lookup.go:GetSymbolOfObject", "internal/visitors/visitor_file.go:fileVisitor"])
p("C55", "With -q -o - stdout is exactly the index",
  "When the index is written to stdout in quiet mode, the bytes on stdout are exactly the serialized index: they decode to the metadata, documents and external symbols of the run.",
  "all projects and runs", "All byte strings; depends on every print statement.",
  ["cmd/scip-go/main.go:Run", "internal/output/output.go:WithProgress"])
p("C56", "Cross-repository navigation",
  "A module is indexed in its own repository, and a program that requires the module (not replaced) is indexed in another, at a version that is shown like the version the module was indexed with: each use in the program of a package-level type, function, method, variable, constant or field of the module is a reference, exactly at the identifier, to the same symbol text that the module's index defines exactly at the declared identifier. The version inferred from git by default is such a version for a release tag and for an untagged commit required by pseudo-version.",
  "all pairs of type-checked projects, declarations, uses, versions, map iteration orders and writers",
  "Ranges over pairs of programs indexed separately; no test compares the indexes of two repositories.",
  ["internal/index/scip.go:Index", "internal/symbols/symbols.go:SymbolComposer", "internal/loader/loader.go:normalizePackage", "internal/git/infer_module_version.go:InferModuleVersion"])
p("C57", "The index is deterministic",
  "Two successful runs on the same loaded project with the same flags give the same metadata, the same documents in the same order with the same occurrences in the same order, and the same symbol information (with relationships) and external symbols up to order, whatever the iteration orders of Go maps; and one run succeeds exactly if the other does, as long as the writer works.",
  "all type-checked projects and all iteration orders of every Go map in the run", "Go randomises map iteration; a test sees a few orders.",
  ["internal/index/scip.go:Index", "internal/impls/implementations.go:AddImplementationRelationships", "internal/document/document.go:ToScipDocument"])
p("C58", "Navigation inside a file works for every object",
  "In the index of a successful run, for every identifier that defines an object (package-level or local, any kind but labels) and every later identifier of the same file that uses that object, the definition occurrence at the first and the reference occurrence at the second have the same symbol; the variable of a type switch is the definition for its uses in every clause.",
  "all type-checked projects, files and pairs of identifiers", "All programs.",
  ["internal/visitors/visitor_file.go:Visit", "internal/visitors/visitor_file.go:createNewLocalSymbol", "internal/index/scip.go:Index"])
p("C59", "What is declared inside a function is local to its document",
  "In the index of a successful run, every identifier that declares an object inside a function (receiver, type parameter, parameter, named result, or anything in the body) has a definition occurrence with a document-local symbol, and different declarations of a file have different symbols, so that references to one are never listed as references to another.",
  "all type-checked projects, files and pairs of identifiers", "All programs.",
  ["internal/visitors/visitor_func.go:Visit", "internal/visitors/visitor_var.go:Visit", "internal/visitors/visitor_file.go:createNewLocalSymbol"])
p("C60", "The options of a run follow the command line and the module it is started in",
  "Flags given on the command line take effect whatever the defaults; the module root is always an absolute clean path (a relative one is resolved from the working directory); without flags, in a directory with a go.mod, the module path is that of the go.mod, the version the one git describes for the module indexed, the Go version the one the go command reports; another packages driver is detected exactly when packages.Load uses one.",
  "all machines (directories, repositories, command outputs, environments) and flag combinations", "All environments; the repository's tests never run the command line program in prepared environments.",
  ["cmd/scip-go/main.go:makeOptions", "cmd/scip-go/main.go:defaultModuleVersion", "cmd/scip-go/main.go:defaultGoVersion", "cmd/scip-go/paths.go:searchForGoMod"])
p("C61", "Hover information of declared and local symbols reaches the index",
  "In the index of a successful run, every package-level declaration is described in the document of its file, under its symbol, with the declared name, the kind and the signature of its object and the comments of its declaration; and everything declared inside a function is described in its document under its local symbol with the name, kind and declaration text of its object.",
  "all type-checked projects, declarations, comments, map iteration orders and writers", "All programs.",
  ["internal/document/document.go:SetNewSymbolForPos", "internal/visitors/visitor_file.go:ToScipDocument", "internal/lookup/local.go:SignatureText", "internal/index/scip.go:Index"])
p("C62", "Signature texts read like the declaration",
  "The signature text of a symbol is the keyword, the bare name and the type as it is written in the object's own package (own types bare, others with their package's name, never an import path), with the value for constants, = and the aliased type for aliases and, up to layout, the underlying type for type declarations; it is never empty.",
  "all objects, types (of any nesting), package names and import paths, and every formatter that changes only layout", "All types.",
  ["internal/document/document.go:typeStringForObject", "internal/document/document.go:formatTypeDeclaration", "internal/document/document.go:formatAliasDeclaration", "internal/document/document.go:expandTypeExpr", "internal/lookup/local.go:SignatureText"])
p("C63", "Members of anonymous types can be navigated",
  "In the index of a successful run, every member of an anonymous struct or interface type inside a package-level type or variable declaration (at any nesting through maps, slices, arrays and pointers) is described in the document of its file, its name is a definition of its symbol, and every use of the member in any file of the project is a reference to it.",
  "all type-checked projects, declarations, nestings and uses", "All programs.",
  ["internal/visitors/visitor_var.go:Visit", "internal/visitors/visitor_type.go:Visit", "internal/visitors/visitor_file.go:Visit", "internal/index/scip.go:Index"])
p("C64", "The command writes a right index or fails cleanly",
  "If `scip-go index` exits with code 0 and its output is a regular file, then only that file has changed and it decodes to an index of the project that was loaded: the metadata names the module root, every file has one document whose path leads to it from that root, every declaration is defined under its documented symbol at the place it is declared, and every use in the project refers to that symbol. Whatever the flags and the machine, the command ends with code 0, 1 or 2; with code 1 and a plain output path the output file is gone and nothing else has changed; it crashes (code 2) neither with --skip-implementations nor if all method types are ones that fingerprints cover.",
  "all command lines, machines, sets of packages returned by the package loader, type-checked projects, map iteration orders and system call failures", "All programs and environments; the repository's tests never run the command line program.",
  ["cmd/scip-go/main.go:Run", "cmd/scip-go/main.go:makeOptions", "internal/loader/loader.go:LoadPackages", "internal/index/scip.go:Index", "internal/impls/implementations.go:AddImplementationRelationships"])
p("C65", "The project root in the metadata is a URL of the module root",
  "The project root written to the metadata is a file URL without host, query or fragment, made only of characters that a URL may contain, and reading it (undoing percent escapes) gives exactly the absolute path of the module root, whatever bytes that path contains; different roots have different URLs.",
  "all directory names (any bytes) and flags", "All paths.",
  ["internal/index/scip.go:Index"])
p("C66", "Runs fail only for reasons outside scip-go",
  "If the options can be computed, the packages load, the names, paths, comments and sources are valid UTF-8 (as Go demands) and the system reports no I/O error, then every message of the index can be encoded and the command exits with code 0. In particular no declaration of a project makes indexing of the whole project fail.",
  "all projects, flags and outputs", "One declaration anywhere in the project can stop the whole run; all texts of all declarations matter.",
  ["internal/index/scip.go:Index", "internal/document/document.go:quotedTagsToBacktick", "internal/document/document.go:typeStringForObject", "cmd/scip-go/main.go:main"])
p("C67", "Find-references is precise",
  "In the index of a successful run, the symbol of a package-level declaration (type, function, method, variable, constant, field or interface method) is attached to nothing else: a definition occurrence with that symbol is at an identifier of the declaring package that introduces that entity, a reference with it is at an identifier whose use was resolved by the type checker to an object at a place that introduces it, and only documents of files that introduce it describe it. Only exception: an object of the declaring package with the same name that is declared neither at package level nor earlier in the file (a type parameter used before its declaration).",
  "all type-checked projects, pairs of packages, files, occurrences and symbols of package-level declarations", "All programs: a single wrong link is invisible to snapshot tests.",
  ["internal/index/scip.go:Index", "internal/visitors/visitor_file.go:Visit", "internal/visitors/visitor_type.go:Visit", "internal/visitors/visitor_var.go:Visit", "internal/lookup/lookup.go:GetSymbolOfObject", "internal/symbols/composer.go:Compose"])
p("C68", "Members of anonymous types in function results can be navigated",
  "In the index of a successful run, every member of an anonymous struct or interface type in the results of a package-level function or method is described in the document of its file under a symbol made of the function and the member's name, its name is a definition of it, every use in any file of the project is a reference to it, and members of different functions have different symbols.",
  "all type-checked projects, functions, result types of any nesting, members and uses", "All programs.",
  ["internal/visitors/visitor_func.go:Visit", "internal/visitors/visitor_func.go:receiverTypeName", "internal/visitors/visitor_file.go:Visit", "internal/index/scip.go:Index"])
p("C69", "Ranges select the names in the source text",
  "In the index of a successful run, for a file without line directives whose imports are not vendored: the range of every occurrence, read as zero-based lines and byte columns of the file's text, covers exactly the name of an identifier of the file at that identifier's place, or the path of an import between its quotes; and every enclosing range is empty or covers exactly the text of a whole function declaration. A range covers at most one piece of text.",
  "all type-checked projects, file texts (any bytes), file sets, files and occurrences", "All texts and layouts.",
  ["internal/visitors/visitors.go:scipRange", "internal/symbols/symbols.go:RangeFromName", "internal/visitors/visitor_file.go:Visit", "internal/index/scip.go:Index"])
p("C70", "Go-to-definition has exactly one answer",
  "In the index of a successful run, the symbol of a package-level declaration whose entity is declared by one identifier only (the type checker rejects all other redeclarations, except several functions named init) occurs as a definition exactly once over all documents, at that identifier's place in the document of its file, and is described exactly once over all documents.",
  "all type-checked projects, declarations, documents and occurrences", "All programs: one extra definition anywhere in the index makes the answer ambiguous.",
  ["internal/visitors/visitor_file.go:Visit", "internal/document/document.go:SetNewSymbolForPos", "internal/visitors/visitor_file.go:ToScipDocument", "internal/index/scip.go:Index"])
p("C71", "The packages and missing commands print what is loaded",
  "`scip-go packages` that exits with code 0 prints, after any progress messages, a title, the import paths of the packages asked for, a second title and the import paths of all packages they need (they themselves and builtin included), each list sorted and without repetition, one per line; the text is the same for all orders of map iteration and of following imports, and both lists can be read back from it. `scip-go missing` that exits with code 0 always prints that nothing is missing. Both always end; packages crashes only if making the options does, missing never if moreover the type checker's guarantees hold.",
  "all flags, machines, package graphs, map iteration orders", "All package graphs and iteration orders; no test of the repository runs these commands.",
  ["cmd/scip-go/main.go:Run", "internal/index/scip.go:GetPackages", "internal/index/scip.go:ListMissing", "internal/loader/loader.go:LoadPackages"])
p("C72", "Profiling changes nothing but the profile",
  "If mem.pprof is (or becomes) a regular file other than the output, `scip-go index --profile n` (n > 0) ends with the same exit code, message, stdout and files as without the option, except that mem.pprof then holds the profile; if mem.pprof cannot be created, it fails with code 1 and changes nothing; with n <= 0 the option has no effect.",
  "all flags, machines, projects, file trees (with symbolic links), outputs and failures", "All file trees and outcomes.",
  ["cmd/scip-go/main.go:Run"])
p("C73", "Imports and package qualifiers lead to the package",
  "In the index of a successful run, every import path, every import alias other than . and _, and every package name in a qualified identifier is a reference to the symbol of the loaded package it means; that symbol is defined exactly at the package clauses of the package's files - in the same index if the package belongs to the project, in the index of the providing repository if it belongs to a required module indexed at the required version - and nothing else refers to it.",
  "all projects, files, imports, aliases, qualified identifiers, pairs of repositories, map orders", "All programs and pairs of repositories.",
  ["internal/visitors/visitor_file.go:Visit", "internal/visitors/visitor_file.go:emitImportReference", "internal/index/scip.go:indexVisitPackages", "internal/index/package_ident.go:findBestPackageDefinitionPath", "internal/lookup/lookup.go:SetPkgSymbol"])
p("C74", "Symbols survive edits",
  "Take two successful runs over two states of a project. A package-level declaration present in both (same package path, module and version, same name and enclosing type) has the same symbol in both indexes, whatever else was edited: the file and position it is in, its type, value or comments, other declarations, files and packages. Followed into the other index, the symbol of a declaration leads only to declarations of the same entity there, and to nothing if the package no longer declares it; a renamed or moved entity, or one of another release, has another symbol. The members of anonymous types keep their symbols as long as the names of the declaration and the texts of the types around them stay the same.",
  "all pairs of type-checked projects and all declarations",
  "All pairs of program versions.",
  ["internal/symbols/symbols.go:FromDescriptors", "internal/visitors/visitor_var.go:Visit", "internal/visitors/visitor_type.go:Visit", "internal/index/scip.go:Index"])
p('C75','Described symbols are defined','Every symbol described in the document of a file (hover text, outline, symbol search) has a definition occurrence in that document, so that choosing it leads to its declaration. No description is of something that the source does not declare.',
  'every successful run, every file of the indexed packages, every symbol information of its document',
  'A test lists the symbols of one file; the claim ranges over all declarations, including nested types, function literals and locals of arbitrary programs.',
  ['internal/visitors/visitor_var.go','internal/visitors/visitor_type.go','internal/visitors/visitor_func.go','internal/visitors/visitor_file.go:ToScipDocument','internal/lookup/lookup.go:SymbolsForFile'])
p("C76", "--skip-implementations drops only relationships",
  "Two successful runs over the same project, one with and one without --skip-implementations, write the same metadata and the same documents in the same order, with the same occurrences and the same symbol information except that the run with the option has no relationships and no external symbols. The run with the option succeeds on every type-checked project, also where the search for implementations fails or crashes.",
  "all type-checked projects, map iteration orders and search schedules", "All programs and schedules: the search writes into the tables from which the documents are then made.",
  ["cmd/scip-go/main.go:Run", "internal/index/scip.go:Index", "internal/implementations/implementations.go:AddImplementationRelationships"])
p("C77", "Find implementations leads to exactly the implemented interfaces",
  "In the index of a successful run, the description of each non-interface type the project declares at package level relates it, as an implementation, to exactly the symbols of the interfaces with methods that it satisfies (those with unexported methods only in its own package), declared in the project or exported by a dependency; interfaces of the project are related to nothing. A relation to a type of the project leads to its definition in the index. A method the project declares is related to each method of the project's interfaces that it implements for such a type, and to nothing else. The external symbols are exactly the exported types of dependencies that implement interfaces of the project, once each, related to exactly these.",
  "all type-checked projects, declarations, dependencies, map orders and schedules", "All pairs of types of all programs.",
  ["internal/implementations/implementations.go:AddImplementationRelationships", "internal/implementations/extractor.go", "internal/index/scip.go:Index"])
p("C78", "Find implementations works across repositories",
  "Let program B require module A at the version A was indexed with. If a type of B implements an interface of A, the index of B relates it to the symbol that the index of A defines at the declaration of the interface. If a type of A implements an interface of B, the index of B contains the symbol that the index of A defines at the declaration of the type, as an external symbol related to the symbol of the interface. The same holds for the methods of these types and interfaces.",
  "all pairs of type-checked repositories, types, interfaces and methods", "All pairs of repositories.",
  ["internal/implementations/implementations.go:AddImplementationRelationships", "internal/implementations/extractor.go", "internal/symbols/composer.go", "internal/index/scip.go:Index"])
p("C79", "Running the command again gives the same index",
  "Run `scip-go index` twice with the same flags while nothing it reads changes (sources, go.mod files, git, environment, toolchain). If both runs exit with code 0, the two files decode to the same metadata, the same documents in the same order with the same occurrences and the same symbol information, and the same external symbols; only the order of the lists of symbols may differ. If one run exits with code 0 then so does the other unless the system reports an error for its output file. The loader records the same packages both times, whatever the order in which it walks over imports, and even if a package has several variants.",
  "all projects, package graphs with variants, and all pairs of runs: iteration orders of every map (imports, definitions, tables, methods), write errors, progress output", "Go randomises map iteration: a test sees a few orders on a few projects; the statement is about every pair of orders.",
  ["internal/loader/loader.go:LoadPackages", "internal/loader/loader.go:addImportsToPkgs", "internal/index/scip.go:Index", "internal/implementations/implementations.go:AddImplementationRelationships", "cmd/scip-go/main.go:main"])
p("C80", "The index does not depend on the order in which files are parsed",
  "packages.Load parses the files of a program at the same time and gives every file, when its parser starts, the next free range of positions of the FileSet, so the positions of all identifiers and objects differ between two runs on the same machine. If two runs of `scip-go index` differ in nothing else than these positions (and the order of map iterations), and both exit with code 0, the two files decode to the same metadata, the same documents in the same order with the same occurrences and symbol information, and the same external symbols, up to the order of the lists of symbols. If one exits with code 0 then so does the other unless the system reports an error for its output file.",
  "all projects and all rearrangements of positions that move an identifier as a whole and keep token.NoPos; all map iteration orders of both runs", "The interleaving of the parsers is chosen by the scheduler; a test sees the one or two arrangements that happen on its machine.",
  ["internal/loader/loader.go:LoadPackages", "internal/lookup/lookup.go", "internal/visitors/visitors.go", "internal/visitors/visitor_file.go", "internal/index/scip.go:Index", "internal/implementations/extractor.go"])
p("C81", "Indexing some packages of a project gives the documents of the whole project's index",
  "`scip-go index ./a` and `scip-go index ./...` give a file of package a the same document: the same path, the same occurrences in the same order (range, symbol, roles, enclosing range), and the same information about its symbols up to relationships. Packages that are indexed from source in one run and are dependencies known from export data in the other are named the same, wherever the file refers to a package or to a package-level declaration (type, function, method, constant, variable, named field or interface method) of theirs. The deprecation marks of references are the same. The definitions and the symbol information are the same whatever the file refers to.",
  "all projects P and parts Q of P (Q indexes fewer packages and may have loaded fewer), all map iteration orders of both runs, all files of packages that both index", "Which packages are indexed is chosen by the user on every run; uploads of parts of a repository only fit together if this holds for every partition.",
  ["internal/loader/loader.go:LoadPackages", "internal/index/scip.go:Index", "internal/lookup/lookup.go", "internal/visitors/visitor_file.go", "internal/symbols/composer.go"])
p("C82", "Editing the bodies of functions changes no other document and no declared symbol",
  "When the bodies of functions in some files are edited (not what is declared outside of them) and the project is indexed again, the index has, for every file that was not edited, the same document as before: the same path, the same occurrences in the same order (ranges, symbols, roles, enclosing ranges, deprecation marks), and the same information about its symbols up to relationships. The documents of the edited files have the same information about everything but local symbols. So re-indexing invalidates no other file's navigation, wherever packages.Load puts the files.",
  "all projects, all edits of function bodies that keep the package-level declarations (and do not move a var or const with several names), all map iteration orders, parse orders and worlds of both runs that end well", "Every edit of a repository is such a history of two runs; a unit test has one project and no second run.",
  ["internal/visitors/visitor_file.go", "internal/visitors/visitor_func.go", "internal/visitors/visitor_var.go", "internal/lookup/lookup.go", "internal/index/scip.go:Index", "internal/loader/loader.go:LoadPackages"])
p("C83", "Comments affect only documentation and deprecation",
  "When only the comments of a project's files are changed (package comments, doc comments, line comments, and with them the lines and columns at which the code stands) and the project is indexed again, and both runs of `scip-go index` exit with code 0, the two files decode to the same metadata, the same documents in the same order, the same occurrences in the same order with the same symbols and roles and for the same pieces of text, and the same symbols with the same kinds, display names, signatures, relationships and enclosing symbols, and the same external symbols. Only the documentation of symbols, the diagnostics (deprecation marks) of occurrences, and line and column numbers can differ. If the comments change in place, the ranges are equal too.",
  "all projects and all rewritings of comments that do not move a var or const with several names, wherever packages.Load puts the files; all map iteration orders and worlds of both runs that end well", "Comments reach nearly every visitor (docs are looked up for hovers, deprecation, package information); a test cannot show that no comment text reaches a symbol, a relationship or the choice of an occurrence.",
  ["internal/document/document.go", "internal/visitors/visitor_file.go", "internal/visitors/visitor_type.go", "internal/visitors/visitor_func.go", "internal/visitors/visitor_var.go", "internal/lookup/lookup.go", "internal/index/scip.go:Index", "internal/implementations/extractor.go"])
p("C84", "Adding files and packages changes no document of the files that were there",
  "When files and packages are added to a project (new files of existing packages, new packages, new dependencies) and the project is indexed again, and both runs of `scip-go index` exit with code 0, then every file that was there before and whose text is the same has a document in both indexes with the same path and the same occurrences in the same order (ranges, symbols, roles), and the same information about symbols except about its package itself and up to relationships. Of the package, only the file at which it is described can change.",
  "all projects, all added files and packages, all files that refer to nothing that was added (all files of a project that compiled before), wherever packages.Load puts the files; all map iteration orders and worlds of both runs that end well", "The symbol tables are shared by all files of a package and looked up by position and package path; a test adds one file to one project and cannot show that no added declaration ever captures, renames or renumbers what other files say.",
  ["internal/index/scip.go:Index", "internal/lookup/lookup.go", "internal/visitors/visitor_file.go", "internal/visitors/visitor_type.go", "internal/visitors/visitor_func.go", "internal/visitors/visitor_var.go", "internal/loader/loader.go", "internal/document/document.go"])
p("C85","The documents of the index do not depend on where the project is checked out",
  "Index the same project in two directories (module directories, go.mod files, file names and the project root moved together; flags, arguments and environment may differ as long as the other options come out the same). If both runs of scip-go index exit with code 0, their output files contain the same documents (relative paths, occurrences with ranges and enclosing ranges, symbols with documentation, signatures and relationships) and the same external symbols, up to the order of lists of symbols: only the metadata, which names the project root, can differ.",
  "every project, every pair of directories, every load, every iteration order of every map, every file system and progress output",
  "a test indexes a project in one directory; absolute paths leak through module versions (nested directories), composer defaults, file names used as keys and filters, or documentation file order",
  ["internal/loader/loader.go:normalizePackage","internal/index/scip.go:Index","internal/visitors/visitors.go:VisitPackageSyntax","internal/document/document.go:ToScipDocument","internal/index/package_ident.go:findPackageDocs","internal/implementations/extractor.go"])
out = os.path.join(os.path.dirname(__file__), "..", "properties.jsonl")
with open(out, "w") as f:
    for x in P: f.write(json.dumps(x) + "\n")
print(len(P))
