(** cmd/scip-go/main.go 26-37, 73-119, 245-308 and paths.go: from the command line to the options of a run.
    Parsing the command line (kong, which also takes flags from the environment: DefaultEnvars) is not
    modelled: the flags given are the input. *)
From Coq Require Import Ascii String.
From stdpp Require Import prelude strings gmap.
From Verif Require Import GoStr Scip GoTypes Ast Packages Symbols Paths Env Loader.
Open Scope string_scope.
Open Scope list_scope.

(** What the process sees: its directory and environment, and the programs and files it consults.
    Commands are indexed by the absolute directory they run in. *)
Record machine := Machine {
  mc_wd : option string;                   (** os.Getwd *)
  mc_toplevel : cmd_result;                (** git rev-parse --show-toplevel, in the working directory *)
  mc_stat : string → stat;                 (** os.Stat *)
  mc_remote : string → cmd_result;         (** git remote get-url origin *)
  mc_tags : string → cmd_result;           (** git tag -l --points-at HEAD *)
  mc_rev : string → cmd_result;            (** git rev-parse HEAD *)
  mc_go_list : string → cmd_result;        (** go list -mod=readonly -m -json *)
  (** json.Decoder: the first value of a text: None: an error; Some None: null; Some (Some v): an object
      whose GoVersion is v *)
  mc_decode : string → option (option string);
  mc_gomod : string → gomod_file;          (** reading and parsing a go.mod *)
  mc_roots : string → option string;       (** vcs.RepoRootForImportPath *)
  mc_driver : option string;               (** os.LookupEnv("GOPACKAGESDRIVER") *)
  mc_args : list string }.                 (** os.Args[1:] *)

(** main.go 26-37: SharedFlags, as given on the command line (None: not given) *)
Record flags := Flags {
  fl_module_root : option string; fl_repository_remote : option string; fl_module_path : option string;
  fl_module_version : option string; fl_go_version : option string;
  fl_quiet : bool; fl_verbose : Z; fl_skip_implementations : bool; fl_skip_tests : bool;
  fl_patterns : list string }.

(** config.go: IndexOpts *)
Record run_opts := ROpts { ro_index : index_opts; ro_skip_tests : bool; ro_patterns : list string }.

Section Options.
  Context (mc : machine).

  (** paths.go 12-18, 20-26: wd, toplevel *)
  Definition cwd : string := match mc_wd mc with Some d => d | None => "" end.
  Definition toplevel : string :=
    let '(out, ok) := command_run (mc_toplevel mc) in if ok then out else "".
  (** main.go 276-278: defaultModuleRoot; the search visits at most one directory per character *)
  Definition default_module_root : string :=
    match search_loop (mc_stat mc) cwd toplevel (S (S (slen cwd))) cwd with Some r => r | None => "." end.
  (** filepath.Abs (None: an error); also the directory a command runs in *)
  Definition path_abs (p : string) : option string :=
    if is_abs p then Some (clean p)
    else match mc_wd mc with Some d => Some (path_join d p) | None => None end.
  Definition command_dir (p : string) : string := match path_abs p with Some d => d | None => p end.

  (** main.go 280-286: defaultRepositoryRemote *)
  Definition default_repository_remote : string :=
    match infer_repo (mc_remote mc (command_dir default_module_root)) with Some r => r | None => "" end.
  (** main.go 288-294: defaultModuleVersion *)
  Definition default_module_version : res string :=
    let d := command_dir default_module_root in
    let! v := infer_module_version (mc_tags mc d) (mc_rev mc d) in
    Ok (match v with Some v => v | None => "" end).
  (** main.go 296-308: defaultGoVersion *)
  Definition default_go_version : res string :=
    let '(out, ok) := command_run (mc_go_list mc (command_dir default_module_root)) in
    if negb ok then Ok ""
    else match mc_decode mc out with
         | None => Ok ""
         | Some None => Panic "invalid memory address or nil pointer dereference"
         | Some (Some v) => Ok ("go" +:+ v)
         end.

  (** main.go 98-106: is an external packages driver in use? *)
  Definition driver_set : bool :=
    match mc_driver mc with Some d => negb (String.eqb d "off") | None => false end.

  (** main.go 73-119: makeOptions.  Ok None: an error is returned.  The defaults of all flags are computed by
      parseArgs (245-271), before and whether or not the flags are given; [gomod] is read at the module root. *)
  Definition make_options (f : flags) : res (option run_opts) :=
    let! version := default_module_version in
    let! gover := default_go_version in
    let given {A} (o : option A) (d : A) := match o with Some x => x | None => d end in
    match path_abs (given (fl_module_root f) default_module_root) with
    | None => Ok None
    | Some root =>
        let! level := get_log_level (fl_quiet f) (fl_verbose f) in
        let! name := module_name (mc_roots mc) (mc_gomod mc (path_join root "go.mod"))
                       (given (fl_repository_remote f) default_repository_remote) (given (fl_module_path f) "") in
        match name with
        | None => Ok None
        | Some (path, std) =>
            Ok (Some (ROpts
              (IOpts root (given (fl_module_version f) version) path (given (fl_go_version f) gover) std
                     driver_set (fl_skip_implementations f) (mc_args mc))
              (fl_skip_tests f)
              (match fl_patterns f with [] => ["./..."] | l => l end)))
        end
    end.
End Options.

(** golang.org/x/tools/go/packages/external.go, findExternalDriver: the driver that packages.Load uses (None:
    the go command); [found]: a program called gopackagesdriver in PATH *)
Definition packages_driver (env found : option string) : option string :=
  let tool := match env with Some d => d | None => "" end in
  if String.eqb tool "off" then None
  else if String.eqb tool "" then found else Some tool.
