(** The whole `scip-go index` command: cmd/scip-go/main.go 60-71, 121-198, with its parts put
    together: makeOptions (Options.v), LoadPackages (Loader.v), Index (Index.v) with the search for
    implementations (Impls.v), and the output file (Cli.v). *)
From Coq Require Import Ascii String.
From stdpp Require Import prelude strings gmap.
From Verif Require Import GoStr Scip GoTypes Ast Packages Symbols Document Lookup Pass1 Pass2 Paths Env Loader Index
  Output Proto Cli Options Url Fingerprint Impls PropDet.
Open Scope string_scope.
Open Scope list_scope.

(** loader.go 100-125: a panic while packages are normalised (recovered, becomes an error) *)
Inductive load_panics (o : index_opts) (w : world) : pheap → ptab → list nat → string → Prop :=
| LP_here h t p ps h1 t1 q st g m :
    rtc (lstep o w) (LState h t [p]) (LState h1 t1 (q :: st)) → h1 !! q = Some g → skips h1 t1 g = false →
    normalize_package o w g = Panic m → load_panics o w h t (p :: ps) m
| LP_later h t p ps h1 t1 m :
    add_imports o w h t p h1 t1 → load_panics o w h1 t1 ps m → load_panics o w h t (p :: ps) m.

(** loader.go 81-128: LoadPackages.  [answer]: what packages.Load returned: an error, or the packages
    it loaded and their addresses; [bp]: the address of the builtin package.  [h]: the packages afterwards. *)
Inductive loads (o : index_opts) (w : world) (bp : nat) (answer : string + (pheap * list nat)) : pheap → loaded → Prop :=
| loads_error e h : answer = inl e → loads o w bp answer h (LoadFailed e)
| loads_panic h0 roots m h : answer = inr (h0, roots) →
    load_panics (with_default_version o) w (<[bp := builtin_pkg bp (with_default_version o)]> h0) {[ "builtin" := bp ]} roots m →
    loads o w bp answer h (LoadFailed ("during package loading: " +:+ m))
| loads_ok h0 roots h all proj : answer = inr (h0, roots) →
    load_packages o w bp h0 roots h all proj → loads o w bp answer h (LoadOk all proj).

(** The rest of the world as one run sees it. *)
Record surroundings := Surroundings {
  su_machine : machine;                          (** options: directory, environment, git, go list *)
  su_world : world;                              (** go.mod files of local modules *)
  su_packages : run_opts → string + (pheap * list nat); (** packages.Load, for the flags and patterns of the run *)
  su_builtin : nat;                              (** address of the builtin package *)
  su_fs : fset; su_env : tenv;                   (** token.FileSet and go/types *)
  su_mset : ty → list obj; su_constraint : ty → ty → bool;
  su_package_level : gpkg → obj → bool; su_scope : gpkg → list obj;
  su_objstr : obj → string;                      (** types.ObjectString *)
  su_unicode : unicode; su_crc : string → N; su_digest : string → string; (** unicode tables, crc32, sha256 *)
  su_iteration : iteration;                      (** map iteration orders *)
  su_sys : sys; su_noise : noise;                (** file system, progress messages *)
  su_tool : string }.                            (** ScipGoVersion (scip.go 28-30) *)

(** index.Index with the options of the run, applied to the writer; never Ok None: the search
    returns no error *)
Definition program_run (S : surroundings) (o : run_opts) (h : pheap) (ld : loaded) (w : writer) : list message * Index.outcome :=
  let i := ro_index o in
  let it := su_iteration S in
  let search := match ld with
                | LoadFailed _ => λ _ _, Ok None
                | LoadOk all proj => impl_phase (su_env S) (su_unicode S) (su_crc S) (su_mset S) (su_constraint S) (su_package_level S)
                                       (su_scope S) (it_search it) h proj all
                end in
  Index.index (su_digest S) (su_env S) (su_fs S) h (su_objstr S) (it_maps it) w search ""
    (io_module_root i) (io_module_version i) (io_skip_impls i) (index_metadata (su_tool S) i) ld
    (it_proj it) (it_all it) (it_proj2 it).

(** `scip-go index --output=output flags`: possible file trees, stdout texts and exit codes *)
Inductive scip_go (S : surroundings) (f : flags) (output : string) (t : ftree) : ftree * string * cli_end → Prop :=
| sg_crash m : make_options (su_machine S) f = Panic m → scip_go S f output t (t, su_noise S O, Exit 2 (Some m))
| sg_options e : make_options (su_machine S) f = Ok None →
    scip_go S f output t (index_cmd (su_sys S) (su_noise S) (Some e) (λ _, ([], Returned None)) output t)
| sg_index o h ld : make_options (su_machine S) f = Ok (Some o) →
    loads (ro_index o) (su_world S) (su_builtin S) (su_packages S o) h ld →
    scip_go S f output t (index_cmd (su_sys S) (su_noise S) None (program_run S o h ld) output t).
