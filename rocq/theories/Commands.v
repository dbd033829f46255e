(** The other commands of cmd/scip-go/main.go: `scip-go packages` (200-222), `scip-go missing` (224-243), and the memory
    profile of `scip-go index` (122-137).  Argument parsing (kong) is not modelled. *)
From Coq Require Import Ascii String.
From stdpp Require Import prelude strings gmap.
From Verif Require Import GoStr Scip GoTypes Ast Packages Symbols Document Lookup Pass1 Pass2 Paths Env Loader Index
  Output Proto Cli Options Program.
Open Scope string_scope.
Open Scope list_scope.

(** fmt.Println of each line *)
Definition print_lines (l : list string) : string := String.concat "" (map (λ x, x +:+ String "010" "") l).

(** main.go 200-222 (PackagesCmd.Run), 60-71 (main): stdout and exit code; [po], [ao]: map iteration orders of
    scip.go 38-52.  [su_noise S 0]: the progress messages printed before. *)
Inductive packages_cmd (S : surroundings) (f : flags) : string * cli_end → Prop :=
| pc_crash m : make_options (su_machine S) f = Panic m → packages_cmd S f (su_noise S O, Exit 2 (Some m))
| pc_options e : make_options (su_machine S) f = Ok None → packages_cmd S f (su_noise S O, Exit 1 (Some e))
| pc_failed o h e : make_options (su_machine S) f = Ok (Some o) →
    loads (ro_index o) (su_world S) (su_builtin S) (su_packages S o) h (LoadFailed e) →
    packages_cmd S f (su_noise S O, Exit 1 (Some e))
| pc_done o h all proj po ao : make_options (su_machine S) f = Ok (Some o) →
    loads (ro_index o) (su_world S) (su_builtin S) (su_packages S o) h (LoadOk all proj) →
    po ≡ₚ map fst (map_to_list proj) → ao ≡ₚ map fst (map_to_list all) →
    packages_cmd S f (su_noise S O +:+ print_lines (packages_lines (get_packages po ao).1 (get_packages po ao).2), Exit 0 None).

(** main.go 224-243 (MissingCmd.Run); [o1], [o2]: map iteration orders of scip.go 67-79.  A panic of a visitor ends the
    process. *)
Inductive missing_cmd (S : surroundings) (f : flags) : string * cli_end → Prop :=
| mc_crash m : make_options (su_machine S) f = Panic m → missing_cmd S f (su_noise S O, Exit 2 (Some m))
| mc_options e : make_options (su_machine S) f = Ok None → missing_cmd S f (su_noise S O, Exit 1 (Some e))
| mc_failed o h e : make_options (su_machine S) f = Ok (Some o) →
    loads (ro_index o) (su_world S) (su_builtin S) (su_packages S o) h (LoadFailed e) →
    missing_cmd S f (su_noise S O, Exit 1 (Some e))
| mc_panic o h all proj o1 o2 m : make_options (su_machine S) f = Ok (Some o) →
    loads (ro_index o) (su_world S) (su_builtin S) (su_packages S o) h (LoadOk all proj) →
    o1 ≡ₚ map fst (map_to_list proj) → o2 ≡ₚ map fst (map_to_list proj) →
    list_missing (su_digest S) (su_env S) (su_fs S) h (io_module_root (ro_index o)) proj o1 o2 = Panic m →
    missing_cmd S f (su_noise S O, Exit 2 (Some m))
| mc_done o h all proj o1 o2 l : make_options (su_machine S) f = Ok (Some o) →
    loads (ro_index o) (su_world S) (su_builtin S) (su_packages S o) h (LoadOk all proj) →
    o1 ≡ₚ map fst (map_to_list proj) → o2 ≡ₚ map fst (map_to_list proj) →
    list_missing (su_digest S) (su_env S) (su_fs S) h (io_module_root (ro_index o)) proj o1 o2 = Ok l →
    missing_cmd S f (su_noise S O +:+ print_lines (missing_lines l), Exit 0 None).

(** main.go 122-137: --profile.  The profile file is created (and emptied) first; when Run returns (or panics on the main
    goroutine) the profile is written through the handle opened then, from offset 0; a file removed meanwhile is not
    there any more.  [bytes]: what was written (errors are only logged); [written]: false if a panic on another goroutine
    ended the process, which runs no deferred calls.  [err]: error of os.Create. *)
Definition write_at_start (c b : string) : string := b +:+ str_drop (slen b) c.
Definition write_profile (t : ftree) (q b : string) : ftree :=
  match t !! q with
  | Some (FReg c) => <[q := FReg (write_at_start c b)]> t
  | Some (FSpecial c) => <[q := FSpecial (c +:+ b)]> t
  | _ => t
  end.
(** [cmd t r]: the rest of the command, started with the tree t, can end with r *)
Inductive profiled (profile : Z) (err : option string) (bytes : string) (cmd : ftree → ftree * string * cli_end → Prop) (t : ftree) :
  ftree * string * cli_end → Prop :=
| pr_off r : (profile <= 0)%Z → cmd t r → profiled profile err bytes cmd t r
| pr_error e : (0 < profile)%Z → os_create err t "mem.pprof" = inl e →
    profiled profile err bytes cmd t (t, "", Exit 1 (Some ("could not create memory profile: " +:+ e)))
| pr_on q t1 t2 out code e written : (0 < profile)%Z → os_create err t "mem.pprof" = inr (q, t1) → cmd t1 (t2, out, Exit code e) →
    (written = false → code = 2) →
    profiled profile err bytes cmd t ((if written : bool then write_profile t2 q bytes else t2), out, Exit code e).
