(** C60: the repository that git's remote names. *)
From Coq Require Import Ascii String.
From stdpp Require Import prelude strings gmap.
From Verif Require Import GoStr Scip GoTypes Ast Packages Symbols Paths Env Loader Options PropPaths PropEnv PropOptions.
Open Scope string_scope.
Open Scope list_scope.

(** git's remote origin of the repository around the module root is a URL of path on host *)
Definition origin_is (mc : machine) (host path : string) : Prop :=
  let c := mc_remote mc (command_dir mc (default_module_root mc)) in
  cmd_ok c = true ∧ host_name host ∧ repo_path path ∧ spelled host path (trim_space (cmd_out c)).
(** neither flags nor a go.mod say what the module is *)
Definition module_unknown (mc : machine) (f : flags) (o : run_opts) : Prop :=
  (fl_module_path f = None ∨ fl_module_path f = Some "") ∧ fl_repository_remote f = None ∧
  mc_gomod mc (path_join (io_module_root (ro_index o)) "go.mod") = NoFile.

(** C60: without module path and go.mod, whatever the style of the URL of git's remote, host/path is the module path,
    if go/vcs finds a repository there. *)
Theorem C60_git_remote : ∀ mc f o host path root, make_options mc f = Ok (Some o) → module_unknown mc f o → origin_is mc host path →
  mc_roots mc (host +:+ "/" +:+ path) = Some root → has_prefix (host +:+ "/" +:+ path) root = true →
  io_module_path (ro_index o) = host +:+ "/" +:+ path.
Proof.
  intros mc f o host path root Ho (H1 & H2 & H3) (Hok & Hh & Hp & Hs) Hroot Hpre.
  apply (C60_remote mc f o (host +:+ "/" +:+ path) root Ho H1 H3); [|done|done].
  right. split; [done|]. unfold infer_repo. cbn [command_run]. rewrite Hok. by apply C46_repository_name.
Qed.
Print Assumptions C60_git_remote.
(** C60: if the git command fails, what it prints is not taken for a module path: without any other source the module path
    is empty (the error is not reported, C48). *)
Theorem C60_no_remote : ∀ mc f o, make_options mc f = Ok (Some o) → module_unknown mc f o →
  cmd_ok (mc_remote mc (command_dir mc (default_module_root mc))) = false → mc_roots mc "" = None →
  io_module_path (ro_index o) = "".
Proof.
  intros mc f o Ho (Hp & Hrem & Hgm) Hok Hroot. unfold make_options in Ho.
  destruct (default_module_version mc) as [v|]; [|done]. cbn [res_bind] in Ho. destruct (default_go_version mc) as [gv|]; [|done]. cbn [res_bind] in Ho.
  destruct (path_abs mc _) as [mr|] eqn:E; [|done]. destruct (get_log_level _ _); [|done]. cbn [res_bind] in Ho.
  destruct (module_name _ _ _ _) as [[[n std]|]|] eqn:En; [|done|done]. cbn [res_bind] in Ho. injection Ho as <-. cbn [ro_index io_module_path io_module_root] in *.
  assert (Hn : match fl_module_path f with Some x => x | None => "" end = "") by (destruct Hp as [->| ->]; done).
  assert (Hdef : default_repository_remote mc = "").
  { unfold default_repository_remote, infer_repo. cbn [command_run]. by rewrite Hok. }
  rewrite Hn, Hrem, Hgm, Hdef in En. unfold module_name in En. cbn [String.eqb negb] in En. unfold resolve_module_name in En.
  rewrite Hroot in En. by injection En as <- _.
Qed.
Print Assumptions C60_no_remote.

(** /r/sub without a go.mod; the remote is an ssh URL *)
Definition rm_machine (ok : bool) : machine := Machine (Some "/r") (CmdResult ("/r" +:+ text_nl) true) (λ _, StatNotExist)
  (λ d, CmdResult (if ok then "ssh://git@example.com:22/u/a.git" +:+ text_nl else "error: No such remote 'origin'" +:+ text_nl) ok)
  (λ d, CmdResult "" false) (λ d, CmdResult "" false) (λ d, CmdResult "" false) (λ _, None) (λ p, NoFile)
  (λ p, if String.eqb p "" then None else Some p) None ["index"].
Example C60_git_remote_example : ∃ o, make_options (rm_machine true) no_flags = Ok (Some o) ∧ module_unknown (rm_machine true) no_flags o ∧
  origin_is (rm_machine true) "example.com" "u/a" ∧ io_module_path (ro_index o) = "example.com/u/a".
Proof.
  eexists. split; [vm_compute; reflexivity|]. split; [|split]; [split; [by left|by split]| |].
  - split; [done|]. split; [by vm_compute|]. split; [by vm_compute|].
    exists ".git". split; [by right|]. right. exists "ssh", "git@", ":22". split; [vm_compute; by repeat constructor|].
    split; [right; by exists "git"|]. split; [right; by exists "22"|]. vm_compute. reflexivity.
  - vm_compute. reflexivity.
Qed.
Example C60_no_remote_example : ∃ o, make_options (rm_machine false) no_flags = Ok (Some o) ∧ module_unknown (rm_machine false) no_flags o ∧
  io_module_path (ro_index o) = "".
Proof.
  eexists. split; [vm_compute; reflexivity|]. split; [split; [by left|by split]|]. vm_compute. reflexivity.
Qed.
