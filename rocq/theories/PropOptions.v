(** C60: the options of a run. *)
From Coq Require Import Ascii String.
From stdpp Require Import prelude strings gmap.
From Verif Require Import GoStr Scip GoTypes Ast Packages Symbols Paths P_Paths PropPaths Env Loader Options PropModule.
Open Scope string_scope.
Open Scope list_scope.

(** the command line without flags *)
Definition no_flags : flags := Flags None None None None None false 0 false false [].
(** the non-empty elements of a relative path *)
Definition path_elements (r : string) : list string := filter (λ e, e ≠ "") (split_on "/" r).
(** the version git describes for the module in directory d ("" if it cannot tell) *)
Definition version_at (mc : machine) (d : string) (v : string) : Prop :=
  infer_module_version (mc_tags mc d) (mc_rev mc d) = Ok (Some v) ∨
  (infer_module_version (mc_tags mc d) (mc_rev mc d) = Ok None ∧ v = "").

Lemma path_abs_abs mc l : Forall name_ok l → path_abs mc (abs_path l) = Some (abs_path l).
Proof.
  intros Hl. unfold path_abs. change (abs_path l) with (R l). rewrite is_abs_R. by rewrite clean_R by by apply name_proper.
Qed.
Lemma proper_name l : Forall proper l → Forall name_ok l.
Proof. intros H. eapply Forall_impl; [exact H|]. by intros x ((? & ?) & ? & ?). Qed.
Lemma path_elements_eq r : elements r = path_elements r.
Proof.
  unfold elements, path_elements. induction (split_on "/" r) as [|x l IH]; [done|]. cbn [List.filter].
  destruct (String.eqb_spec x "") as [->|Hx]; cbn [negb].
  - rewrite filter_cons_False by (intros H; by apply H). done.
  - rewrite filter_cons_True by done. by rewrite IH.
Qed.
Lemma foldl_walk acc d l : Forall proper d → acc = rev d → Forall elem_ok l → foldl (clean_step true) acc l = rev (walk d l).
Proof.
  revert acc d. induction l as [|e l IH]; intros acc d Hd -> Hl; [done|]. cbn [foldl walk]. inversion Hl as [|?? [He Hs] Hl']; subst.
  unfold clean_step at 2. destruct (String.eqb_spec e ""); [done|]. cbn [orb].
  destruct (String.eqb_spec e "."); [by apply IH|].
  destruct (String.eqb_spec e "..") as [->|Hdd].
  - destruct d as [|x d' _] using rev_ind; [by apply IH|]. rewrite rev_unit, removelast_last.
    apply Forall_app in Hd as [Hd Hx]. inversion Hx as [|?? (_ & _ & Hx') _]; subst.
    destruct (String.eqb_spec x ".."); [done|]. by apply IH.
  - apply IH; [|by rewrite rev_unit|done]. apply Forall_app. split; [done|]. repeat constructor; done.
Qed.
Lemma walk_proper d l : Forall proper d → Forall elem_ok l → Forall proper (walk d l).
Proof.
  intros Hd Hl. rewrite <- (rev_involutive (walk d l)). apply Forall_rev.
  rewrite <- (foldl_walk (rev d) d l) by done. apply clean_fold_rooted; [done|]. by apply Forall_rev.
Qed.
(** a relative path is resolved from the working directory *)
Lemma path_abs_rel mc l r : mc_wd mc = Some (abs_path l) → Forall name_ok l → is_abs r = false →
  path_abs mc r = Some (abs_path (walk l (path_elements r))).
Proof.
  intros Hw Hl%name_proper Hr. unfold path_abs. rewrite Hr, Hw. f_equal. unfold path_join.
  change abs_path with R. destruct (String.eqb_spec (R l) "") as [H|_]; [pose proof (is_abs_R l) as X; by rewrite H in X|].
  rewrite <- path_elements_eq.
  destruct (String.eqb_spec r "") as [->|Hne].
  { cbn. by rewrite clean_R. }
  unfold clean. rewrite is_abs_R_app, elements_app, elements_R by by apply proper_ok. rewrite render_true. f_equal.
  unfold clean_elements. rewrite foldl_app, (clean_fold_proper true [] l), List.app_nil_r by done.
  rewrite (foldl_walk (rev l) l) by (done || apply elements_ok). by rewrite rev_involutive.
Qed.

(** The module root of a run is an absolute path without ".", ".." and empty elements. *)
Theorem C60_root_absolute : ∀ mc l f o, mc_wd mc = Some (abs_path l) → Forall name_ok l →
  make_options mc f = Ok (Some o) → ∃ d, Forall name_ok d ∧ io_module_root (ro_index o) = abs_path d.
Proof.
  intros mc l f o Hw Hl Ho. unfold make_options in Ho.
  destruct (default_module_version mc) as [v|]; [|done]. cbn [res_bind] in Ho. destruct (default_go_version mc) as [gv|]; [|done]. cbn [res_bind] in Ho.
  destruct (path_abs mc _) as [root|] eqn:E; [|done]. destruct (get_log_level _ _); [|done]. cbn [res_bind] in Ho.
  destruct (module_name _ _ _ _) as [[[n std]|]|]; [|done|done]. cbn [res_bind] in Ho. injection Ho as <-. cbn.
  destruct (is_abs (match fl_module_root f with Some x => x | None => default_module_root mc end)) eqn:Ea.
  - unfold path_abs in E. rewrite Ea in E. injection E as <-. unfold clean. rewrite Ea, render_true. eexists. split; [|done].
    apply proper_name, clean_elements_rooted, elements_ok.
  - rewrite (path_abs_rel mc l) in E by done. injection E as <-. eexists. split; [|done].
    apply proper_name, walk_proper; [by apply name_proper|]. rewrite <- path_elements_eq. apply elements_ok.
Qed.
Print Assumptions C60_root_absolute.

(** Flags given on the command line take effect; a relative module root is resolved from the working directory. *)
Theorem C60_flags_win : ∀ mc f o, make_options mc f = Ok (Some o) → let i := ro_index o in
  (∀ v, fl_module_version f = Some v → io_module_version i = v) ∧
  (∀ v, fl_go_version f = Some v → io_go_version i = v) ∧
  (∀ n, fl_module_path f = Some n → n ≠ "" → io_module_path i = n ∧ (io_indexing_stdlib i = true ↔ n = "std")) ∧
  (∀ d, fl_module_root f = Some (abs_path d) → Forall name_ok d → io_module_root i = abs_path d) ∧
  (∀ l r, fl_module_root f = Some r → is_abs r = false → mc_wd mc = Some (abs_path l) → Forall name_ok l →
     io_module_root i = abs_path (walk l (path_elements r))) ∧
  io_skip_impls i = fl_skip_implementations f ∧ ro_skip_tests o = fl_skip_tests f ∧
  (fl_patterns f ≠ [] → ro_patterns o = fl_patterns f) ∧ (fl_patterns f = [] → ro_patterns o = ["./..."]) ∧
  io_arguments i = mc_args mc.
Proof.
  intros mc f o Ho. unfold make_options in Ho.
  destruct (default_module_version mc) as [v|]; [|done]. cbn [res_bind] in Ho. destruct (default_go_version mc) as [gv|]; [|done]. cbn [res_bind] in Ho.
  destruct (path_abs mc _) as [root|] eqn:E; [|done]. destruct (get_log_level _ _); [|done]. cbn [res_bind] in Ho.
  destruct (module_name _ _ _ _) as [[[n std]|]|] eqn:En; [|done|done]. cbn [res_bind] in Ho. injection Ho as <-. cbn.
  split; [by intros ? ->|]. split; [by intros ? ->|]. split.
  { intros n' Hn Hne. rewrite Hn in En. unfold module_name in En. destruct (String.eqb_spec n' ""); [done|]. cbn [negb] in En.
    injection En as <- <-. split; [done|]. rewrite orb_false_r. by rewrite String.eqb_eq. }
  split; [intros d Hd Hok; rewrite Hd, path_abs_abs in E by done; by injection E|].
  split; [intros l r Hd Hr Hw Hok; rewrite Hd, (path_abs_rel mc l) in E by done; by injection E|].
  split; [done|]. split; [done|]. split; [by destruct (fl_patterns f)|]. split; [by intros ->|done].
Qed.
Print Assumptions C60_flags_win.

(** Without a module path and without a go.mod at the module root, the repository given with --repository-remote,
    or else the one git's remote origin names, is the module path, if it is a repository (or a directory of one)
    that go/vcs knows. *)
Theorem C60_remote : ∀ mc f o r root, make_options mc f = Ok (Some o) → let i := ro_index o in
  (fl_module_path f = None ∨ fl_module_path f = Some "") →
  mc_gomod mc (path_join (io_module_root i) "go.mod") = NoFile →
  (fl_repository_remote f = Some r ∨
   fl_repository_remote f = None ∧ infer_repo (mc_remote mc (command_dir mc (default_module_root mc))) = Some r) →
  mc_roots mc r = Some root → has_prefix r root = true →
  io_module_path i = r ∧ (io_indexing_stdlib i = true ↔ r = "std").
Proof.
  intros mc f o r root Ho i Hp Hgm Hr Hroot Hpre. subst i. unfold make_options in Ho.
  destruct (default_module_version mc) as [v|]; [|done]. cbn [res_bind] in Ho. destruct (default_go_version mc) as [gv|]; [|done]. cbn [res_bind] in Ho.
  destruct (path_abs mc _) as [mr|] eqn:E; [|done]. destruct (get_log_level _ _); [|done]. cbn [res_bind] in Ho.
  destruct (module_name _ _ _ _) as [[[n std]|]|] eqn:En; [|done|done]. cbn [res_bind] in Ho. injection Ho as <-. cbn [ro_index io_module_path io_module_root io_indexing_stdlib] in *.
  assert (Hn : match fl_module_path f with Some x => x | None => "" end = "") by (destruct Hp as [->| ->]; done).
  assert (Hrem : match fl_repository_remote f with Some x => x | None => default_repository_remote mc end = r).
  { destruct Hr as [->|[-> Hr]]; [done|]. unfold default_repository_remote. by rewrite Hr. }
  rewrite Hn, Hrem, Hgm in En. unfold module_name in En. cbn [String.eqb negb] in En. unfold resolve_module_name in En.
  rewrite Hroot in En. apply has_prefix_spec in Hpre as [t ->]. rewrite trim_prefix_app in En. injection En as <- <-.
  split; [done|]. rewrite orb_diag. apply String.eqb_eq.
Qed.
Print Assumptions C60_remote.

(** Without flags, started in a directory that contains a go.mod, inside a git repository or outside of any:
    the directory is the module root, the module path is the one of the go.mod, the version is the one git
    describes and the Go version is the one the go command reports. *)
Theorem C60_defaults : ∀ mc l f o path, mc_wd mc = Some (abs_path l) → Forall name_ok l →
  fl_module_root f = None → fl_module_path f = None → fl_module_version f = None → fl_go_version f = None →
  (cmd_ok (mc_toplevel mc) = false ∨ has_prefix (abs_path l) (trim_space (cmd_out (mc_toplevel mc))) = true) →
  mc_gomod mc (path_join (abs_path l) "go.mod") = Parsed (Some path) →
  make_options mc f = Ok (Some o) → let i := ro_index o in
  io_module_root i = abs_path l ∧ io_module_path i = path ∧
  (io_indexing_stdlib i = true ↔ path = "std") ∧ version_at mc (abs_path l) (io_module_version i) ∧
  (let go := mc_go_list mc (abs_path l) in
   (∀ v, cmd_ok go = true → mc_decode mc (trim_space (cmd_out go)) = Some (Some v) → io_go_version i = "go" +:+ v) ∧
   (cmd_ok go = false ∨ mc_decode mc (trim_space (cmd_out go)) = None → io_go_version i = "")).
Proof.
  intros mc l f o path Hw Hl F1 F2 F3 F4 Htop Hgm Ho.
  assert (Hcwd : cwd mc = abs_path l) by (unfold cwd; by rewrite Hw).
  assert (Hroot : default_module_root mc = ".").
  { unfold default_module_root. rewrite Hcwd. rewrite C45_refuted_inside_repository; [done|lia|].
    unfold toplevel. cbn. destruct Htop as [->| Ht]; [by destruct (abs_path l)|]. destruct (cmd_ok _); [done|by destruct (abs_path l)]. }
  assert (Hdir : path_abs mc "." = Some (abs_path l)).
  { rewrite (path_abs_rel mc l) by done. cbn. done. }
  unfold make_options, default_module_version, default_go_version, command_dir in Ho. rewrite Hroot, Hdir in Ho.
  rewrite F1, F2, F3, F4 in Ho. rewrite Hdir in Ho.
  destruct (infer_module_version _ _) as [v|] eqn:Ev; [|done]. cbn [res_bind] in Ho.
  match type of Ho with context [command_run ?c] => set (go := c) in * end. unfold command_run in Ho at 1. cbn iota in Ho.
  match type of Ho with res_bind ?x _ = _ => destruct x as [gv|] eqn:Egv; [|done] end. cbn [res_bind] in Ho.
  destruct (get_log_level _ _); [|done]. cbn [res_bind] in Ho. rewrite Hgm in Ho. cbn in Ho. injection Ho as <-. cbn.
  split; [done|]. split; [done|]. split; [rewrite orb_false_r; by rewrite String.eqb_eq|]. split.
  { unfold version_at. rewrite Ev. destruct v; [by left|by right]. }
  fold go. cbn in Egv. split.
  - intros v' Hok Hdec. rewrite Hok in Egv. cbn in Egv. rewrite Hdec in Egv. by injection Egv.
  - intros [Hok|Hdec].
    + rewrite Hok in Egv. cbn in Egv. by injection Egv.
    + destruct (cmd_ok go); cbn in Egv; [rewrite Hdec in Egv|]; by injection Egv.
Qed.
Print Assumptions C60_defaults.

(** The other packages driver is detected, if GOPACKAGESDRIVER is not set to the empty text and there is no
    program gopackagesdriver in PATH ... *)
Theorem C60_driver_partial : ∀ mc f o, mc_driver mc ≠ Some "" → make_options mc f = Ok (Some o) →
  io_driver_set (ro_index o) = true ↔ is_Some (packages_driver (mc_driver mc) None).
Proof.
  intros mc f o Hne Ho.
  assert (io_driver_set (ro_index o) = driver_set mc) as ->.
  { unfold make_options in Ho. destruct (default_module_version mc) as [v|]; [|done]. cbn [res_bind] in Ho. destruct (default_go_version mc) as [gv|]; [|done]. cbn [res_bind] in Ho.
    destruct (path_abs mc _) as [root|] eqn:E; [|done]. destruct (get_log_level _ _); [|done]. cbn [res_bind] in Ho.
    destruct (module_name _ _ _ _) as [[[n std]|]|] eqn:En; [|done|done]. cbn [res_bind] in Ho. by injection Ho as <-. }
  unfold driver_set, packages_driver. destruct (mc_driver mc) as [d|]; [|split; [done|by intros [? ?]]].
  destruct (String.eqb_spec d "off") as [->|H1]; cbn; [split; [done|by intros [? ?]]|].
  destruct (String.eqb_spec d "") as [->|H2]; [done|]. split; [by eexists|done].
Qed.
Print Assumptions C60_driver_partial.

(** a machine with the repositories /r (module ex.org/a, tagged v1.0.0, remote github.com/u/a) and /other (module
    ex.org/b, tagged v2.5.0); started in directory [wd] of /r *)
Definition text_nl : string := String newline "".
Definition o_machine (wd : string) (driver : option string) : machine := Machine (Some wd)
  (CmdResult ("/r" +:+ text_nl) true)
  (λ p, if (String.eqb p "/r/go.mod" || String.eqb p "/other/go.mod")%bool then StatFound else StatNotExist)
  (λ d, CmdResult (if has_prefix d "/r" then "git@github.com:u/a.git" else "git@github.com:u/b.git") true)
  (λ d, CmdResult ((if has_prefix d "/r" then "v1.0.0" else "v2.5.0") +:+ text_nl) true)
  (λ d, CmdResult ("0123456789012345678901234567890123456789" +:+ text_nl) true)
  (λ d, CmdResult "{json}" true)
  (λ s, if String.eqb s "{json}" then Some (Some "1.22") else None)
  (λ p, if String.eqb p "/r/go.mod" then Parsed (Some "ex.org/a") else if String.eqb p "/other/go.mod" then Parsed (Some "ex.org/b") else NoFile)
  (λ p, Some p) driver ["index"].
Example C60_example : ∃ o, make_options (o_machine "/r" None) no_flags = Ok (Some o) ∧
  mc_wd (o_machine "/r" None) = Some (abs_path ["r"]) ∧
  has_prefix (abs_path ["r"]) (trim_space (cmd_out (mc_toplevel (o_machine "/r" None)))) = true ∧
  mc_gomod (o_machine "/r" None) (path_join (abs_path ["r"]) "go.mod") = Parsed (Some "ex.org/a") ∧
  version_at (o_machine "/r" None) (abs_path ["r"]) "v1.0.0" ∧
  ro_index o = IOpts "/r" "v1.0.0" "ex.org/a" "go1.22" false false false ["index"].
Proof.
  eexists. split; [vm_compute; reflexivity|]. split; [done|]. split; [vm_compute; reflexivity|]. split; [vm_compute; reflexivity|].
  split; [left; vm_compute; reflexivity|]. vm_compute. reflexivity.
Qed.
Example C60_flags_example : ∃ o, make_options (o_machine "/r" None)
    (Flags (Some "../other/./x") None (Some "std") (Some "v9") (Some "go1.1") true 0 true true ["./p"]) = Ok (Some o) ∧
  ro_index o = IOpts "/other/x" "v9" "std" "go1.1" true false true ["index"] ∧ walk ["r"] (path_elements "../other/./x") = ["other"; "x"].
Proof. eexists. split; [vm_compute; reflexivity|]. split; vm_compute; reflexivity. Qed.

(** The inferred version is that of the module indexed: false with --module-root, because the defaults of the
    other flags are computed for the directory the program is started in. *)
Theorem C60_other_root_refuted : ∃ mc f d o, Forall name_ok d ∧
  fl_module_root f = Some (abs_path d) ∧ fl_module_version f = None ∧ make_options mc f = Ok (Some o) ∧
  io_module_root (ro_index o) = abs_path d ∧ io_module_path (ro_index o) = "ex.org/b" ∧
  version_at mc (abs_path d) "v2.5.0" ∧ io_module_version (ro_index o) = "v1.0.0".
Proof.
  exists (o_machine "/r" None), (Flags (Some "/other") None None None None false 0 false false []), ["other"]. eexists.
  split; [repeat constructor; done|]. split; [done|]. split; [done|]. split; [vm_compute; reflexivity|].
  split; [done|]. split; [done|]. split; [left; vm_compute; reflexivity|]. done.
Qed.
Print Assumptions C60_other_root_refuted.

(** ... Set to the empty text, GOPACKAGESDRIVER selects the go command (packages.Load), but is taken for another
    driver: every package, even of the standard library, is attributed to the project's module. *)
Theorem C60_empty_driver_refuted : ∃ mc o, mc_driver mc = Some "" ∧ packages_driver (mc_driver mc) None = None ∧
  make_options mc no_flags = Ok (Some o) ∧ io_driver_set (ro_index o) = true ∧
  ∀ w p, ∃ p', normalize_package (ro_index o) w p = Ok p' ∧ p_module p' = Some (bare_module "ex.org/a" "v1.0.0").
Proof.
  exists (o_machine "/r" (Some "")). eexists. split; [done|]. split; [done|]. split; [vm_compute; reflexivity|]. split; [done|].
  intros w p. eexists. split; [reflexivity|]. done.
Qed.
Print Assumptions C60_empty_driver_refuted.
(** ... and a driver that packages.Load finds in PATH is not noticed. *)
Theorem C60_path_driver_refuted : ∃ mc o d, is_Some (packages_driver (mc_driver mc) (Some d)) ∧
  make_options mc no_flags = Ok (Some o) ∧ io_driver_set (ro_index o) = false.
Proof.
  exists (o_machine "/r" None). eexists _, "/bin/gopackagesdriver". split; [by eexists|]. split; [vm_compute; reflexivity|]. done.
Qed.
Print Assumptions C60_path_driver_refuted.

(** Started in a subdirectory of a module, the module path is not the one of the module's go.mod (see C45). *)
Theorem C60_subdirectory_refuted : ∃ mc o, mc_wd mc = Some "/r/sub" ∧
  mc_stat mc "/r/sub/go.mod" = StatNotExist ∧ mc_stat mc "/r/go.mod" = StatFound ∧
  mc_gomod mc "/r/go.mod" = Parsed (Some "ex.org/a") ∧
  make_options mc no_flags = Ok (Some o) ∧
  io_module_root (ro_index o) = "/r/sub" ∧ io_module_path (ro_index o) = "github.com/u/a".
Proof.
  exists (o_machine "/r/sub" None). eexists. split; [done|]. split; [done|]. split; [done|]. split; [done|].
  split; [vm_compute; reflexivity|]. done.
Qed.
Print Assumptions C60_subdirectory_refuted.
Example C60_driver_example : ∃ o, mc_driver (o_machine "/r" (Some "bazel")) ≠ Some "" ∧
  make_options (o_machine "/r" (Some "bazel")) no_flags = Ok (Some o) ∧ io_driver_set (ro_index o) = true.
Proof. eexists. split; [done|]. split; [vm_compute; reflexivity|]. done. Qed.
(** --repository-remote in a directory without go.mod *)
Example C60_remote_example : ∃ o, make_options (o_machine "/r" None)
    (Flags (Some "/r/sub") (Some "github.com/u/z") None None None false 0 false false []) = Ok (Some o) ∧
  mc_gomod (o_machine "/r" None) (path_join (io_module_root (ro_index o)) "go.mod") = NoFile ∧
  mc_roots (o_machine "/r" None) "github.com/u/z" = Some "github.com/u/z" ∧ io_module_path (ro_index o) = "github.com/u/z".
Proof. eexists. split; [vm_compute; reflexivity|]. split; [|split]; vm_compute; reflexivity. Qed.
