(** C71, C72: examples with the project of ExEnd.v. *)
From Coq Require Import Ascii String.
From stdpp Require Import prelude strings gmap sorting.
From Verif Require Import GoStr Scip GoTypes Ast Packages Symbols Document Lookup Pass1 Pass2 Paths Env Loader Index
  SpecIndex PropIndex P_Loader PropLoader Output Proto Cli PropCli Options PropOptions PropDet PropCross Program Commands PropEnd ExEnd PropCommands.
Open Scope string_scope.
Open Scope list_scope.

Lemma e_agree : variants_agree e_h0 [1].
Proof.
  split.
  - intros p g q gq r gr Hp Hq E Hle Hr Hgr. right. exists r, gr. split; [|done].
    destruct (e_heap0 _ _ Hp) as [[-> ->]|[-> ->]], (e_heap0 _ _ Hq) as [[-> ->]|[-> ->]]; done.
  - intros p g Hp. destruct (e_heap0 _ _ Hp) as [[-> ->]|[-> ->]]; done.
Qed.
Definition nl : string := String "010" "".
Example C71_packages_ex :
  (∀ o h0 roots, su_packages e_surroundings o = inr (h0, roots) → load_input (su_builtin e_surroundings) h0 roots ∧ variants_agree h0 roots) ∧
  packages_cmd e_surroundings no_flags
    ("Current packages" +:+ nl +:+ "ex.org/p" +:+ nl +:+ "Dependency packages" +:+ nl +:+ "builtin" +:+ nl +:+ "ex.org/p" +:+ nl +:+ "fmt" +:+ nl, Exit 0 None).
Proof.
  split; [intros o h0 roots [= <- <-]; split; [apply e_input|apply e_agree]|].
  refine (eq_ind _ (packages_cmd e_surroundings no_flags)
    (pc_done e_surroundings no_flags e_ro e_h e_all e_proj (map fst (map_to_list e_proj)) (map fst (map_to_list e_all)) _ _ _ _) _ _).
  - vm_compute. reflexivity.
  - eapply loads_ok; [reflexivity|]. apply e_load.
  - reflexivity.
  - reflexivity.
  - vm_compute. reflexivity.
Qed.
Example C71_readable_ex : Forall path_ok ["ex.org/p"] ∧ Forall path_ok ["builtin"; "ex.org/p"; "fmt"].
Proof. split; apply (bool_decide_eq_true_1 (Forall (λ x, "010"%char ∉ list_ascii_of_string x ∧ " "%char ∉ list_ascii_of_string x) _)); vm_compute; reflexivity. Qed.
Example C71_missing_ex : missing_cmd e_surroundings no_flags ("No missing documents" +:+ nl, Exit 0 None).
Proof.
  pose proof (C42_list_missing_empty (su_digest e_surroundings) (pr_env e_project) (pr_objs e_project) (pr_fs e_project) e_h "/src" e_all e_proj (pr_pkgs e_project)) as E.
  refine (mc_done e_surroundings no_flags e_ro e_h e_all e_proj (map fst (map_to_list e_proj)) (map fst (map_to_list e_proj)) [] _ _ _ _ _).
  - vm_compute. reflexivity.
  - eapply loads_ok; [reflexivity|]. apply e_load.
  - reflexivity.
  - reflexivity.
  - vm_compute. reflexivity.
Qed.
Example C71_missing_no_crash_ex : go_works e_surroundings no_flags ∧ ∀ m, make_options e_machine no_flags ≠ Panic m.
Proof. split; [apply e_works|apply C64_no_crash_example]. Qed.

(** --profile=1: mem.pprof is new, index.scip is written as without the option *)
Example C72_ex : profile_file x_tree "mem.pprof" ∧ resolve x_tree "index.scip" ≠ Some "mem.pprof" ∧
  profiled 1 None "profile" (scip_go e_surroundings no_flags "index.scip") x_tree
    (<["mem.pprof" := FReg "profile"]> e_result.1.1, e_result.1.2, Exit 0 None).
Proof.
  assert (H1 : profile_file x_tree "mem.pprof") by (split; [done|]; split; [done|by left]).
  assert (H2 : resolve x_tree "index.scip" ≠ Some "mem.pprof") by (vm_compute; discriminate).
  split; [done|]. split; [done|]. apply C72_profile_possible; [lia|done|by right|].
  pose proof e_scip_go as H. rewrite <- e_exit. by destruct e_result as [[]].
Qed.
(** --profile=1 --output=mem.pprof: the command succeeds, and the file is no index *)
Definition e_same : ftree * string * cli_end :=
  index_cmd no_errors (λ _, "") None (program_run e_surroundings e_ro e_h (LoadOk e_all e_proj)) "mem.pprof" (<["mem.pprof" := FReg ""]> x_tree).
Example C72_same_file_ex : ∃ t' out content, profile_file x_tree "mem.pprof" ∧
  profiled 1 None "profile" (scip_go e_surroundings no_flags "mem.pprof") x_tree (t', out, Exit 0 None) ∧
  t' !! "mem.pprof" = Some (FReg content) ∧ read_index content = None.
Proof.
  assert (H1 : profile_file x_tree "mem.pprof") by (split; [done|]; split; [done|by left]).
  assert (H2 : scip_go e_surroundings no_flags "mem.pprof" (<["mem.pprof" := FReg ""]> x_tree) e_same).
  { apply (sg_index e_surroundings no_flags "mem.pprof" _ e_ro e_h (LoadOk e_all e_proj)); [vm_compute; reflexivity|].
    eapply loads_ok; [reflexivity|]. apply e_load. }
  assert (H3 : e_same.2 = Exit 0 None) by (vm_compute; reflexivity).
  assert (H4 : match write_profile e_same.1.1 "mem.pprof" "profile" !! "mem.pprof" with Some (FReg c) => match read_index c with None => true | _ => false end | _ => false end = true) by (vm_compute; reflexivity).
  destruct (write_profile e_same.1.1 "mem.pprof" "profile" !! "mem.pprof") as [[c| | |]|] eqn:Ew; try discriminate H4.
  exists (write_profile e_same.1.1 "mem.pprof" "profile"), e_same.1.2, c. split; [exact H1|].
  split; [|split; [exact Ew|destruct (read_index c); [discriminate H4|reflexivity]]].
  refine (pr_on 1 None "profile" _ x_tree "mem.pprof" _ e_same.1.1 e_same.1.2 0 None true _ (create_regular _ _ _ H1) _ _); [lia| |discriminate].
  rewrite <- H3. destruct e_same as [[]]. exact H2.
Qed.
