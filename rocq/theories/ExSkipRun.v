(** C76 on the run of ExEnd.v: the command with and without --skip-implementations. *)
From Coq Require Import Ascii String.
From stdpp Require Import prelude strings gmap relations sorting.
From Verif Require Import GoStr Scip GoTypes Ast Packages Symbols Document Lookup Pass1 Pass2 Paths Env Loader Index
  SpecSymbol SpecDecl SpecLookup SpecOcc SpecIndex P_Symbols P_Pass1 P_Lookup P_Pass2 P_Occ P_Index PropIndex P_Loader PropLoader
  Output Proto Cli PropCli Options PropPaths PropOptions Url PropUrl
  Quote Fingerprint SpecTypes P_Finger PropFinger Impls P_Rel P_Ident SpecImpl P_Filter P_Mem P_Extract P_Impl PropImpl PropDet PropCross PropPrecise PropFind
  PropModule ExDecl ExOcc ExIndex ExImpl ExDet ExFind Program PropEnd ExEnd PropSkip P_Once PropOnce PropSkipRun ExOnce.
Open Scope string_scope.
Open Scope list_scope.

Definition k_args : list string := ["index"; "--skip-implementations"].
(** another iteration order, progress messages, another command line *)
Definition k_again : surroundings := Surroundings (with_args e_machine k_args) e_world (λ _, inr (e_h0, [1])) 9 x_fs y_env y_mset w_cok w_level y_scope
  (λ o, o_name o) x_u w_crc p_digest e_it' no_errors (λ _, "...") "v0.1.26".
Lemma k_same : same_but_flag true k_args e_surroundings k_again.
Proof. by split. Qed.
Lemma k_options o : make_options (with_args e_machine k_args) (skipping true no_flags) = Ok (Some o) → ro_index o = iskip true k_args e_o.
Proof. intros E. vm_compute in E. by injection E as <-. Qed.
Lemma k_works : go_works k_again (skipping true no_flags).
Proof.
  intros o h0 roots h all proj Eo [= <- <-] Hl. pose proof (k_options _ Eo) as Ei. rewrite Ei in Hl. apply (proj1 (load_skip true k_args e_o _ _ _ _ _ _ _)) in Hl.
  destruct (e_loads _ _ _ Hl) as (-> & -> & ->). exists e_project. split; [done|]. split; [done|]. split; [done|].
  destruct (e_guarantees e_ro eq_refl) as [G1 G2 G3 G4 G5 G6 G7 G8 G9 _]. split; try done. apply e_iteration'.
Qed.
Lemma k_builds : builds_once e_surroundings no_flags.
Proof. exact (proj1 e_builds). Qed.
Definition k_ro : run_opts := skipping_opts true k_args e_ro.
Definition k_result : ftree * string * cli_end :=
  index_cmd no_errors (λ _, "...") None (program_run k_again k_ro e_h (LoadOk e_all e_proj)) "index.scip" x_tree.
Lemma k_scip_go : scip_go k_again (skipping true no_flags) "index.scip" x_tree k_result.
Proof.
  apply (sg_index k_again (skipping true no_flags) "index.scip" x_tree k_ro e_h (LoadOk e_all e_proj)); [vm_compute; reflexivity|].
  eapply loads_ok; [reflexivity|]. apply (proj2 (load_skip true k_args e_o _ _ _ _ _ _ _)). apply e_load.
Qed.
Lemma k_size c : k_result.1.1 !! "index.scip" = Some (FReg c) → (Z.of_nat (slen c) < 2 ^ 63)%Z.
Proof.
  assert (H : match k_result.1.1 !! "index.scip" with Some (FReg c) => Z.ltb (Z.of_nat (slen c)) (2 ^ 63) | _ => false end = true) by (vm_compute; reflexivity).
  intros E. rewrite E in H. by apply Z.ltb_lt.
Qed.
Lemma k_exit : k_result.2 = Exit 0 None.
Proof. vm_compute. reflexivity. Qed.
Example C76_command_example : ∃ c c' ix ix', e_result.1.1 !! "index.scip" = Some (FReg c) ∧ k_result.1.1 !! "index.scip" = Some (FReg c') ∧
  read_index c = Some ix ∧ read_index c' = Some ix' ∧ unrelated_scip k_args ix ix'.
Proof.
  refine (C76_whole_command k_args e_surroundings k_again no_flags "index.scip" x_tree x_tree "index.scip" "index.scip" e_result.1.1 k_result.1.1 e_result.1.2 k_result.1.2
    k_same e_works k_works k_builds eq_refl _ _ _ _ e_size k_size).
  - apply plain_regular. split; [done|]. right. by eexists.
  - apply plain_regular. split; [done|]. right. by eexists.
  - pose proof e_scip_go as H. rewrite <- e_exit. by destruct e_result as [[]].
  - pose proof k_scip_go as H. rewrite <- k_exit. by destruct k_result as [[]].
Qed.
(** the flag makes a difference: the first index has relationships and external symbols *)
Definition related (r : ftree * string * cli_end) : option (nat * nat) :=
  match r.1.1 !! "index.scip" with
  | Some (FReg c) => (λ ix, (length (List.concat (map (λ d, List.concat (map i_relationships (d_symbols d))) (si_docs ix))), length (si_exts ix))) <$> read_index c
  | _ => None
  end.
Example C76_makes_a_difference : related e_result = Some (2, 1) ∧ related k_result = Some (0, 0).
Proof. vm_compute. split; reflexivity. Qed.
Example C76_succeeds_example : ∀ u' out' e, scip_go k_again (skipping true no_flags) "index.scip" x_tree (u', out', e) → e = Exit 0 None.
Proof.
  intros u' out' e. refine (C76_still_succeeds k_args e_surroundings k_again no_flags "index.scip" x_tree x_tree "index.scip" "index.scip" e_result.1.1 e_result.1.2 u' out' e
    k_same e_works k_works k_builds eq_refl _ _ eq_refl (λ _, eq_refl) _ _).
  - apply plain_regular. split; [done|]. right. by eexists.
  - apply plain_regular. split; [done|]. right. by eexists.
  - repeat constructor.
  - pose proof e_scip_go as H. rewrite <- e_exit. by destruct e_result as [[]].
Qed.
