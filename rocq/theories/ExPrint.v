(** Whole runs of `scip-go index -o -`, for C55. *)
From Coq Require Import Ascii String.
From stdpp Require Import prelude strings gmap sorting.
From Verif Require Import GoStr Scip GoTypes Ast Packages Symbols Document Lookup Pass1 Pass2 Paths Env Loader Index
  SpecSymbol SpecDecl SpecLookup SpecOcc SpecIndex P_Symbols P_Pass1 P_Lookup P_Pass2 P_Occ P_Index PropIndex PropLoader
  Output Proto Cli PropOutput PropCli Options PropPaths PropOptions Url PropUrl
  Quote Fingerprint SpecTypes P_Finger PropFinger Impls P_Rel P_Ident SpecImpl P_Filter P_Mem P_Extract P_Impl PropImpl PropDet PropCross
  ExDecl ExOcc ExIndex ExImpl ExDet Program PropEnd ExEnd PropPrint.
Open Scope string_scope.
Open Scope list_scope.

Definition pr_quiet : flags := Flags None None None None None true 0 false false [].
Lemma pr_works : go_works e_surroundings pr_quiet.
Proof.
  intros o h0 roots h all proj Eo [= <- <-] Hl.
  assert (Ei : ro_index o = e_o) by (vm_compute in Eo; by injection Eo as <-). rewrite Ei in Hl.
  destruct (e_loads _ _ _ Hl) as (-> & -> & ->). exists e_project. split; [done|]. split; [done|]. split; [done|]. by apply e_guarantees.
Qed.
Definition pr_result : ftree * string * cli_end :=
  index_cmd no_errors (λ _, "") None (program_run e_surroundings e_ro e_h (LoadOk e_all e_proj)) "-" x_tree.
Lemma pr_exit : pr_result.2 = Exit 0 None.
Proof. vm_compute. reflexivity. Qed.
Lemma pr_scip_go : scip_go e_surroundings pr_quiet "-" x_tree pr_result.
Proof.
  apply (sg_index e_surroundings pr_quiet "-" x_tree e_ro e_h (LoadOk e_all e_proj)); [vm_compute; reflexivity|].
  eapply loads_ok; [reflexivity|]. apply e_load.
Qed.
Lemma pr_size : (Z.of_nat (slen pr_result.1.2) < 2 ^ 63)%Z.
Proof. apply Z.ltb_lt. vm_compute. reflexivity. Qed.
Example C55_stdout_example : pr_result.1.1 = x_tree ∧ ∃ o P ix, loaded_by e_surroundings pr_quiet o P ∧
  read_index pr_result.1.2 = Some ix ∧ right_index o P ix.
Proof.
  destruct (C55_stdout e_surroundings pr_quiet x_tree pr_result.1.1 pr_result.1.2 ["src"]) as (H1 & o & P & ix & HP & Hix & Hri & _).
  - apply pr_works.
  - intros l _ n. constructor.
  - done.
  - done.
  - repeat constructor; done.
  - pose proof pr_scip_go as H. rewrite <- pr_exit. by destruct pr_result as [[]].
  - apply pr_size.
  - split; [exact H1|]. exists o, P, ix. exact (conj HP (conj Hix Hri)).
Qed.

(** C55, without -q: the texts of the default level on stdout make the output unreadable. *)
Definition pr_noisy : surroundings := Surroundings e_machine e_world (λ _, inr (e_h0, [1])) 9 x_fs y_env y_mset w_cok w_level y_scope
  (λ o, o_name o) x_u w_crc p_digest e_it no_errors default_noise "v0.1.26".
Definition pr_noisy_result : ftree * string * cli_end :=
  index_cmd no_errors default_noise None (program_run pr_noisy e_ro e_h (LoadOk e_all e_proj)) "-" x_tree.
Theorem C55_progress_on_stdout_refuted : ∃ S f t t' out, prints_by_level S f ∧ fl_quiet f = false ∧
  scip_go S f "-" t (t', out, Exit 0 None) ∧ read_index out = None.
Proof.
  assert (E2 : pr_noisy_result.2 = Exit 0 None) by (vm_compute; reflexivity).
  assert (E3 : read_index pr_noisy_result.1.2 = None) by (vm_compute; reflexivity).
  exists pr_noisy, no_flags, x_tree, pr_noisy_result.1.1, pr_noisy_result.1.2. split; [|split; [reflexivity|split; [|exact E3]]].
  - clear E2 E3. intros l El n. assert (l = 4%Z) as -> by (vm_compute in El; by injection El). change (level_of 4) with Default.
    change (su_noise pr_noisy n) with (default_noise n). unfold default_noise. destruct (Nat.eqb n 0); [|constructor].
    pose (x := "Resolving module name" +:+ String "010" "").
    assert (H : printed Default (x +:+ "")).
    { apply (printed_task Default unit "Resolving module name" "" tt [] x "").
      - intros y Hy. by apply elem_of_nil in Hy.
      - cbn [with_progress snd app]. apply elem_of_list_singleton. reflexivity.
      - constructor. }
    rewrite app_nil_r in H. exact H.
  - rewrite <- E2. assert (pr_noisy_result = (pr_noisy_result.1.1, pr_noisy_result.1.2, pr_noisy_result.2)) as <- by (by destruct pr_noisy_result as [[]]).
    apply (sg_index pr_noisy no_flags "-" x_tree e_ro e_h (LoadOk e_all e_proj)); [vm_compute; reflexivity|].
    eapply loads_ok; [reflexivity|]. apply e_load.
Qed.
Print Assumptions C55_progress_on_stdout_refuted.
