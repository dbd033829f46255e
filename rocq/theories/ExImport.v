(** C73: examples *)
From Coq Require Import Ascii String.
From stdpp Require Import prelude strings gmap sorting.
From Verif Require Import GoStr Scip GoTypes Packages Symbols Document Lookup Pass1 Pass2 Paths
  Regex Semver SpecSemver P_Semver Loader Index Ast SpecSymbol SpecDecl SpecLookup SpecOcc SpecIndex SpecPrecise
  P_Symbols P_Pass1 P_Link P_Lookup P_Pass2 P_Occ P_Scope P_Index P_Precise PropDecl PropOcc PropIndex PropModule PropCross PropNav PropPrecise PropUnique
  ExDecl ExOcc ExIndex ExCross ExPrecise PropImport SpecImport.
Open Scope string_scope.
Open Scope list_scope.

(** *** Examples *)
(** B of ExCross.v: import "ex.org/p", var y = p.F; A: the module ex.org *)
Lemma b_imports_p : imports_package B b_r r_file2 None 319 "ex.org/p".
Proof.
  eexists _, 420, _, b_ti, b_o_p, "ex.org/p", b_dep. split; [|split_and!; try reflexivity; by apply imports_of_imported].
  apply elem_of_list_In. cbn. right. left. reflexivity.
Qed.
Lemma b_qualifies_p : qualifies b_r r_file2 (mk 411 "p" 339) "ex.org/p".
Proof.
  eexists _, b_ti, b_o_p. split; [|split_and!; reflexivity].
  apply elem_of_list_In. cbn. do 6 right. left. reflexivity.
Qed.
Lemma b_loads_p : loaded_package B "ex.org/p" b_dep_mod.
Proof. exists 1, b_dep. split_and!; reflexivity. Qed.
Example C73_imports_ex :
  occurs B b_msgs b_r r_file2 role_read_access (path_range B 319 "ex.org/p") "scip-go gomod ex.org v1.0.0 `ex.org/p`/" ∧
  occurs B b_msgs b_r r_file2 role_read_access (ident_span (pr_fs B) (mk 411 "p" 339)) "scip-go gomod ex.org v1.0.0 `ex.org/p`/".
Proof.
  split.
  - apply (C73_imports B b_msgs b_r r_file2 None 319 "ex.org/p" b_dep_mod b_indexed); [left|left|exact b_imports_p|exact b_loads_p].
  - apply (C73_qualifiers B b_msgs b_r r_file2 (mk 411 "p" 339) "ex.org/p" b_dep_mod b_indexed); [left|left|exact b_qualifies_p|exact b_loads_p].
Qed.
Example C73_cross_ex : ∃ s, occurs A a_msgs a_p q_file role_definition (name_range A (mk 100 "p" 9)) s ∧
  occurs B b_msgs b_r r_file2 role_read_access (path_range B 319 "ex.org/p") s ∧
  occurs B b_msgs b_r r_file2 role_read_access (ident_span (pr_fs B) (mk 411 "p" 339)) s.
Proof.
  destruct a_main as [HA NA].
  destruct (C73_cross_repository A a_msgs a_opts a_world a_raw a_raw_mod a_p q_file B b_msgs b_opts a_world b_dep b_dep_mod b_dep 1 b_r r_file2)
    as (s & H1 & H2 & H3).
  - exact a_indexed.
  - exact b_indexed.
  - exact HA.
  - exact NA.
  - left.
  - left.
  - by repeat split.
  - vm_compute. reflexivity.
  - reflexivity.
  - reflexivity.
  - left.
  - left.
  - reflexivity.
  - reflexivity.
  - apply N_keep; [done| |].
    + rewrite <- is_pseudo_iff. vm_compute. done.
    + rewrite <- has_build_iff. vm_compute. tauto.
  - exists s. split; [exact H1|]. split; [exact (H2 _ _ b_imports_p)|exact (H3 _ b_qualifies_p)].
Qed.

(** the two-package project X: package r imports package p of the same project *)
Lemma x_imports_p : imports_package X x_r r_file2 None 319 "ex.org/p".
Proof.
  eexists _, 420, _, r_ti, o_p, "ex.org/p", x_p. split; [|split_and!; try reflexivity; by apply imports_of_imported].
  apply elem_of_list_In. cbn. right. left. reflexivity.
Qed.
Lemma x_qualifies_p : qualifies x_r r_file2 (mk 411 "p" 339) "ex.org/p".
Proof.
  eexists _, r_ti, o_p. split; [|split_and!; reflexivity].
  apply elem_of_list_In. cbn. do 6 right. left. reflexivity.
Qed.
Example C73_project_ex : ∃ s, occurs X x_msgs x_p q_file role_definition (name_range X (mk 100 "p" 9)) s ∧
  occurs X x_msgs x_r r_file2 role_read_access (path_range X 319 "ex.org/p") s ∧
  occurs X x_msgs x_r r_file2 role_read_access (ident_span (pr_fs X) (mk 411 "p" 339)) s.
Proof.
  destruct (C73_in_project X x_msgs x_r r_file2 x_p q_file x_indexed) as (s & H1 & H2 & H3); [right; left|right; left|left|left|].
  exists s. split; [exact H1|]. split; [exact (H2 _ _ x_imports_p)|exact (H3 _ x_qualifies_p)].
Qed.
(** the conditions of the theorems on precision *)
Lemma x_ordinary : ordinary_objects X x_r.
Proof.
  intros ti ptr o Hti Hu Hk. cbn in Hti. injection Hti as <-. apply tab_in in Hu. cbn in Hu.
  destruct Hu as [Hu|[Hu|[]]]; injection Hu as <- <-; [by destruct (Hk "ex.org/p")|].
  split; [intros pp; discriminate|]. intros p' f' Hp' Hf'. enum Hp'; subst p'; enum Hf'; subst f'; vm_compute; discriminate.
Qed.
Example C73_precise_ex : indexed X x_msgs ∧ clean_modules X ∧ ordinary_objects X x_r ∧ loaded_package X "ex.org/p" p_mod ∧
  occurs X x_msgs x_r r_file2 role_read_access (ident_span (pr_fs X) (mk 411 "p" 339)) (package_symbol p_mod "ex.org/p").
Proof.
  assert (Hl : loaded_package X "ex.org/p" p_mod) by (exists 1, x_p; split_and!; reflexivity).
  split; [exact x_indexed|]. split; [exact x_clean|]. split; [exact x_ordinary|]. split; [exact Hl|].
  apply C73_qualifiers; [exact x_indexed|right; left|right; left|exact x_qualifies_p|exact Hl].
Qed.
