(** C25, C26 for the tables of LoadPackages as a whole. *)
From Coq Require Import Ascii String.
From stdpp Require Import prelude strings gmap relations sorting.
From Verif Require Import GoStr Scip GoTypes Ast Packages Symbols Lookup Regex Semver Paths Loader
  P_Loader Index SpecIndex PropModule PropLoader P_Load.
Open Scope string_scope.
Open Scope list_scope.

(** *** Specification *)
(** the options with an empty version replaced by "." *)
Definition version_defaulted (o o1 : index_opts) : Prop :=
  io_module_version o1 = (if decide (io_module_version o = "") then "." else io_module_version o) ∧
  io_module_root o1 = io_module_root o ∧ io_module_path o1 = io_module_path o ∧ io_go_version o1 = io_go_version o ∧
  io_indexing_stdlib o1 = io_indexing_stdlib o ∧ io_driver_set o1 = io_driver_set o.
Lemma default_is o : version_defaulted o (with_default_version o).
Proof. unfold version_defaulted, with_default_version. cbn. destruct (String.eqb_spec (io_module_version o) ""), (decide (io_module_version o = "")); done. Qed.

(** C25: every package in the tables, but for the builtin entry, is a package that packages.Load returned, normalised
    exactly once, with the default version; so it has a module with a path and a version. *)
Theorem C25_loaded : ∀ o w bp h0 roots h all proj, load_input bp h0 roots → load_packages o w bp h0 roots h all proj →
  ∃ o1, version_defaulted o o1 ∧
  ∀ k q, all !! k = Some q ∨ proj !! k = Some q → q ≠ bp →
    ∃ g0 g m, h0 !! q = Some g0 ∧ p_path g0 = k ∧ normalize_package o1 w g0 = Ok g ∧ h !! q = Some g ∧ p_path g = k ∧
      p_module g = Some m ∧ m_path m ≠ "" ∧ m_version m ≠ "".
Proof.
  intros o w bp h0 roots h all proj Hin Hl. exists (with_default_version o). split; [apply default_is|].
  set (o' := with_default_version o) in *. set (hb := <[bp:=builtin_pkg bp o']> h0).
  pose proof (load_final o w bp h0 roots h all proj Hin Hl) as [[E Hinv Hpj] _].
  pose proof (hb_nostd o bp h0 roots Hin) as Hns.
  assert (once o' w hb bp hb {[ "builtin" := bp ]}) as Ho0.
  { constructor; [apply same_graph_refl|by left|]. intros k q [<- <-]%lookup_singleton_Some. by left. }
  destruct (once_loop o' w hb bp Hns hb {[ "builtin" := bp ]} ∅ roots h all proj Ho0) as (Ho & Hpe).
  { intros k q H. by rewrite lookup_empty in H. }
  { intros p Hp ->. destruct (in_roots _ _ _ Hin _ Hp) as [? H]. by rewrite (in_builtin _ _ _ Hin) in H. }
  { exact Hl. }
  intros k q Hk Hq.
  assert (Hn : normalised o' w hb h q).
  { destruct Hk as [Hk|Hk].
    - by destruct (on_tab _ _ _ _ _ _ Ho _ _ Hk) as [->|].
    - by destruct (Hpe _ _ Hk) as (? & ? & ? & _ & _ & _ & _ & _ & _ & [->|]). }
  assert (Hpath : ∃ g, h !! q = Some g ∧ p_path g = k).
  { destruct Hk as [Hk|Hk].
    - destruct (li_tab _ _ _ _ _ Hinv _ _ Hk) as (g & Hg & Hgk & _). eauto.
    - destruct (Hpj _ _ Hk) as (_ & g & Hg & Hgk). eauto. }
  destruct Hn as (g0 & g & Hg0 & Hg & Hn). destruct Hpath as (g1 & Hg1 & Hk1). assert (g1 = g) as -> by congruence.
  destruct (C25_path_and_version_nonempty o' w g0 g) as (m & Hm & Hmp & Hmv); [|done|].
  { destruct (default_is o) as [Hv _]. fold o' in Hv. rewrite Hv. by destruct (decide _). }
  destruct (same_graph_lookup _ _ _ _ (on_same _ _ _ _ _ _ Ho) Hg0) as (g2 & Hg2 & (Hp2 & _)). assert (g2 = g) as -> by congruence.
  exists g0, g, m. split_and!; try done; [|congruence].
  by destruct (hb_cases o bp h0 _ _ Hg0) as [[-> _]|H].
Qed.
Print Assumptions C25_loaded.
(** With an empty version: the project's packages get version ".". *)
Example C25_loaded_example : ∃ h all proj g m, load_packages (ex_opts "") ex_world 0 lx_heap [1; 2] h all proj ∧
  proj !! "a" = Some 2 ∧ h !! 2 = Some g ∧ p_module g = Some m ∧ m_version m = ".".
Proof.
  destruct (run_load 20 (ex_opts "") ex_world 0 lx_heap [1; 2]) as [[[h all] proj]|] eqn:E; [|vm_compute in E; discriminate].
  exists h, all, proj. eexists _, _. split; [by eapply run_load_sound|]. vm_compute in E. injection E as <- <- <-.
  split; [vm_compute; reflexivity|]. split; [vm_compute; reflexivity|]. split; [reflexivity|reflexivity].
Qed.
