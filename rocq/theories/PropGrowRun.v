(** C84 for the whole command: `scip-go index` before and after files and packages were added. *)
From Coq Require Import Ascii String.
From stdpp Require Import prelude strings gmap sorting relations.
From Verif Require Import GoStr Scip GoTypes Ast Packages Symbols Document Lookup Pass1 Pass2 Paths Env Loader Index
  SpecSymbol SpecDecl SpecLookup SpecOcc SpecIndex P_Symbols P_Pass1 P_Link P_Lookup P_Pass2 P_Occ P_Loader PropLoader P_Index PropIndex
  Quote Fingerprint SpecTypes P_Finger PropFinger Impls P_Rel P_Ident SpecImpl P_Filter P_Mem P_Extract P_Impl PropImpl PropDet
  Output Proto Cli PropCli Options PropOptions Url PropUrl PropCross PropMember Program PropPrecise PropEnd PropSkip PropFind P_Once PropOnce
  SpecMove P_Move P_Move2 P_Move3 PropMove PropSkipRun PropPart PropEdit PropEditRun PropGrow.
Open Scope string_scope.
Open Scope list_scope.

(** a run that exits with code 0, and the index of the project that it loaded *)
Lemma run_indexed S f output t q u out : go_works S f → regular_output t output q → scip_go S f output t (u, out, Exit 0 None) →
  (∀ c, u !! q = Some (FReg c) → (Z.of_nat (slen c) < 2 ^ 63)%Z) →
  ∃ o P c ix msgs, make_options (su_machine S) f = Ok (Some o) ∧ loaded_by S f o P ∧ u !! q = Some (FReg c) ∧ read_index c = Some ix ∧
    si_docs ix = documents msgs ∧ indexed_as (su_digest S) (su_objstr S) (io_module_root (ro_index o)) P msgs.
Proof.
  intros Hg Ho Hr Hsz. inversion Hr as [| |o h ld Eo Hld Er].
  destruct (exit_zero (su_sys S) (su_noise S) _ output t q _ Ho Er eq_refl) as (Hc & msgs & Hrun & Et). cbn [fst] in Et.
  destruct (good_file S o h ld output t q u out msgs Ho Hc Hrun Et Hsz Er) as (ix & F1 & F2 & F3 & F4 & F5).
  destruct (loaded_run _ _ _ _ _ _ Hld Hrun) as (h0 & roots & all & proj & Ha & L & ->).
  destruct (Hg o h0 roots h all proj Eo Ha L) as (P & <- & <- & <- & G). assert (HP : loaded_by S f o P) by (by exists h0, roots).
  exists o, P, (bytes_of_messages msgs), ix, msgs. split_and!; try done. by eapply run_as.
Qed.

(** C84: a run of the command before files and packages were added and one after it, that both exit with code 0: for
    every file that was there and refers to nothing that was added, both indexes have the same document, up to
    relationships, the information about its package and the order of the symbols.  S': the second run; S1: what it reads,
    with the files that were there at the positions they had in the first run (mv, back: how the positions moved, since
    the files are parsed in another order). *)
Theorem C84_whole_command : ∀ mv back S S1 S' f output t t' q q' u u' out out',
  su_machine S1 = su_machine S → su_digest S1 = su_digest S → su_objstr S1 = su_objstr S →
  same_but_positions mv back S1 S' f → go_works S f → go_works S1 f → maps_iterate S' f →
  regular_output t output q → regular_output t' output q' →
  scip_go S f output t (u, out, Exit 0 None) → scip_go S' f output t' (u', out', Exit 0 None) →
  (∀ c, u !! q = Some (FReg c) → (Z.of_nat (slen c) < 2 ^ 63)%Z) → (∀ c, u' !! q' = Some (FReg c) → (Z.of_nat (slen c) < 2 ^ 63)%Z) →
  ∃ o P P1 c c' ix ix', loaded_by S f o P ∧ loaded_by (seen mv back S1 S') f o P1 ∧
    u !! q = Some (FReg c) ∧ u' !! q' = Some (FReg c') ∧ read_index c = Some ix ∧ read_index c' = Some ix' ∧
    (grown P P1 → laid_out P → laid_out P1 →
     ∀ p p' fl m ti ti', p ∈ pr_pkgs P → p' ∈ pr_pkgs P1 → p_path p' = p_path p → p_module p = Some m → p_info p = Some ti → p_info p' = Some ti' →
      fl ∈ p_syntax p → untouched (su_fs S) (su_fs S1) ti ti' fl → refers_back P P1 p p' ti fl →
      ∃ d d', document_of (pr_pkgs P) (si_docs ix) p fl d ∧ document_of (pr_pkgs P1) (si_docs ix') p' fl d' ∧
        d_path d' = d_path d ∧ d_occs d' = d_occs d ∧
        map unrelated (filter (λ i, i_symbol i ≠ package_symbol m (p_path p)) (d_symbols d')) ≡ₚ
        map unrelated (filter (λ i, i_symbol i ≠ package_symbol m (p_path p)) (d_symbols d))).
Proof.
  intros mv back S S1 S' f output t t' q q' u u' out out' Em Ed Eo Hsp Hg Hg1 Hm Ho Ho' Hr Hr' Hsz Hsz'.
  destruct (run_indexed S f output t q u out Hg Ho Hr Hsz) as (o & P & c & ix & msgs & E1 & HP & E2 & E3 & E4 & X).
  destruct (run_indexed (seen mv back S1 S') f output t' q' u' out') as (o' & P1 & c' & ix' & msgs' & E1' & HP1 & E2' & E3' & E4' & X'); try done.
  - by eapply seen_works.
  - by apply seen_command with (f := f).
  - cbn in E1'. rewrite Em, E1 in E1'. injection E1' as <-. cbn in X'. rewrite Ed, Eo in X'.
    exists o, P, P1, c, c', ix, ix'. do 6 (split; [done|]). intros Hgr Hl Hl1 p p' fl m ti ti' Hp Hp' Epath Emod Hti Hti' Hfl Hut Hrb.
    rewrite E4, E4'. apply (C84_other_documents _ _ _ P P1 msgs msgs' p p' fl m ti ti' Hgr Hl Hl1 X X'); try done.
    destruct HP as (? & ? & _ & _ & _ & G). destruct HP1 as (? & ? & _ & _ & _ & G1). rewrite (gg_fs _ _ _ _ _ G), (gg_fs _ _ _ _ _ G1). exact Hut.
Qed.
Print Assumptions C84_whole_command.
