(** What a run prints on stdout: C41 (the progress shown), C55 (quiet runs). *)
From Coq Require Import Ascii String.
From stdpp Require Import prelude strings gmap sorting pretty.
From Verif Require Import GoStr Scip GoTypes Ast Packages Symbols Document Lookup Pass1 Pass2 Paths Env Loader Index
  SpecSymbol SpecDecl SpecLookup SpecOcc SpecIndex P_Symbols P_Pass1 P_Lookup P_Pass2 P_Occ P_Index PropIndex PropLoader
  Output Proto P_Proto Cli PropOutput PropCli Options PropPaths PropOptions PropEnv Url PropUrl
  PropDet Quote Fingerprint SpecTypes P_Finger PropFinger Impls P_Rel P_Ident SpecImpl P_Filter P_Mem P_Extract P_Impl PropImpl PropCross PropMember Program PropEnd.
Open Scope string_scope.
Open Scope list_scope.

(** *** The progress shown *)
(** [finished pkgs k j]: after the first k actions of the worker, j packages are finished *)
Definition finished {M} (pkgs : list (list (M → M))) (k j : nat) : Prop :=
  j ≤ length pkgs ∧ length (package_worker (take j pkgs)) ≤ k ∧
  (j = length pkgs ∨ k < length (package_worker (take (S j) pkgs))).
Lemma counts_works {M} (fs : list (M → M)) : counts (map Work fs) = 0.
Proof. unfold counts. induction fs; [done|]. cbn. done. Qed.
Lemma worker_cons {M} (fs : list (M → M)) pkgs : package_worker (fs :: pkgs) = (map Work fs ++ [Count]) ++ package_worker pkgs.
Proof. done. Qed.
Lemma counts_finished {M} (pkgs : list (list (M → M))) : ∀ k j, finished pkgs k j → counts (take k (package_worker pkgs)) = j.
Proof.
  induction pkgs as [|fs pkgs IH]; intros k j (H1 & H2 & H3).
  - cbn in *. assert (j = 0) as -> by lia. by destruct k.
  - destruct j as [|j].
    + destruct H3 as [H3|H3]; [done|].
      change (take 1 (fs :: pkgs)) with [fs] in H3. rewrite worker_cons, !app_length in H3. cbn [length package_worker map List.concat] in H3.
      rewrite worker_cons, <- List.app_assoc. rewrite take_app_le by lia.
      apply Nat.le_0_r. etransitivity; [apply counts_take|]. by rewrite counts_works.
    + cbn [take] in H2, H3. rewrite worker_cons, app_length in H2. rewrite worker_cons.
      rewrite take_app_ge by lia. rewrite counts_app, counts_app, counts_works. change (counts [@Count M]) with 1.
      rewrite (IH _ j); [done|]. cbn in H1. split; [lia|]. split; [lia|].
      destruct H3 as [H3|H3]; [left; cbn in H3; lia|right]. rewrite worker_cons, app_length in H3. lia.
Qed.
Lemma finished_exists {M} (pkgs : list (list (M → M))) : ∀ k, k ≤ length (package_worker pkgs) → ∃ j, finished pkgs k j.
Proof.
  induction pkgs as [|fs pkgs IH]; intros k Hk.
  - exists 0. split; [done|]. split; [cbn in *; lia|by left].
  - rewrite worker_cons, app_length in Hk. destruct (decide (length (map Work fs ++ [@Count M]) ≤ k)) as [Hle|Hlt].
    + destruct (IH (k - length (map Work fs ++ [@Count M]))) as (j & H1 & H2 & H3); [lia|]. exists (S j). split; [cbn; lia|].
      cbn [take]. rewrite !worker_cons, !app_length. split; [rewrite app_length in *; lia|].
      destruct H3 as [->|H3]; [by left|right]. rewrite !app_length in *. lia.
    + exists 0. split; [lia|]. split; [cbn; lia|]. right. change (take 1 (fs :: pkgs)) with [fs]. rewrite worker_cons, app_length. lia.
Qed.

Section Shown.
  Context {M : Type} (lv : level) (n : nat) (m0 : M) (acts : list (action M)).
  Definition loaded_before (s : state M) : Prop := ∀ a, st_main s = MPrint a →
    ∃ s0, reachable lv n m0 acts s0 ∧ rtc (step lv n) s0 s ∧ a = st_count s0.
  Lemma loaded_step s s' : reachable lv n m0 acts s → loaded_before s → step lv n s s' → loaded_before s'.
  Proof.
    intros Hr Hl Hs a Ha.
    assert (st_main s = MPrint a ∨ st_main s ≠ MPrint a ∧ a = st_count s) as [Hm|[_ ->]].
    { destruct Hs; cbn in *; try discriminate; try (by left); by injection Ha as <-; right. }
    - destruct (Hl a Hm) as (s0 & H1 & H2 & H3). exists s0. split; [done|]. split; [|done]. by eapply rtc_r.
    - exists s. split; [done|]. split; [|done]. by apply rtc_once.
  Qed.
  Lemma loaded_reachable s : reachable lv n m0 acts s → loaded_before s.
  Proof.
    revert s. apply rtc_ind_r; [by intros a Ha|]. intros y z Hr Hs IH. by eapply loaded_step.
  Qed.
End Shown.

(** C41: a progress line that is printed while the worker runs shows the number of packages that were finished at a
    moment between the start and the print. *)
Theorem C41_shown : ∀ {M} lv (m : M) pkgs stop s s' a b,
  let acts := take stop (package_worker pkgs) in
  reachable lv (length pkgs) m acts s → step lv (length pkgs) s s' →
  st_out s' = st_out s ++ [PProgress a b] → (∀ k, st_main s ≠ MFinal k) →
  b = length pkgs ∧ ∃ s0, reachable lv (length pkgs) m acts s0 ∧ rtc (step lv (length pkgs)) s0 s ∧ finished pkgs (st_acts s0) a.
Proof.
  intros M lv m pkgs stop s s' a b acts Hr Hs Ho Hf.
  assert (Hcase : st_main s = MPrint a ∧ b = length pkgs).
  { assert (Hne : ∀ (l : list Output.print) p, l ≠ l ++ [p]).
    { intros l p E. apply (f_equal length) in E. rewrite app_length in E. cbn in E. lia. }
    destruct Hs; cbn in *; try (by exfalso; eapply Hne).
    - apply (inj (app o)) in Ho. injection Ho as -> ->. done.
    - by exfalso; eapply Hf.
    - by exfalso; eapply Hf.
    - by exfalso; eapply Hf. }
  destruct Hcase as [Hm ->]. split; [done|].
  destruct (loaded_reachable lv _ m acts s Hr a Hm) as (s0 & H1 & H2 & ->). exists s0. split; [done|]. split; [done|].
  destruct (inv_reachable lv (length pkgs) m acts (worker_counts pkgs stop) s0 H1) as [I1 _ I3 _ _ _ _].
  assert (Hk : st_acts s0 ≤ length acts).
  { destruct (st_worker s0); [destruct I1 as (_ & I1 & _); lia|destruct I1 as [-> _]; lia]. }
  unfold acts in Hk. rewrite take_length in Hk.
  destruct (finished_exists pkgs (st_acts s0)) as [j Hj]; [lia|].
  assert (st_count s0 = j) as ->; [|done]. rewrite I3. unfold acts. rewrite take_take, Nat.min_l by lia. by apply counts_finished.
Qed.
Print Assumptions C41_shown.
(** two packages, the first with one file; a tick after it is finished *)
Section Example.
  Let pkgs : list (list (nat → nat)) := [[S]; [S; S]].
  Example C41_shown_example : ∃ s s' : state nat, reachable Default 2 0 (take 10 (package_worker pkgs)) s ∧ step Default 2 s s' ∧
    st_out s' = st_out s ++ [PProgress 1 2] ∧ finished pkgs (st_acts s) 1.
  Proof.
    eexists _, _. split; [|split; [|split]].
    - eapply rtc_l; [by apply step_loud|]. eapply rtc_l; [apply step_spawn|]. eapply rtc_l; [apply step_load|].
      eapply rtc_l; [apply step_print|]. eapply rtc_l; [apply step_work|]. eapply rtc_l; [apply step_work|].
      eapply rtc_l; [by apply step_tick|]. eapply rtc_l; [apply step_select_tick|]. eapply rtc_l; [apply step_load|]. apply rtc_refl.
    - apply step_print.
    - reflexivity.
    - split; [cbn; lia|]. split; [cbn; lia|]. right. cbn. lia.
  Qed.
End Example.

(** *** What is printed at a level *)
(** [printed lv t]: t consists of texts that calls of WithProgress and WithProgressParallel print at level lv *)
Inductive printed (lv : level) : string → Prop :=
| printed_nothing : printed lv ""
| printed_task A name elapsed (fn : A) inner t rest : (∀ x, x ∈ inner → printed lv x) →
    t ∈ (with_progress lv name elapsed fn inner).2 → printed lv rest → printed lv (t +:+ rest)
| printed_progress M n (m : M) acts s name elapsed number p rest : counts acts ≤ n → reachable lv n m acts s → p ∈ st_out s →
    printed lv rest → printed lv (print_text name elapsed number p +:+ rest).
Lemma printed_quiet t : printed Quiet t → t = "".
Proof.
  induction 1 as [|A name elapsed fn inner t rest _ IHi Ht _ IH|M n m acts s name elapsed number p rest Hn Hr Hp _ _]; [done| |].
  - cbn in Ht. by rewrite (IHi _ Ht), IH.
  - destruct (C41_progress Quiet n m acts s Hn Hr) as (_ & _ & Hq & _). rewrite (Hq eq_refl) in Hp. by apply elem_of_nil in Hp.
Qed.

(** the texts the run prints on stdout, apart from the index, are those of its log level (main.go 79) *)
Definition prints_by_level (S : surroundings) (f : flags) : Prop :=
  ∀ l, get_log_level (fl_quiet f) (fl_verbose f) = Ok l → ∀ n, printed (level_of l) (su_noise S n).
Lemma quiet_noise S f : fl_quiet f = true → prints_by_level S f → ∀ n, su_noise S n = "".
Proof.
  intros Hq H n. apply printed_quiet. specialize (H _ ltac:(by rewrite Hq; apply C50_quiet) n). exact H.
Qed.
Lemma stdout_silent no l : (∀ n, no n = "") → ∀ n, stdout_of no n l = bytes_of_messages l.
Proof.
  intros H. unfold bytes_of_messages. induction l as [|m l IH]; intros n; [apply H|]. cbn [stdout_of map]. rewrite concat_cons, IH, H. done.
Qed.

(** C55: `scip-go index -q -o -`: with exit code 0 no file is touched and stdout is exactly the index of the project. *)
Theorem C55_stdout : ∀ S f t t' out l,
  go_works S f → prints_by_level S f → fl_quiet f = true →
  mc_wd (su_machine S) = Some (abs_path l) → Forall PropPaths.name_ok l →
  scip_go S f "-" t (t', out, Exit 0 None) → (Z.of_nat (slen out) < 2 ^ 63)%Z →
  t' = t ∧ ∃ o P ix, loaded_by S f o P ∧ read_index out = Some ix ∧ right_index o P ix ∧
    ∃ msgs, indexed_with (su_digest S) P msgs ∧ si_docs ix = documents msgs ∧ si_exts ix = externals msgs.
Proof.
  intros S f t t' out l Hg Hpr Hq Hw Hl Hr Hsz. inversion Hr as [| |o h ld Eo Hld Er].
  unfold index_cmd in Er. change (String.eqb "-" "-") with true in Er. cbv iota in Er.
  destruct (program_run S o h ld (cli_writer (sy_write (su_sys S)))) as [msgs oc] eqn:Hrun. cbv iota in Er.
  destruct oc as [[e|]|e]; try discriminate Er. injection Er as <- <-. split; [done|].
  destruct Hld as [e h Ha|h0 roots m h Ha Hp|h0 roots h all proj Ha Hload]; try (exfalso; by eapply load_failed_no_zero).
  destruct (Hg o h0 roots h all proj Eo Ha Hload) as (P & <- & <- & <- & G).
  assert (HP : loaded_by S f o P) by (by exists h0, roots).
  pose proof (run_right S f o P HP _ _ l Hw Hl Hrun) as Hri. pose proof (run_indexed S f o P HP _ _ Hrun) as Hx.
  pose proof (quiet_noise S f Hq Hpr) as Hno.
  rewrite (stdout_silent _ _ Hno) in Hsz. rewrite (stdout_silent _ _ Hno).
  pose proof Hrun as Hrun'. rewrite (run_is S f o P HP) in Hrun'.
  destruct (C55_quiet_stdout _ _ _ _ _ _ _ _ _ _ _ _ _ _ _ _ (su_sys S) t msgs Hrun' Hsz) as (out1 & E1 & E2).
  unfold index_cmd in E1. change (String.eqb "-" "-") with true in E1. cbv iota in E1. rewrite Hrun' in E1. cbv iota in E1.
  injection E1 as <-. rewrite stdout_quiet in E2.
  exists o, P. eexists. split; [done|]. split; [exact E2|]. split; [exact Hri|]. exists msgs. done.
Qed.
Print Assumptions C55_stdout.

(** C55: a quiet run prints nothing but the bytes of the index, also if it fails. *)
Theorem C55_nothing_else : ∀ S f t t' out code err,
  prints_by_level S f → fl_quiet f = true → scip_go S f "-" t (t', out, Exit code err) →
  t' = t ∧ ∃ msgs rest, Forall (λ m, is_Some (marshal m)) msgs ∧ out = bytes_of_messages msgs +:+ rest ∧
    (rest = "" ∨ code = 1 ∧ rest = sy_partial (su_sys S)).
Proof.
  intros S f t t' out code err Hpr Hq Hr. pose proof (quiet_noise S f Hq Hpr) as Hno.
  apply scip_go_cases in Hr as [(m & _ & E)|[(e' & _ & E)|(o & h & ld & Eo & Hld & Er)]].
  - injection E as -> -> -> ->. split; [done|]. exists [], "". split; [constructor|]. split; [by rewrite Hno|by left].
  - injection E as -> -> -> ->. split; [done|]. exists [], "". split; [constructor|]. split; [by rewrite Hno|by left].
  - unfold index_cmd in Er. change (String.eqb "-" "-") with true in Er. cbv iota in Er.
    pose proof (run_accepts (su_digest S) (su_env S) (su_fs S) h (su_objstr S) (it_maps (su_iteration S)) 
      (match ld with
                | LoadFailed _ => λ _ _, Ok None
                | LoadOk all proj => impl_phase (su_env S) (su_unicode S) (su_crc S) (su_mset S) (su_constraint S) (su_package_level S)
                                       (su_scope S) (it_search (su_iteration S)) h proj all
                end) "" (io_module_root (ro_index o)) (io_module_version (ro_index o)) (io_skip_impls (ro_index o)) (index_metadata (su_tool S) (ro_index o)) ld
        (it_proj (su_iteration S)) (it_all (su_iteration S)) (it_proj2 (su_iteration S)) (cli_writer (sy_write (su_sys S)))) as Ha.
    match type of Ha with accepts _ _ (?r).1 => change r with (program_run S o h ld (cli_writer (sy_write (su_sys S)))) in Ha end.
    destruct (program_run S o h ld (cli_writer (sy_write (su_sys S)))) as [msgs oc] eqn:Hrun. cbn [fst] in Ha. cbv iota in Er.
    apply accepted_marshal in Ha.
    assert (Hm : Forall (λ m, is_Some (marshal m)) msgs).
    { clear -Ha. remember (map _ msgs) as bs eqn:Eb. clear Eb. induction Ha; constructor; [by eexists|done]. }
    destruct oc as [[e|]|e]; injection Er as <- <- <- <-; (split; [done|]); exists msgs; eexists; (split; [exact Hm|]);
      rewrite (stdout_silent _ _ Hno).
    + split; [done|by right].
    + split; [symmetry; apply app_nil_r|by left].
    + split; [symmetry; apply app_nil_r|by left].
Qed.
Print Assumptions C55_nothing_else.
