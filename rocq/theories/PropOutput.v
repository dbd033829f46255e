(** C41: waiting for the worker, under every schedule. *)
From Coq Require Import Ascii String.
From stdpp Require Import prelude strings sorting.
From Verif Require Import Output.
Open Scope list_scope.

(** [reachable lv n m acts s]: s occurs in some schedule of a call of WithProgressParallel
    with total n while the worker does acts, starting with memory m *)
Definition reachable {M} (lv : level) (n : nat) (m : M) (acts : list (action M)) (s : state M) : Prop :=
  rtc (step lv n) (initial m acts) s.
(** the progress values printed *)
Definition progress_of (o : list print) : list (nat * nat) :=
  omap (λ p, match p with PProgress a b => Some (a, b) | _ => None end) o.

Arguments progress_of : simpl never.
Arguments counts : simpl never.
Section Inv.
  Context {M : Type} (lv : level) (n : nat) (m0 : M) (acts : list (action M)).

  (** the worker has done the first k actions *)
  Record inv (s : state M) : Prop := Inv {
    i_worker : match st_worker s with
               | Running rest => acts = take (st_acts s) acts ++ rest ∧ st_acts s + length rest = length acts ∧ st_wg s = None
               | Ended => st_acts s = length acts ∧ st_wg s = Some (length acts)
               end;
    i_mem : st_mem s = fold_left run_action (take (st_acts s) acts) m0;
    i_count : st_count s = counts (take (st_acts s) acts);
    i_waiter : match st_waiter s with
               | NotStarted | WaitWg => st_done s = None
               | CloseDone v => v = length acts ∧ st_worker s = Ended ∧ st_done s = None
               | WaiterEnded => st_done s = Some (length acts) ∧ st_worker s = Ended
               end;
    i_main : match st_main s with
             | MStart => st_waiter s = NotStarted ∧ st_out s = []
             | MSpawn => lv ≠ Quiet ∧ st_waiter s = NotStarted ∧ st_out s = []
             | MWait => lv = Quiet ∧ st_waiter s = NotStarted ∧ st_out s = []
             | MLoad | MSelect => lv ≠ Quiet ∧ st_waiter s ≠ NotStarted
             | MPrint p => lv ≠ Quiet ∧ st_waiter s ≠ NotStarted ∧ p ≤ st_count s ∧
                 Forall (λ x, x.1 ≤ p) (progress_of (st_out s))
             | MFinal k => lv ≠ Quiet ∧ st_waiter s = WaiterEnded ∧ st_view s = length acts ∧ k ≤ 2
             | MReturned => st_worker s = Ended ∧ st_view s = length acts ∧
                 match lv with Quiet => st_waiter s = NotStarted | _ => st_waiter s = WaiterEnded end
             end;
    i_out : Forall (λ x, x.2 = n) (progress_of (st_out s)) ∧
            StronglySorted (λ x y, x.1 ≤ y.1) (progress_of (st_out s)) ∧
            match st_main s with
            | MFinal (S _) | MReturned => match lv with Quiet => st_out s = [] | _ =>
                ∃ l, progress_of (st_out s) = l ++ [(n, n)] ∧ Forall (λ x, x.1 ≤ st_count s) l end
            | _ => Forall (λ x, x.1 ≤ st_count s) (progress_of (st_out s))
            end;
    i_view : st_view s ≤ length acts }.

  Context (Hn : counts acts ≤ n).

  Lemma counts_app (a b : list (action M)) : counts (a ++ b) = counts a + counts b.
  Proof. unfold counts. by rewrite List.filter_app, app_length. Qed.
  Lemma counts_take k : counts (take k acts) ≤ counts acts.
  Proof. clear Hn. rewrite <- (take_drop k acts) at 2. rewrite counts_app. lia. Qed.
  Lemma progress_app a b : progress_of (a ++ b) = progress_of a ++ progress_of b.
  Proof. apply omap_app. Qed.
  Lemma sorted_snoc (l : list (nat * nat)) x : StronglySorted (λ x y, x.1 ≤ y.1) l → Forall (λ y, y.1 ≤ x.1) l →
    StronglySorted (λ x y, x.1 ≤ y.1) (l ++ [x]).
  Proof.
    induction 1 as [|y l Hs IH Hy]; intros Hf; cbn; [repeat constructor|].
    apply Forall_cons in Hf as [H1 H2]. constructor; [by apply IH|]. apply Forall_app. by split; [|repeat constructor].
  Qed.
  Lemma take_S_app (k : nat) a rest : acts = take k acts ++ a :: rest → k + length (a :: rest) = length acts →
    take (S k) acts = take k acts ++ [a].
  Proof.
    clear Hn. intros E L. apply take_S_r. rewrite E. rewrite lookup_app_r by (rewrite take_length; lia).
    rewrite take_length. cbn in L. by replace (k - k `min` length acts) with 0 by lia.
  Qed.

  Lemma inv_initial : inv (initial m0 acts).
  Proof. split; cbn; try done. split_and!; constructor. lia. Qed.
  Lemma Forall_le_trans (a b : nat) (l : list (nat * nat)) : a ≤ b → Forall (λ x, x.1 ≤ a) l → Forall (λ x, x.1 ≤ b) l.
  Proof. clear Hn. intros H F. eapply Forall_impl; [exact F|]. intros x ?. cbn in *. lia. Qed.

  Lemma inv_step s s' : inv s → step lv n s s' → inv s'.
  Proof.
    intros [H1 H2 H3 H4 H5 H6 H7] Hs. destruct Hs; cbn in *.
    - (* work *) destruct H1 as (E & L & W). pose proof (take_S_app _ _ _ E L) as Et. split; cbn.
      + rewrite Et. split; [by rewrite <-List.app_assoc|]. cbn in L. split; [lia|done].
      + rewrite Et, fold_left_app. cbn. by rewrite H2.
      + rewrite H3, Et, counts_app. done.
      + destruct w; try done; naive_solver.
      + destruct ms; try done; naive_solver lia.
      + destruct H6 as (Ha & Hb & Hc). split; [done|]. split; [done|].
        destruct ms as [| | | | | |[|?]|]; try (eapply Forall_le_trans; [|exact Hc]; lia).
        * destruct lv; [done| |]; destruct Hc as (l & Hl1 & Hl2); exists l; (split; [done|]); (eapply Forall_le_trans; [|exact Hl2]; lia).
        * destruct lv; [done| |]; destruct Hc as (l & Hl1 & Hl2); exists l; (split; [done|]); (eapply Forall_le_trans; [|exact Hl2]; lia).
      + done.
    - (* worker ends *) destruct H1 as (E & L & W). cbn in L. split; cbn; try done.
      + split; [lia|]. f_equal. lia.
      + destruct w; naive_solver.
      + destruct ms; try done; destruct lv; naive_solver.
    - (* waiter sees wg *) split; cbn; try done.
      + destruct wk; [naive_solver|]. destruct H1 as [? [= ->]]. done.
      + destruct ms; try done; destruct lv; naive_solver.
    - (* close *) destruct H4 as (-> & -> & ->). split; cbn; try done. destruct ms; try done; destruct lv; naive_solver.
    - (* tick *) split; cbn; done.
    - (* quiet *) destruct H5. split; cbn; try done.
    - (* quiet wait *) destruct H5 as (Hq & -> & ->). destruct wk; [naive_solver|]. destruct H1 as [? [= ->]]. destruct H6 as (?&?&?).
      split; cbn; try done; [rewrite Hq; split_and!; [done|lia|done]|rewrite Hq; done|lia].
    - destruct H5. split; cbn; done.
    - destruct H5 as (? & -> & ->). split; cbn; try done.
    - (* load *) destruct H5 as (? & ?). destruct H6 as (?&?&?). split; cbn; try done.
    - (* print *) destruct H5 as (? & ? & ? & Hp). destruct H6 as (Ha&Hb&Hc). split; cbn; try done.
      rewrite progress_app. change (progress_of [PNewline]) with (@nil (nat * nat)). change (progress_of [PElapsed]) with (@nil (nat * nat)). try change (progress_of [PProgress n n]) with [(n, n)]. split_and!.
      + apply Forall_app. by split; [|repeat constructor].
      + by apply sorted_snoc.
      + apply Forall_app. by split; [|repeat constructor].
    - (* select tick *) split; cbn; done.
    - (* select done *) destruct H5 as (? & ?). destruct w; try done; try naive_solver.
      destruct H4 as ([= ->] & ->). split; cbn; try done; [|lia]. split_and!; [done|done|lia|lia].
    - (* final 0 *) destruct H5 as (? & -> & -> & ?). destruct H6 as (Ha & Hb & Hc). split; cbn; try done.
      + split_and!; [done|done|done|lia].
      + rewrite progress_app. change (progress_of [PNewline]) with (@nil (nat * nat)). change (progress_of [PElapsed]) with (@nil (nat * nat)). try change (progress_of [PProgress n n]) with [(n, n)]. split_and!.
        * apply Forall_app. by split; [|repeat constructor].
        * apply sorted_snoc; [done|]. eapply Forall_le_trans; [|exact Hc]. cbn. rewrite H3.
          pose proof (counts_take k). lia.
        * destruct lv; [done| |]; by exists (progress_of o).
    - (* final 1 *) destruct H5 as (? & -> & -> & ?). destruct H6 as (Ha & Hb & Hc).
      assert (progress_of (match lv with Verbose => o ++ [PElapsed] | _ => o end) = progress_of o) as Ep.
      { destruct lv; try done. rewrite progress_app. apply List.app_nil_r. }
      split; cbn; try done. rewrite Ep. split_and!; try done. by destruct lv.
    - (* final 2 *) destruct H5 as (? & -> & -> & ?). destruct H4 as [-> ->]. destruct H6 as (Ha & Hb & Hc).
      assert (progress_of (o ++ [PNewline]) = progress_of o) as Ep.
      { rewrite progress_app. apply List.app_nil_r. }
      split; cbn; try done.
      + split_and!; try done. by destruct lv.
      + rewrite Ep. split_and!; try done. by destruct lv.
  Qed.
  Lemma inv_reachable s : reachable lv n m0 acts s → inv s.
  Proof.
    unfold reachable. intros H. assert (∀ s1 s2, rtc (step lv n) s1 s2 → inv s1 → inv s2) as Hr.
    { induction 1; [done|]. intros Hi. apply IHrtc. by eapply inv_step. }
    eapply Hr; [exact H|apply inv_initial].
  Qed.
End Inv.

(** C41: whatever the schedule, when the function has returned the worker has ended, all its
    actions happen before the return (no data race on what it wrote), the shared memory is
    what the worker's actions alone make of it, and no goroutine is left waiting. *)
Theorem C41_returns_after_worker : ∀ {M} lv n (m : M) acts s, counts acts ≤ n →
  reachable lv n m acts s → st_main s = MReturned →
  st_worker s = Ended ∧ st_view s = length acts ∧ st_mem s = fold_left run_action acts m ∧
  (st_waiter s = NotStarted ∨ st_waiter s = WaiterEnded).
Proof.
  intros M lv n m acts s Hn Hr Hm. destruct (inv_reachable lv n m acts Hn s Hr) as [H1 H2 _ _ H5 _ _].
  rewrite Hm in H5. destruct H5 as (Hw & Hv & Hwt). rewrite Hw in H1. destruct H1 as [H1 _].
  split; [done|]. split; [done|]. split.
  - rewrite H2, H1. by rewrite firstn_all.
  - destruct lv; auto.
Qed.

(** C41: printed progress never exceeds the total, never decreases, always shows the same
    total, and the last line is total/total; in quiet mode nothing is printed. *)
Theorem C41_progress : ∀ {M} lv n (m : M) acts s, counts acts ≤ n → reachable lv n m acts s →
  Forall (λ x, x.1 ≤ n ∧ x.2 = n) (progress_of (st_out s)) ∧
  StronglySorted (λ x y, x.1 ≤ y.1) (progress_of (st_out s)) ∧
  (lv = Quiet → st_out s = []) ∧
  (st_main s = MReturned → lv ≠ Quiet → last (progress_of (st_out s)) = Some (n, n)).
Proof.
  intros M lv n m acts s Hn Hr. destruct (inv_reachable lv n m acts Hn s Hr) as [_ _ H3 _ H5 (H6 & H7 & H8) _].
  pose proof (counts_take acts (st_acts s)) as Hc.
  assert (Hle : Forall (λ x, x.1 ≤ n) (progress_of (st_out s))).
  { assert (∀ l : list (nat * nat), Forall (λ x, x.1 ≤ st_count s) l → Forall (λ x, x.1 ≤ n) l) as Hx.
    { intros l. apply Forall_le_trans. lia. }
    destruct (st_main s) as [| | | | | |[|?]|]; try (by apply Hx).
    - destruct lv; [rewrite H8; constructor| |]; destruct H8 as (l & -> & Hl); (apply Forall_app; split; [by apply Hx|repeat constructor; cbn; lia]).
    - destruct lv; [rewrite H8; constructor| |]; destruct H8 as (l & -> & Hl); (apply Forall_app; split; [by apply Hx|repeat constructor; cbn; lia]). }
  split_and!.
  - apply Forall_forall. intros x Hx. rewrite Forall_forall in Hle, H6. split; [by apply Hle|by apply H6].
  - done.
  - intros ->. destruct (st_main s); naive_solver.
  - intros Hm Hq. rewrite Hm in H8. destruct lv; [done| |]; destruct H8 as (l & -> & _); by rewrite last_snoc.
Qed.

(** C41: a tick of the clock is the only step that does not bring the call nearer to its
    end, and until it has returned some other step is possible. *)
Definition tick {M} (s : state M) : state M :=
  State (st_mem s) (st_count s) (st_worker s) (st_acts s) (st_wg s) (st_waiter s) (st_done s) true (st_main s) (st_view s) (st_out s).
Definition measure {M} (s : state M) : nat :=
  (match st_worker s with Running rest => S (length rest) | Ended => 0 end) +
  (match st_main s with MStart => 11 | MSpawn => 10 | MWait => 1 | MLoad => 6 | MPrint _ => 5
   | MSelect => 4 | MFinal k => 3 - k | MReturned => 0 end) +
  (match st_main s with MLoad | MPrint _ | MSelect => if st_tick s then 3 else 0 | _ => 0 end) +
  (match st_waiter s with NotStarted => 2 | WaitWg => 2 | CloseDone _ => 1 | WaiterEnded => 0 end).
Lemma step_measure {M} lv n (s s' : state M) : (match st_main s with MFinal k => k ≤ 2 | MSpawn => st_waiter s = NotStarted | _ => True end) →
  step lv n s s' → s' = tick s ∨ measure s' < measure s.
Proof.
  intros Hm Hs. destruct Hs; cbn in *; try (by left); right; try subst w; unfold measure; cbn;
    repeat match goal with |- context [match ?x with _ => _ end] => destruct x end; lia.
Qed.
Theorem C41_every_step_progresses : ∀ {M} lv n (m : M) acts s s', counts acts ≤ n →
  reachable lv n m acts s → step lv n s s' → s' = tick s ∨ measure s' < measure s.
Proof.
  intros M lv n m acts s s' Hn Hr. apply step_measure.
  destruct (inv_reachable lv n m acts Hn s Hr) as [_ _ _ _ H5 _ _]. destruct (st_main s); naive_solver.
Qed.
Lemma can_step {M} lv n (m : M) acts s : inv lv n m acts s → st_main s ≠ MReturned →
  ∃ s', step lv n s s' ∧ measure s' < measure s.
Proof.
  intros [H1 _ _ H4 H5 _ _] Hm. destruct s as [mem c wk k wg w d t ms v o]. cbn in *.
  destruct wk as [[|a rest]|].
  - eexists. split; [constructor|]. unfold measure. cbn. lia.
  - eexists. split; [constructor|]. unfold measure. cbn. lia.
  - destruct H1 as [-> ->]. destruct ms as [| | | |p| |kk|]; try done.
    + destruct lv; [eexists; split; [by apply step_quiet|]|eexists; split; [by apply step_loud|]|eexists; split; [by apply step_loud|]]; unfold measure; cbn; lia.
    + eexists. split; [apply step_quiet_wait|]. unfold measure. cbn. lia.
    + destruct H5 as (? & -> & ->). eexists. split; [apply step_spawn|]. unfold measure. cbn. destruct t; lia.
    + eexists. split; [apply step_load|]. unfold measure. cbn. lia.
    + eexists. split; [apply step_print|]. unfold measure. cbn. lia.
    + destruct H5 as [? ?]. destruct w as [| |vw|]; [done| | |].
      * eexists. split; [apply step_wait_wg|]. unfold measure. cbn. lia.
      * eexists. split; [apply step_close|]. unfold measure. cbn. lia.
      * destruct H4 as [-> _]. eexists. split; [apply step_select_done|]. unfold measure. cbn. lia.
    + destruct H5 as (? & -> & -> & ?). destruct kk as [|[|[|kk]]]; [| | |lia];
        (eexists; split; [first [apply step_final0|apply step_final1|apply step_final2]|]; unfold measure; cbn; lia).
Qed.
Theorem C41_can_always_return : ∀ {M} lv n (m : M) acts s, counts acts ≤ n → reachable lv n m acts s →
  ∃ s', rtc (step lv n) s s' ∧ st_main s' = MReturned.
Proof.
  intros M lv n m acts s Hn Hr. pose proof (inv_reachable lv n m acts Hn s Hr) as Hi. clear Hr.
  remember (measure s) as k eqn:Ek. revert s Hi Ek. induction k as [k IH] using lt_wf_ind. intros s Hi ->.
  assert (st_main s = MReturned ∨ st_main s ≠ MReturned) as [Hd|Hd] by (destruct (st_main s); auto); [by exists s|].
  destruct (can_step _ _ _ _ _ Hi Hd) as (s1 & Hs & Hlt).
  destruct (IH _ Hlt s1) as (s' & Hr & Hm); [by eapply inv_step|done|].
  exists s'. split; [by eapply rtc_l|done].
Qed.

(** a run of the function with a worker that sets an error and stops after one of two packages *)
Section Example.
  Let acts : list (action (option string)) := [Work (λ m, m); Count; Work (λ _, Some "disk full"%string)].
  Example C41_example : ∃ s, reachable Default 2 None acts s ∧ st_main s = MReturned ∧
    st_mem s = Some "disk full"%string ∧ progress_of (st_out s) = [(0, 2); (1, 2); (2, 2)].
  Proof.
    eexists. split; [|split; [|split]].
    - eapply rtc_l; [by apply step_loud|]. eapply rtc_l; [apply step_spawn|]. eapply rtc_l; [apply step_load|].
      eapply rtc_l; [apply step_print|]. eapply rtc_l; [apply step_work|]. eapply rtc_l; [apply step_work|].
      eapply rtc_l; [by apply step_tick|]. eapply rtc_l; [apply step_select_tick|]. eapply rtc_l; [apply step_load|].
      eapply rtc_l; [apply step_work|]. eapply rtc_l; [apply step_print|]. eapply rtc_l; [apply step_worker_end|].
      eapply rtc_l; [apply step_wait_wg|]. eapply rtc_l; [apply step_close|]. eapply rtc_l; [apply step_select_done|].
      eapply rtc_l; [apply step_final0|]. eapply rtc_l; [apply step_final1|]. eapply rtc_l; [apply step_final2|]. apply rtc_refl.
    - reflexivity.
    - reflexivity.
    - reflexivity.
  Qed.
End Example.
Print Assumptions C41_returns_after_worker.
Print Assumptions C41_progress.
Print Assumptions C41_every_step_progresses.
Print Assumptions C41_can_always_return.

(** The worker of Index and of indexVisitPackages (scip.go 126-164, 201-249): the files of
    each package, then the counter; it may stop anywhere, because of a write error. *)
Definition package_worker {M} (pkgs : list (list (M → M))) : list (action M) :=
  List.concat (map (λ files, map Work files ++ [Count]) pkgs).
Lemma worker_counts {M} (pkgs : list (list (M → M))) k : counts (take k (package_worker pkgs)) ≤ length pkgs.
Proof.
  etransitivity; [apply counts_take|]. induction pkgs as [|fs pkgs IH]; [done|].
  change (package_worker (fs :: pkgs)) with ((map Work fs ++ [Count]) ++ package_worker pkgs).
  rewrite !counts_app. assert (counts (map (@Work M) fs) = 0) as ->.
  { clear. unfold counts. induction fs; [done|]. cbn. done. }
  cbn [length]. change (counts [@Count M]) with 1. lia.
Qed.
(** so after the call the caller sees exactly what the worker did, sequentially *)
Theorem C41_index_worker : ∀ {M} lv (m : M) pkgs stop s,
  reachable lv (length pkgs) m (take stop (package_worker pkgs)) s → st_main s = MReturned →
  st_mem s = fold_left run_action (take stop (package_worker pkgs)) m ∧
  st_view s = length (take stop (package_worker pkgs)) ∧
  Forall (λ x, x.1 ≤ length pkgs) (progress_of (st_out s)).
Proof.
  intros M lv m pkgs stop s Hr Hm.
  destruct (C41_returns_after_worker lv (length pkgs) m _ s (worker_counts pkgs stop) Hr Hm) as (_ & H1 & H2 & _).
  destruct (C41_progress lv (length pkgs) m _ s (worker_counts pkgs stop) Hr) as (H3 & _).
  split; [done|]. split; [done|]. eapply Forall_impl; [exact H3|]. intros x [? _]. done.
Qed.
Print Assumptions C41_index_worker.
