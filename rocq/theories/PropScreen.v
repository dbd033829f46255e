(** What a call of WithProgressParallel puts on the screen, for C41. *)
From Coq Require Import Ascii String.
From stdpp Require Import prelude strings sorting pretty.
From Verif Require Import GoStr Proto P_Proto Output PropOutput.
Open Scope string_scope.
Open Scope list_scope.

(** the bytes a list of prints writes; numbers are in decimal (fmt's %d) *)
Definition screen (name elapsed : string) (o : list print) : string :=
  String.concat "" (map (print_text name elapsed pretty) o).

(** *** The specification *)
(** one line of progress, as the user sees it: the name of the task, how many are done, and of how many; it starts with
    a carriage return, so that it overwrites the line before *)
Definition progress_line (name : string) (done total : nat) : string :=
  String "013" name +:+ " [" +:+ pretty done +:+ "/" +:+ pretty total +:+ "]".
(** all of it: lines whose first number never decreases and never exceeds the total, then the line that says that all
    are done, then, if asked for, the time, and the end of the line *)
Definition right_screen (lv : level) (name elapsed : string) (total : nat) (t : string) : Prop :=
  ∃ ds : list nat, ds ≠ [] ∧ Forall (λ d, d ≤ total) ds ∧ StronglySorted le ds ∧
    t = String.concat "" (map (λ d, progress_line name d total) ds) +:+ progress_line name total total +:+
        (match lv with Verbose => " Finished in " +:+ elapsed +:+ "." | _ => "" end) +:+ String "010" "".

(** *** The shape of the output *)
Section Shape.
  Context {M : Type} (lv : level) (n : nat) (m0 : M) (acts : list (action M)).
  Definition lines (ds : list nat) : list print := map (λ d, PProgress d n) ds.
  Definition shape (s : state M) : Prop :=
    match st_main s with
    | MStart | MWait | MSpawn => st_out s = []
    | MLoad | MPrint _ => ∃ ds, st_out s = lines ds
    | MSelect | MFinal 0 => ∃ ds, ds ≠ [] ∧ st_out s = lines ds
    | MFinal 1 => ∃ ds, ds ≠ [] ∧ st_out s = lines ds ++ [PProgress n n]
    | MFinal 2 => ∃ ds, ds ≠ [] ∧ st_out s = lines ds ++ [PProgress n n] ++ (match lv with Verbose => [PElapsed] | _ => [] end)
    | MFinal _ => False
    | MReturned => lv = Quiet ∨
        ∃ ds, ds ≠ [] ∧ st_out s = lines ds ++ [PProgress n n] ++ (match lv with Verbose => [PElapsed] | _ => [] end) ++ [PNewline]
    end.
  Lemma lines_snoc ds d : lines (ds ++ [d]) = lines ds ++ [PProgress d n].
  Proof. unfold lines. by rewrite List.map_app. Qed.
  Definition quiet_wait (s : state M) : Prop := st_main s = MWait → lv = Quiet.
  Lemma shape_step s s' : shape s ∧ quiet_wait s → step lv n s s' → shape s' ∧ quiet_wait s'.
  Proof.
    intros [H Hq] Hs. destruct Hs; (split; [|try (intros E; by (discriminate E || exact (Hq E) || done))]);
      unfold shape, quiet_wait in *; cbn in *; try exact H.
    - by left; apply Hq.
    - exists []. exact H.
    - destruct H as [ds ->]. exists (ds ++ [p]). split; [by destruct ds|]. by rewrite lines_snoc.
    - destruct H as (ds & _ & ->). by exists ds.
    - destruct H as (ds & Hd & ->). by exists ds.
    - destruct H as (ds & Hd & ->). exists ds. split; [done|]. destruct lv; [done|done|]. by rewrite <- List.app_assoc.
    - right. destruct H as (ds & Hd & ->). exists ds. split; [done|]. by rewrite <- !List.app_assoc.
  Qed.
  Lemma shape_reachable s : reachable lv n m0 acts s → shape s.
  Proof.
    intros Hr. assert (shape s ∧ quiet_wait s) as [H _]; [|exact H]. revert s Hr. apply rtc_ind_r.
    - split; [reflexivity|]. intros E. discriminate E.
    - intros y z _ Hs IH. by eapply shape_step.
  Qed.
End Shape.

Lemma screen_cons name elapsed p o : screen name elapsed (p :: o) = print_text name elapsed pretty p +:+ screen name elapsed o.
Proof. unfold screen. cbn [map]. apply concat_cons. Qed.
Lemma screen_app name elapsed o o' : screen name elapsed (o ++ o') = screen name elapsed o +:+ screen name elapsed o'.
Proof. induction o as [|p o IH]; [done|]. cbn [app]. rewrite !screen_cons, IH. apply app_assoc. Qed.
Lemma line_text name elapsed d n : print_text name elapsed pretty (PProgress d n) = progress_line name d n.
Proof. unfold progress_line. cbn [print_text]. reflexivity. Qed.
Lemma screen_lines name elapsed n ds :
  screen name elapsed (lines n ds) = String.concat "" (map (λ d, progress_line name d n) ds).
Proof.
  induction ds as [|d ds IH]; [done|]. unfold lines in *. cbn [map]. rewrite screen_cons, IH, concat_cons. by rewrite line_text.
Qed.
Lemma progress_lines n ds : progress_of (lines n ds) = map (λ d, (d, n)) ds.
Proof.
  induction ds as [|d ds IH]; [done|]. change (progress_of (lines n (d :: ds))) with ((d, n) :: progress_of (lines n ds)).
  by rewrite IH.
Qed.
Lemma progress_app o o' : progress_of (o ++ o') = progress_of o ++ progress_of o'.
Proof. unfold progress_of. apply omap_app. Qed.

(** C41: whatever the schedule, when the call has returned the screen shows exactly such lines; a quiet call shows
    nothing. *)
Theorem C41_screen : ∀ {M} lv n (m : M) acts s name elapsed, counts acts ≤ n → reachable lv n m acts s →
  st_main s = MReturned →
  (lv = Quiet → screen name elapsed (st_out s) = "") ∧
  (lv ≠ Quiet → right_screen lv name elapsed n (screen name elapsed (st_out s))).
Proof.
  intros M lv n m acts s name elapsed Hn Hr Hm. destruct (C41_progress lv n m acts s Hn Hr) as (Hle & Hs & Hq & _).
  split; [intros E; by rewrite (Hq E)|intros E].
  pose proof (shape_reachable lv n m acts s Hr) as Hsh. unfold shape in Hsh. rewrite Hm in Hsh.
  destruct Hsh as [?|(ds & Hd & Ho)]; [done|]. rewrite Ho in Hle, Hs |- *.
  rewrite progress_app, progress_lines in Hle, Hs. apply Forall_app in Hle as [Hle _]. apply StronglySorted_app_inv_l in Hs.
  exists ds. split; [done|]. split; [|split].
  - rewrite Forall_map in Hle. eapply Forall_impl; [exact Hle|]. by intros d [? _].
  - clear -Hs. induction ds as [|d ds IH]; [constructor|]. cbn [map] in Hs. apply StronglySorted_inv in Hs as [H1 H2].
    constructor; [by apply IH|]. rewrite Forall_map in H2. exact H2.
  - rewrite !screen_app, screen_lines. f_equal. unfold screen at 1. cbn [map String.concat]. rewrite line_text. f_equal.
    destruct lv; [done| |]; reflexivity.
Qed.
Print Assumptions C41_screen.

(** two packages, the first with one file; shown at the start, after a tick, and at the end *)
Section Example.
  Let acts : list (action nat) := [Work S; Count; Work S; Count].
  Example C41_screen_example : ∃ s : state nat, reachable Verbose 2 0 acts s ∧ st_main s = MReturned ∧ counts acts ≤ 2 ∧
    screen "Visiting Packages" "1s" (st_out s) =
    String "013" "Visiting Packages [0/2]" +:+ String "013" "Visiting Packages [1/2]" +:+ String "013" "Visiting Packages [2/2]" +:+
    " Finished in 1s." +:+ String "010" "".
  Proof.
    eexists. split; [|split; [|split]].
    - eapply rtc_l; [by apply step_loud|]. eapply rtc_l; [apply step_spawn|]. eapply rtc_l; [apply step_load|].
      eapply rtc_l; [apply step_print|]. eapply rtc_l; [apply step_work|]. eapply rtc_l; [apply step_work|].
      eapply rtc_l; [by apply step_tick|]. eapply rtc_l; [apply step_select_tick|]. eapply rtc_l; [apply step_load|].
      eapply rtc_l; [apply step_work|]. eapply rtc_l; [apply step_work|]. eapply rtc_l; [apply step_worker_end|].
      eapply rtc_l; [apply step_print|]. eapply rtc_l; [apply step_wait_wg|]. eapply rtc_l; [apply step_close|].
      eapply rtc_l; [apply step_select_done|]. eapply rtc_l; [apply step_final0|]. eapply rtc_l; [apply step_final1|].
      eapply rtc_l; [apply step_final2|]. apply rtc_refl.
    - reflexivity.
    - vm_compute. lia.
    - vm_compute. reflexivity.
  Qed.
End Example.
