(** The order used to sort strings (Go's < on strings) is a total order. *)
From Coq Require Import Ascii String.
From stdpp Require Import prelude strings sorting.
From Verif Require Import GoStr Scip.
Open Scope string_scope.
Open Scope list_scope.

Lemma ch_code_inj x y : ch_code x = ch_code y → x = y.
Proof.
  unfold ch_code. intros H. rewrite <-(ascii_N_embedding x), <-(ascii_N_embedding y). by rewrite H.
Qed.
Lemma str_leb_refl a : str_leb a a = true.
Proof. induction a as [|c a IH]; [done|]. cbn. by rewrite N.eqb_refl. Qed.
Lemma str_leb_antisym a b : str_leb a b = true → str_leb b a = true → a = b.
Proof.
  revert b. induction a as [|x a IH]; intros [|y b]; cbn; try done.
  rewrite (N.eqb_sym (ch_code y)). destruct (N.eqb (ch_code x) (ch_code y)) eqn:E.
  - apply N.eqb_eq, ch_code_inj in E as ->. intros H1 H2. f_equal. by apply IH.
  - intros H1 H2. apply N.ltb_lt in H1, H2. lia.
Qed.
Lemma str_leb_trans a b c : str_leb a b = true → str_leb b c = true → str_leb a c = true.
Proof.
  revert b c. induction a as [|x a IH]; intros [|y b] [|z c]; cbn; try done.
  destruct (N.eqb_spec (ch_code x) (ch_code y)) as [E|E], (N.eqb_spec (ch_code y) (ch_code z)) as [E'|E'];
    intros H1 H2; try apply N.ltb_lt in H1; try apply N.ltb_lt in H2.
  - rewrite E, E', N.eqb_refl. by eapply IH.
  - rewrite E. rewrite (proj2 (N.eqb_neq _ _) E'). by apply N.ltb_lt.
  - rewrite <-E'. rewrite (proj2 (N.eqb_neq _ _) E). by apply N.ltb_lt.
  - destruct (N.eqb_spec (ch_code x) (ch_code z)); [lia|]. apply N.ltb_lt. lia.
Qed.
Lemma str_leb_total a b : str_leb a b = true ∨ str_leb b a = true.
Proof.
  revert b. induction a as [|x a IH]; intros [|y b]; cbn; auto.
  rewrite (N.eqb_sym (ch_code y)). destruct (N.eqb_spec (ch_code x) (ch_code y)) as [E|E]; [apply IH|].
  destruct (N.lt_total (ch_code x) (ch_code y)) as [H|[H|H]]; [left|done|right]; by apply N.ltb_lt.
Qed.
Global Instance str_le_antisymm : AntiSymm eq str_le.
Proof. intros a b. apply str_leb_antisym. Qed.
Global Instance str_le_trans : Transitive str_le.
Proof. intros a b c. apply str_leb_trans. Qed.
Global Instance str_le_refl : Reflexive str_le.
Proof. intros a. apply str_leb_refl. Qed.
Global Instance str_le_total : Total str_le.
Proof. intros a b. apply str_leb_total. Qed.
Global Instance rel_le_trans : Transitive rel_le.
Proof. intros a b c. apply str_leb_trans. Qed.
Global Instance rel_le_total : Total rel_le.
Proof. intros a b. apply str_leb_total. Qed.
