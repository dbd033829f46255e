(** C69, files with line directives (//line file:line:col, as generators write them): ranges select the text in the
    file that the directive names. *)
From Coq Require Import Ascii String.
From stdpp Require Import prelude strings.
From Verif Require Import GoStr Scip GoTypes Packages Ast SpecSymbol SpecOcc Source SpecSource P_Source PropSource.
Open Scope string_scope.
Open Scope list_scope.
Local Open Scope Z_scope.

(** [alt] is the directive in force between the offsets from and to: it is the last one written before from, and the
    next one, if any, is written after to *)
Definition in_force (s : src) (alt : directive) (from to : Z) : Prop :=
  ∃ l1 l2, s_directives s = l1 ++ alt :: l2 ∧ (∀ d, d ∈ l1 ++ [alt] → dir_off d ≤ from) ∧ (∀ d, d ∈ l2 → to < dir_off d).

Lemma active_app l1 l2 off acc : (∀ d, d ∈ l1 → dir_off d ≤ off) →
  active (l1 ++ l2) off acc = active l2 off (match last l1 with Some d => Some d | None => acc end).
Proof.
  revert acc. induction l1 as [|d l1 IH]; intros acc H; [done|]. cbn [active app].
  assert (Z.leb (dir_off d) off = true) as -> by (apply Z.leb_le, H; left).
  rewrite IH by (intros d' Hd'; apply H; by right). f_equal. destruct l1 as [|d' l1]; [done|].
  change (last (d :: d' :: l1)) with (last (d' :: l1)). destruct (last (d' :: l1)) eqn:E; [done|].
  apply last_None in E. done.
Qed.
Lemma in_force_active s alt from to off : in_force s alt from to → from ≤ off ≤ to →
  active (s_directives s) off None = Some alt.
Proof.
  intros (l1 & l2 & E & H1 & H2) Ho. rewrite E. replace (l1 ++ alt :: l2) with ((l1 ++ [alt]) ++ l2) by (by rewrite <-List.app_assoc).
  rewrite active_app by (intros d Hd; specialize (H1 d Hd); lia). rewrite last_snoc.
  destruct l2 as [|d l2]; [done|]. cbn [active]. destruct (Z.leb_spec (dir_off d) off); [|done].
  assert (to < dir_off d) by (apply H2; left). lia.
Qed.

Section File.
  Context (srcs : list src) (Hd : disjoint_files srcs) (s : src) (Hs : s ∈ srcs).

  Lemma located a b : s_text s = a +:+ b → (b ≠ "" ∨ ∃ a' c, a = a' +:+ String c "" ∧ c ≠ newline) ∨ a = "" →
    locate (line_table (s_text s)) 0 0 (Z.of_nat (slen a)) =
    (Z.of_nat (count_char newline a) + 1, Z.of_nat (slen a) - Z.of_nat (slen (last_line a))).
  Proof.
    intros Ht Hb. unfold line_table. rewrite Ht. cbn [locate].
    assert (Z.leb 0 (Z.of_nat (slen a)) = true) as -> by (apply Z.leb_le; lia).
    pose proof (locate_text a b 0 1 0 (Z.of_nat (slen (a +:+ b)))) as H. rewrite !Z.add_0_l in H.
    change (0 + 1) with 1. rewrite H by done. f_equal; [lia|].
    destruct (Nat.eqb_spec (count_char newline a) 0) as [E0|E0]; [|lia].
    rewrite last_line_none by done. lia.
  Qed.
  Lemma last_line_app a m : (0 < count_char newline m)%nat → last_line (a +:+ m) = last_line m.
  Proof.
    intros H. induction a as [|c a IH]; [done|]. change (String c a +:+ m) with (String c (a +:+ m)). cbn [last_line].
    destruct (Nat.eqb_spec (count_char newline (String c (a +:+ m))) 0) as [E|E]; [|done].
    cbn [count_char] in E. rewrite count_app in E. lia.
  Qed.
  (** the position of what follows the text m after the directive *)
  Lemma position_alt alt a m b : s_text s = a +:+ m +:+ b → dir_off alt = Z.of_nat (slen a) →
    active (s_directives s) (Z.of_nat (slen (a +:+ m))) None = Some alt →
    b ≠ "" ∨ (∃ m' c, m = m' +:+ String c "" ∧ c ≠ newline) →
    fs_position (file_set srcs) (s_base s + Z.of_nat (slen (a +:+ m))) =
    Position (dir_file alt) (dir_line alt + Z.of_nat (count_char newline m))
      (if Z.eqb (dir_col alt) 0 then 0 else if Nat.eqb (count_char newline m) 0 then dir_col alt + Z.of_nat (slen m)
       else Z.of_nat (slen (last_line m)) + 1).
  Proof.
    intros Ht Hoff Hact Hb. destruct Hd as [Hpos Hdis]. specialize (Hpos s Hs).
    assert (Hc : covers s (s_base s + Z.of_nat (slen (a +:+ m))) = true).
    { unfold covers. apply andb_true_iff. rewrite Ht, !slen_app. split; apply Z.leb_le; lia. }
    cbn [file_set fs_position]. destruct (Z.eqb_spec (s_base s + Z.of_nat (slen (a +:+ m))) 0); [lia|].
    destruct (List.find _ srcs) as [s'|] eqn:E.
    2: { pose proof (find_none _ _ E s (proj1 (elem_of_list_In _ _) Hs)) as Hn. cbn beta in Hn. congruence. }
    apply find_some in E as [Hin E]. apply elem_of_list_In in Hin.
    rewrite (Hdis s' s _ Hin Hs E Hc). unfold unpack.
    replace (s_base s + Z.of_nat (slen (a +:+ m)) - s_base s) with (Z.of_nat (slen (a +:+ m))) by lia.
    rewrite Hact, Hoff.
    rewrite (located (a +:+ m) b); [|by rewrite <-app_assoc|].
    2: { destruct Hb as [Hb|(m' & c & -> & Hc')]; [by left; left|]. left. right. exists (a +:+ m'), c. by rewrite <-app_assoc. }
    rewrite (located a (m +:+ b)); [|done|].
    2: { left. left. destruct Hb as [Hb|(m' & c & -> & _)]; [by destruct m|by destruct m']. }
    cbn [fst]. rewrite count_app, !slen_app.
    destruct (Nat.eqb_spec (count_char newline m) 0) as [E0|E0].
    - rewrite E0. f_equal; [lia|]. destruct (Z.eqb (dir_col alt) 0); [done|].
      assert (Z.eqb (Z.of_nat (count_char newline a + 0) + 1 - (Z.of_nat (count_char newline a) + 1)) 0 = true) as -> by (apply Z.eqb_eq; lia).
      lia.
    - f_equal; [lia|]. destruct (Z.eqb (dir_col alt) 0); [done|].
      assert (Z.eqb (Z.of_nat (count_char newline a + count_char newline m) + 1 - (Z.of_nat (count_char newline a) + 1)) 0 = false) as -> by (apply Z.eqb_neq; lia).
      rewrite last_line_app by lia. lia.
  Qed.
End File.

Lemma reaches_more g m l c : reaches slen g l c →
  reaches slen (g +:+ m) (l + Z.of_nat (count_char newline m))
    (if Nat.eqb (count_char newline m) 0 then c + Z.of_nat (slen m) else Z.of_nat (slen (last_line m))).
Proof.
  intros [-> ->]%reaches_fun. pose proof (reaches_last slen (g +:+ m)) as H. rewrite count_app, Nat2Z.inj_add in H.
  destruct (Nat.eqb_spec (count_char newline m) 0) as [E|E].
  - rewrite last_line_snoc, slen_app, Nat2Z.inj_add in H by done. exact H.
  - rewrite last_line_app in H by lia. exact H.
Qed.

Lemma reaches_at u a l c l' c' : reaches u a l c → l = l' → c = c' → reaches u a l' c'.
Proof. by intros H -> ->. Qed.

(** C69: when the text that follows a line directive (with a column) is copied from the place that the directive names in
    some other text, the range of an identifier in it selects that identifier in the other text. *)
Theorem C69_line_directive : ∀ srcs s i alt a m b origin g h,
  disjoint_files srcs → s ∈ srcs →
  s_text s = a +:+ m +:+ id_name i +:+ b → one_line (id_name i) → id_pos i = s_base s + Z.of_nat (slen (a +:+ m)) →
  dir_off alt = Z.of_nat (slen a) →
  in_force s alt (Z.of_nat (slen a)) (Z.of_nat (slen (a +:+ m +:+ id_name i))) →
  origin = g +:+ m +:+ id_name i +:+ h → reaches slen g (dir_line alt - 1) (dir_col alt - 1) →
  selects slen origin (ident_span (file_set srcs) i) (Z.of_nat (slen (g +:+ m))) (id_name i).
Proof.
  intros srcs s i alt a m b origin g h Hd Hs Ht Hone Hp Hoff Hf -> Hg.
  assert (Hcol : 0 < dir_col alt) by (apply reaches_fun in Hg as [_ Hg]; lia).
  assert (Hcol' : Z.eqb (dir_col alt) 0 = false) by (apply Z.eqb_neq; lia).
  pose proof (one_line_snoc _ Hone) as (t' & c & Et & Hc).
  assert (P1 : fs_position (file_set srcs) (id_pos i) = Position (dir_file alt) (dir_line alt + Z.of_nat (count_char newline m))
      (if Nat.eqb (count_char newline m) 0 then dir_col alt + Z.of_nat (slen m) else Z.of_nat (slen (last_line m)) + 1)).
  { rewrite Hp. rewrite (position_alt srcs Hd s Hs alt a m (id_name i +:+ b)); [by rewrite Hcol'|done|done| |].
    - eapply in_force_active; [exact Hf|]. rewrite !slen_app. lia.
    - left. destruct Hone as [Hne _]. by destruct (id_name i). }
  assert (P2 : fs_position (file_set srcs) (id_pos i + Z.of_nat (slen (id_name i))) =
    Position (dir_file alt) (dir_line alt + Z.of_nat (count_char newline (m +:+ id_name i)))
      (if Nat.eqb (count_char newline (m +:+ id_name i)) 0 then dir_col alt + Z.of_nat (slen (m +:+ id_name i)) else Z.of_nat (slen (last_line (m +:+ id_name i))) + 1)).
  { rewrite Hp. replace (s_base s + Z.of_nat (slen (a +:+ m)) + Z.of_nat (slen (id_name i))) with (s_base s + Z.of_nat (slen (a +:+ (m +:+ id_name i))))
      by (rewrite !slen_app; lia).
    rewrite (position_alt srcs Hd s Hs alt a (m +:+ id_name i) b); [by rewrite Hcol'| |done| |].
    - by rewrite Ht, <-(app_assoc m).
    - eapply in_force_active; [exact Hf|]. rewrite !slen_app. lia.
    - right. exists (m +:+ t'), c. split; [by rewrite Et at 1; rewrite app_assoc|done]. }
  exists (g +:+ m), h. eexists _, _, _, _. split; [by rewrite <-app_assoc|]. split; [done|].
  unfold ident_span. rewrite decode_span, P1, P2. split; [reflexivity|]. cbn [pos_line pos_col]. split.
  - eapply reaches_at; [exact (reaches_more g m _ _ Hg)|lia|]. destruct (Nat.eqb _ _); lia.
  - pose proof (reaches_more g (m +:+ id_name i) _ _ Hg) as H. rewrite app_assoc in H.
    eapply reaches_at; [exact H|lia|]. clear. destruct (Nat.eqb (count_char newline (m +:+ id_name i)) 0); lia.
Qed.
Print Assumptions C69_line_directive.

(** C69: when the directive has no column (goyacc, cgo), the columns are lost ([C69_line_directive_refuted]) but the line
    is that of the copied text. *)
Theorem C69_directive_line : ∀ srcs s i alt a m b g,
  disjoint_files srcs → s ∈ srcs →
  s_text s = a +:+ m +:+ id_name i +:+ b → one_line (id_name i) → id_pos i = s_base s + Z.of_nat (slen (a +:+ m)) →
  dir_off alt = Z.of_nat (slen a) →
  in_force s alt (Z.of_nat (slen a)) (Z.of_nat (slen (a +:+ m +:+ id_name i))) →
  Z.of_nat (count_char newline g) = dir_line alt - 1 →
  ∃ c1 c2, decode_range (ident_span (file_set srcs) i) =
    Some ((Z.of_nat (count_char newline (g +:+ m)), c1), (Z.of_nat (count_char newline (g +:+ m)), c2)).
Proof.
  intros srcs s i alt a m b g Hd Hs Ht Hone Hp Hoff Hf Hg.
  pose proof (one_line_snoc _ Hone) as (t' & c & Et & Hc).
  eexists _, _. unfold ident_span. rewrite decode_span, Hp.
  replace (s_base s + Z.of_nat (slen (a +:+ m)) + Z.of_nat (slen (id_name i))) with (s_base s + Z.of_nat (slen (a +:+ (m +:+ id_name i))))
    by (rewrite !slen_app; lia).
  rewrite (position_alt srcs Hd s Hs alt a m (id_name i +:+ b)); [|done|done| |].
  2: { eapply in_force_active; [exact Hf|]. rewrite !slen_app. lia. }
  2: { left. destruct Hone as [Hne _]. by destruct (id_name i). }
  rewrite (position_alt srcs Hd s Hs alt a (m +:+ id_name i) b); [| |done| |].
  2: { by rewrite Ht, <-(app_assoc m). }
  2: { eapply in_force_active; [exact Hf|]. rewrite !slen_app. lia. }
  2: { right. exists (m +:+ t'), c. split; [by rewrite Et at 1; rewrite app_assoc|done]. }
  cbn [pos_line pos_col]. rewrite !count_app. destruct Hone as [_ ->].
  f_equal. f_equal; f_equal; lia.
Qed.
Print Assumptions C69_directive_line.
