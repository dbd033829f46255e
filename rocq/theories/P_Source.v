(** Positions of texts, for C69. *)
From Coq Require Import Ascii String.
From stdpp Require Import prelude strings.
From Verif Require Import GoStr Scip GoTypes Packages Ast SpecSymbol SpecOcc P_Pass2 P_Occ Source SpecSource.
Open Scope string_scope.
Open Scope list_scope.
Local Open Scope Z_scope.

Lemma starts_ge k s x : x ∈ starts k s → k < x.
Proof.
  revert k. induction s as [|c s IH]; intros k; cbn; [by intros ?%elem_of_nil|].
  destruct (Ascii.eqb c newline).
  - intros [->|H]%elem_of_cons; [lia|]. apply IH in H. lia.
  - intros H. apply IH in H. lia.
Qed.
Lemma locate_stop l line start x : (∀ y, y ∈ l → x < y) → locate l line start x = (line, start).
Proof.
  destruct l as [|s l]; [done|]. intros H. cbn. destruct (Z.leb_spec s x); [|done].
  assert (x < s) by (apply H; left). lia.
Qed.
Lemma count_app c s t : count_char c (s +:+ t) = (count_char c s + count_char c t)%nat.
Proof. induction s as [|a s IH]; [done|]. change (String a s +:+ t) with (String a (s +:+ t)). cbn. rewrite IH. lia. Qed.

(** the last line of a text *)
Fixpoint last_line (s : string) : string :=
  match s with
  | "" => ""
  | String c r => if Nat.eqb (count_char newline s) 0 then s else last_line r
  end.
Lemma last_line_none s : count_char newline s = 0%nat → last_line s = s.
Proof. destruct s; [done|]. cbn. intros E. by rewrite E. Qed.
Lemma last_line_split s : ∃ u, s = u +:+ last_line s ∧ (u = "" ∨ ∃ v, u = v +:+ String newline "") ∧
  count_char newline (last_line s) = 0%nat.
Proof.
  induction s as [|c s IH].
  - exists "". split; [done|]. split; [by left|done].
  - cbn [last_line]. destruct (Nat.eqb_spec (count_char newline (String c s)) 0) as [E|E].
    { exists "". split; [done|]. split; [by left|done]. }
    destruct IH as (u & Hs & Hu & Hc). exists (String c u). split; [|split; [|done]].
    + rewrite Hs at 1. done.
    + right. destruct Hu as [->|(v & ->)]; [|by exists (String c v)].
      exists "". change ("" +:+ s) with s in Hs. change ("" +:+ last_line s) with (last_line s) in Hs.
      rewrite <-Hs in Hc. cbn in E. rewrite Hc in E.
      destruct (Ascii.eqb_spec c newline) as [->|]; [done|lia].
Qed.
Lemma last_line_snoc a t : count_char newline t = 0%nat → last_line (a +:+ t) = last_line a +:+ t.
Proof.
  intros Ht. induction a as [|c a IH]; [by apply last_line_none|].
  change (String c a +:+ t) with (String c (a +:+ t)). cbn [last_line].
  change (String c (a +:+ t)) with (String c a +:+ t) at 1. rewrite count_app, Ht, Nat.add_0_r.
  destruct (Nat.eqb _ _); [done|]. exact IH.
Qed.
Lemma last_line_le s : (slen (last_line s) ≤ slen s)%nat.
Proof. destruct (last_line_split s) as (u & E & _). rewrite E at 2. rewrite slen_app. lia. Qed.
Lemma reaches_last unit a : reaches unit a (Z.of_nat (count_char newline a)) (Z.of_nat (unit (last_line a))).
Proof. destruct (last_line_split a) as (u & E & Hu & Hc). by exists u, (last_line a). Qed.
Lemma reaches_fun unit a l c : reaches unit a l c → l = Z.of_nat (count_char newline a) ∧ c = Z.of_nat (unit (last_line a)).
Proof.
  intros (u & x & -> & Hu & Hx & -> & ->). split; [done|]. f_equal. f_equal.
  destruct Hu as [->|(v & ->)].
  - change ("" +:+ x) with x. by rewrite last_line_none.
  - rewrite <-(app_assoc v (String newline "") x). clear -Hx. induction v as [|d v IH].
    + change ("" +:+ String newline "" +:+ x) with (String newline x). cbn [last_line].
      assert (count_char newline (String newline x) ≠ 0)%nat as E by (cbn; lia).
      destruct (Nat.eqb_spec (count_char newline (String newline x)) 0); [done|]. by rewrite last_line_none.
    + change (String d v +:+ String newline "" +:+ x) with (String d (v +:+ String newline x)).
      change (v +:+ String newline "" +:+ x) with (v +:+ String newline x) in IH. cbn [last_line].
      assert (count_char newline (String d (v +:+ String newline x)) ≠ 0)%nat as E.
      { cbn [count_char]. rewrite count_app. cbn. lia. }
      destruct (Nat.eqb_spec (count_char newline (String d (v +:+ String newline x))) 0); done.
Qed.

(** the position of the text that follows the prefix a *)
Lemma locate_text a b k line start size : size = k + Z.of_nat (slen (a +:+ b)) →
  (b ≠ "" ∨ ∃ a' c, a = a' +:+ String c "" ∧ c ≠ newline) ∨ a = "" →
  locate (List.filter (λ o, Z.ltb o size) (starts k (a +:+ b))) line start (k + Z.of_nat (slen a)) =
  (line + Z.of_nat (count_char newline a),
   if Nat.eqb (count_char newline a) 0 then start else k + Z.of_nat (slen a) - Z.of_nat (slen (last_line a))).
Proof.
  revert k line start. induction a as [|c a IH]; intros k line start Hsize Hb.
  - cbn. rewrite locate_stop; [f_equal; lia|]. intros y Hy. apply elem_of_list_In, filter_In in Hy as [Hy _].
    apply elem_of_list_In in Hy. apply starts_ge in Hy. lia.
  - change (String c a +:+ b) with (String c (a +:+ b)) in *. cbn [starts].
    assert (Hs' : size = (k + 1) + Z.of_nat (slen (a +:+ b))).
    { rewrite Hsize, slen_cons. lia. }
    assert (Hk : k + Z.of_nat (slen (String c a)) = (k + 1) + Z.of_nat (slen a)) by (rewrite slen_cons; lia).
    assert (Hb' : (b ≠ "" ∨ ∃ a' c, a = a' +:+ String c "" ∧ c ≠ newline) ∨ a = "").
    { destruct Hb as [[Hb|(a' & c' & Ha & Hc')]|Hb]; [by left; left| |done].
      destruct a' as [|c0 a']; [right; by injection Ha|]. left. right. exists a', c'. split; [by injection Ha|done]. }
    rewrite Hk. cbn [count_char last_line].
    destruct (Ascii.eqb_spec c newline) as [->|Hc].
    + cbn [List.filter]. assert (Hlt : Z.ltb (k + 1) size = true).
      { apply Z.ltb_lt. destruct Hb as [[Hb|(a' & c' & Ha & Hc')]|Hb]; [| |done].
        - rewrite Hs', slen_app. destruct b; [done|]. rewrite slen_cons. lia.
        - destruct a as [|c1 a]; [|rewrite Hs'; change (String c1 a +:+ b) with (String c1 (a +:+ b)); rewrite slen_cons; lia].
          destruct a' as [|c0 a']; [by injection Ha as Ha; subst|]. exfalso. injection Ha as _ Ha. by destruct a'. }
      rewrite Hlt. cbn [locate]. assert (Z.leb (k + 1) (k + 1 + Z.of_nat (slen a)) = true) as -> by (apply Z.leb_le; lia).
      rewrite IH by done. f_equal; [lia|]. cbn [Nat.eqb Nat.add].
      destruct (Nat.eqb_spec (count_char newline a) 0) as [E|E]; [|done].
      rewrite last_line_none by done. lia.
    + rewrite IH by done. cbn [Nat.add]. f_equal.
      destruct (Nat.eqb_spec (count_char newline a) 0); [done|lia].
Qed.

Section File.
  Context (srcs : list src) (Hd : disjoint_files srcs) (s : src) (Hs : s ∈ srcs) (Hdir : s_directives s = []).

  Lemma position_in a b : s_text s = a +:+ b → (b ≠ "" ∨ ∃ a' c, a = a' +:+ String c "" ∧ c ≠ newline) ∨ a = "" →
    fs_position (file_set srcs) (s_base s + Z.of_nat (slen a)) =
    Position (s_name s) (Z.of_nat (count_char newline a) + 1) (Z.of_nat (slen (last_line a)) + 1).
  Proof.
    intros Ht Hb. destruct Hd as [Hpos Hdis]. specialize (Hpos s Hs).
    assert (Hc : covers s (s_base s + Z.of_nat (slen a)) = true).
    { unfold covers. apply andb_true_iff. rewrite Ht, slen_app. split; apply Z.leb_le; lia. }
    cbn [file_set fs_position]. destruct (Z.eqb_spec (s_base s + Z.of_nat (slen a)) 0); [lia|].
    destruct (List.find _ srcs) as [s'|] eqn:E.
    2: { pose proof (find_none _ _ E s (proj1 (elem_of_list_In _ _) Hs)) as Hn. cbn beta in Hn. congruence. }
    apply find_some in E as [Hin E]. apply elem_of_list_In in Hin.
    rewrite (Hdis s' s _ Hin Hs E Hc). unfold unpack. rewrite Hdir. cbn [active].
    replace (s_base s + Z.of_nat (slen a) - s_base s) with (Z.of_nat (slen a)) by lia.
    unfold line_table. rewrite Ht. cbn [locate]. assert (Z.leb 0 (Z.of_nat (slen a)) = true) as -> by (apply Z.leb_le; lia).
    pose proof (locate_text a b 0 1 0 (Z.of_nat (slen (a +:+ b)))) as H. rewrite !Z.add_0_l in H.
    change (0 + 1) with 1. rewrite H by done. f_equal; [lia|].
    destruct (Nat.eqb_spec (count_char newline a) 0) as [E0|E0]; [|lia].
    rewrite last_line_none by done. lia.
  Qed.
End File.

(** spans decode to what they were made of *)
Lemma decode_span x y : decode_range (span x y) =
  Some ((pos_line x - 1, pos_col x - 1), (pos_line y - 1, pos_col y - 1))%Z.
Proof. unfold span. destruct (Z.eqb_spec (pos_line x) (pos_line y)) as [E|E]; cbn; [by rewrite E|done]. Qed.

Lemma enclosing_cases fs par i : enclosing fs par i = [] ∨
  ∃ d p e r nm t b, par = Some (NFuncDecl d p e r nm t b) ∧ enclosing fs par i = span (fs_position fs p) (fs_position fs e).
Proof.
  destruct par as [m|]; [|by left]. destruct m; try by left. cbn. destruct (Nat.eqb _ _); [right|by left]. by eexists _, _, _, _, _, _, _.
Qed.
