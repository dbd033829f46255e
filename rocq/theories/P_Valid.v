(** Valid UTF-8: closure properties used for the texts of an index. *)
From Coq Require Import Ascii String.
From stdpp Require Import prelude strings pretty.
From Verif Require Import GoStr Scip Paths Proto.
Open Scope string_scope.
Open Scope list_scope.
Local Open Scope Z_scope.

Notation utf8 s := (valid_utf8 s = true).
Definition low (c : ascii) : Prop := byte_val c < 128.
Definition cont (c : ascii) : Prop := 128 <= byte_val c < 192.
(** the encoding of one character *)
Inductive chunk : string → Prop :=
| chunk1 c : low c → chunk (String c "")
| chunk2 c d : 194 <= byte_val c < 224 → cont d → chunk (String c (String d ""))
| chunk3 c d e : 224 <= byte_val c < 240 → cont d → cont e →
    (byte_val c = 224 → 160 <= byte_val d) → (byte_val c = 237 → byte_val d < 160) → chunk (String c (String d (String e "")))
| chunk4 c d e f : 240 <= byte_val c < 245 → cont d → cont e → cont f →
    (byte_val c = 240 → 144 <= byte_val d) → (byte_val c = 244 → byte_val d < 144) → chunk (String c (String d (String e (String f "")))).
Inductive chunks : string → Prop :=
| chunks_nil : chunks ""
| chunks_cons a s : chunk a → chunks s → chunks (a +:+ s).

Lemma tail_cont n : ∀ s r, utf8_tail n s = Some r → ∃ a, s = a +:+ r ∧ slen a = n ∧ str_forallb (λ c, (128 <=? byte_val c) && (byte_val c <? 192))%bool a = true.
Proof.
  induction n as [|n IH]; intros s r; cbn [utf8_tail]; [intros [= ->]; by exists ""|].
  destruct s as [|c s]; [done|]. destruct (_ && _)%bool eqn:E; [|done]. intros (a & -> & <- & Ha)%IH. exists (String c a). split; [done|].
  split; [done|]. cbn [str_forallb]. by rewrite E, Ha.
Qed.
Lemma byte_range c : 0 <= byte_val c < 256.
Proof. unfold byte_val. pose proof (N_ascii_bounded c). lia. Qed.

Lemma second_spec c d s : second_ok c (String d s) = true ↔
  (byte_val c = 224 → 160 <= byte_val d) ∧ (byte_val c = 237 → byte_val d < 160) ∧
  (byte_val c = 240 → 144 <= byte_val d) ∧ (byte_val c = 244 → byte_val d < 144).
Proof.
  cbn [second_ok]. destruct (Z.eqb_spec (byte_val c) 224), (Z.eqb_spec (byte_val c) 237), (Z.eqb_spec (byte_val c) 240), (Z.eqb_spec (byte_val c) 244);
    cbn [implb]; rewrite ?andb_true_iff, ?Z.leb_le, ?Z.ltb_lt; lia.
Qed.
Lemma valid_chunks n : ∀ s, valid_utf8_fuel n s = true → chunks s.
Proof.
  induction n as [|n IH]; intros [|c s]; cbn [valid_utf8_fuel]; try done; try (intros; apply chunks_nil).
  destruct (Z.ltb_spec (byte_val c) 128) as [Hc|Hc].
  { intros H%IH. apply (chunks_cons (String c "")); [by apply chunk1|done]. }
  assert (Hc2 : ∀ (l : string) (k : nat), utf8_tail k s = Some l → slen s = (k + slen l)%nat).
  { intros l k (a & -> & <- & _)%tail_cont. by rewrite slen_app. }
  destruct ((194 <=? byte_val c) && (byte_val c <? 224))%bool eqn:E1.
  { intros [H1 H2]%andb_prop. destruct (utf8_tail 1 s) as [r|] eqn:Et; [|done]. apply tail_cont in Et as (a & -> & Ha & Hk).
    destruct a as [|d [|]]; try done. cbn [str_forallb] in Hk. apply (chunks_cons (String c (String d ""))); [|by apply IH].
    apply chunk2; [lia|unfold cont; lia]. }
  destruct ((224 <=? byte_val c) && (byte_val c <? 240))%bool eqn:E2.
  { intros [H1 H2]%andb_prop. destruct (utf8_tail 2 s) as [r|] eqn:Et; [|done]. apply tail_cont in Et as (a & -> & Ha & Hk).
    destruct a as [|d [|e [|]]]; try done. cbn [str_forallb] in Hk. apply (chunks_cons (String c (String d (String e "")))); [|by apply IH].
    apply second_spec in H1. apply chunk3; unfold cont; lia. }
  destruct ((240 <=? byte_val c) && (byte_val c <? 245))%bool eqn:E3; [|done].
  intros [H1 H2]%andb_prop. destruct (utf8_tail 3 s) as [r|] eqn:Et; [|done]. apply tail_cont in Et as (a & -> & Ha & Hk).
  destruct a as [|d [|e [|f [|]]]]; try done. cbn [str_forallb] in Hk. apply (chunks_cons (String c (String d (String e (String f ""))))); [|by apply IH].
  apply second_spec in H1. apply chunk4; unfold cont; lia.
Qed.
Lemma app_cons c s t : String c s +:+ t = String c (s +:+ t).
Proof. done. Qed.
Lemma app_empty t : "" +:+ t = t.
Proof. done. Qed.
Lemma chunks_fuel s : chunks s → ∀ n, (slen s <= n)%nat → valid_utf8_fuel n s = true.
Proof.
  induction 1 as [|a s Ha Hs IH]; intros n Hn; [by destruct n|].
  assert (Hl : slen (a +:+ s) = (slen a + slen s)%nat) by by apply slen_app.
  rewrite Hl in Hn. clear Hl.
  destruct Ha as [c H|c d H Hd|c d e H Hd He H1 H2|c d e f H Hd He Hf H1 H2]; cbn [slen String.length] in Hn; (destruct n as [|n]; [lia|]);
    rewrite ?app_cons, app_empty; cbn [valid_utf8_fuel]; unfold low, cont in *.
  - destruct (Z.ltb_spec (byte_val c) 128); [|lia]. apply IH. unfold slen in *. cbn in Hn. lia.
  - destruct (Z.ltb_spec (byte_val c) 128); [lia|]. replace ((194 <=? byte_val c) && (byte_val c <? 224))%bool with true by lia.
    cbn [utf8_tail]. replace ((128 <=? byte_val d) && (byte_val d <? 192))%bool with true by lia.
    rewrite IH by (unfold slen in *; cbn in Hn; lia). rewrite (proj2 (second_spec _ _ _)); [done|lia].
  - destruct (Z.ltb_spec (byte_val c) 128); [lia|]. replace ((194 <=? byte_val c) && (byte_val c <? 224))%bool with false by lia.
    replace ((224 <=? byte_val c) && (byte_val c <? 240))%bool with true by lia.
    cbn [utf8_tail]. replace ((128 <=? byte_val d) && (byte_val d <? 192))%bool with true by lia.
    replace ((128 <=? byte_val e) && (byte_val e <? 192))%bool with true by lia.
    rewrite IH by (unfold slen in *; cbn in Hn; lia). rewrite (proj2 (second_spec _ _ _)); [done|lia].
  - destruct (Z.ltb_spec (byte_val c) 128); [lia|]. replace ((194 <=? byte_val c) && (byte_val c <? 224))%bool with false by lia.
    replace ((224 <=? byte_val c) && (byte_val c <? 240))%bool with false by lia.
    replace ((240 <=? byte_val c) && (byte_val c <? 245))%bool with true by lia.
    cbn [utf8_tail]. replace ((128 <=? byte_val d) && (byte_val d <? 192))%bool with true by lia.
    replace ((128 <=? byte_val e) && (byte_val e <? 192))%bool with true by lia.
    replace ((128 <=? byte_val f) && (byte_val f <? 192))%bool with true by lia.
    rewrite IH by (unfold slen in *; cbn in Hn; lia). rewrite (proj2 (second_spec _ _ _)); [done|lia].
Qed.
Lemma utf8_chunks s : utf8 s ↔ chunks s.
Proof. split; [apply valid_chunks|]. intros H. by apply chunks_fuel. Qed.

Lemma chunks_app a b : chunks a → chunks b → chunks (a +:+ b).
Proof. induction 1 as [|x s Hx Hs IH]; intros Hb; [done|]. rewrite <- app_assoc. apply chunks_cons; auto. Qed.
Lemma utf8_app a b : utf8 a → utf8 b → utf8 (a +:+ b).
Proof. rewrite !utf8_chunks. apply chunks_app. Qed.
Lemma utf8_low c s : low c → utf8 s → utf8 (String c s).
Proof. rewrite !utf8_chunks. intros Hc Hs. apply (chunks_cons (String c "")); [by apply chunk1|done]. Qed.
Definition ascii_text (s : string) : Prop := str_forallb (λ c, byte_val c <? 128) s = true.
Lemma utf8_ascii s : ascii_text s → utf8 s.
Proof.
  unfold ascii_text. induction s as [|c s IH]; [done|]. cbn [str_forallb]. intros [Hc Hs]%andb_prop. apply utf8_low; [unfold low; lia|auto].
Qed.

(** an ASCII byte ends a character and starts another *)
Lemma chunks_split s : chunks s → ∀ a c b, low c → s = a +:+ String c b → chunks a ∧ chunks b.
Proof.
  induction 1 as [|x s Hx Hs IH]; intros a c b Hc E; [by destruct a|].
  destruct a as [|a0 a].
  - destruct Hx; unfold low, cont in *; cbn in E; injection E as -> E; try lia. subst b. split; [apply chunks_nil|done].
  - destruct Hx as [c0 H|c0 d H Hd|c0 d e H Hd He H1 H2|c0 d e f H Hd He Hf H1 H2]; cbn in E; injection E as -> E.
    + destruct (IH a c b Hc E) as [A B]. split; [|done]. apply (chunks_cons (String a0 "")); [by apply chunk1|done].
    + destruct a as [|a1 a]; [injection E as -> _; unfold low, cont in *; lia|]. cbn in E. injection E as -> E.
      destruct (IH a c b Hc E) as [A B]. split; [|done]. apply (chunks_cons (String a0 (String a1 ""))); [by apply chunk2|done].
    + destruct a as [|a1 a]; [injection E as -> _; unfold low, cont in *; lia|]. cbn in E. injection E as -> E.
      destruct a as [|a2 a]; [injection E as -> _; unfold low, cont in *; lia|]. cbn in E. injection E as -> E.
      destruct (IH a c b Hc E) as [A B]. split; [|done]. apply (chunks_cons (String a0 (String a1 (String a2 "")))); [by apply chunk3|done].
    + destruct a as [|a1 a]; [injection E as -> _; unfold low, cont in *; lia|]. cbn in E. injection E as -> E.
      destruct a as [|a2 a]; [injection E as -> _; unfold low, cont in *; lia|]. cbn in E. injection E as -> E.
      destruct a as [|a3 a]; [injection E as -> _; unfold low, cont in *; lia|]. cbn in E. injection E as -> E.
      destruct (IH a c b Hc E) as [A B]. split; [|done]. apply (chunks_cons (String a0 (String a1 (String a2 (String a3 ""))))); [by apply chunk4|done].
Qed.
Lemma utf8_split a c b : low c → utf8 (a +:+ String c b) → utf8 a ∧ utf8 b.
Proof. rewrite !utf8_chunks. intros Hc H. by eapply chunks_split. Qed.
Lemma utf8_tl c s : low c → utf8 (String c s) → utf8 s.
Proof. intros Hc H. by apply (utf8_split "" c s). Qed.

Lemma space_low c : is_space c = true → low c.
Proof. destruct c as [[] [] [] [] [] [] [] []]; cbn; try done. Qed.
Lemma utf8_trim_left s : utf8 s → utf8 (trim_left s).
Proof.
  induction s as [|c s IH]; [done|]. cbn [trim_left]. destruct (is_space c) eqn:E; [|done]. intros H. apply IH. by apply (utf8_tl c), H; apply space_low.
Qed.
(** trim_right removes a suffix of white space *)
Lemma trim_right_suffix s : ∃ w, s = trim_right s +:+ w ∧ str_forallb is_space w = true.
Proof.
  induction s as [|c s (w & E & Hw)]; [by exists ""|]. cbn [trim_right]. destruct (trim_right s) as [|c' r'].
  - destruct (is_space c) eqn:Ec.
    + exists (String c s). split; [done|]. cbn [str_forallb]. rewrite Ec. cbn in E. by rewrite E.
    + exists s. split; [done|]. cbn in E. by rewrite E.
  - exists w. split; [|done]. rewrite E at 1. done.
Qed.
Lemma utf8_trim_right s : utf8 s → utf8 (trim_right s).
Proof.
  destruct (trim_right_suffix s) as (w & E & Hw). intros H. rewrite E in H. destruct w as [|c w]; [by rewrite app_nil_r in H|].
  cbn [str_forallb] in Hw. apply andb_prop in Hw as [Hc _]. apply utf8_split in H; [by destruct H|by apply space_low].
Qed.
Lemma utf8_trim_space s : utf8 s → utf8 (trim_space s).
Proof. intros. by apply utf8_trim_right, utf8_trim_left. Qed.

Lemma escape_app e a b : escape_with e (a +:+ b) = escape_with e a +:+ escape_with e b.
Proof.
  induction a as [|c a IH]; [done|]. change (String c a +:+ b) with (String c (a +:+ b)). cbn [escape_with]. rewrite IH. by destruct (Ascii.eqb c e).
Qed.
Lemma utf8_escape e s : low e → utf8 s → utf8 (escape_with e s).
Proof.
  rewrite !utf8_chunks. intros He. induction 1 as [|a s Ha Hs IH]; [apply chunks_nil|]. rewrite escape_app. apply chunks_app; [|done].
  assert (Hk : ∀ c, 128 <= byte_val c → Ascii.eqb c e = false). { intros c Hc. apply Ascii.eqb_neq. intros ->. unfold low in He. lia. }
  assert (H1 : chunk a → chunks a). { intros H. rewrite <- (app_nil_r a). apply chunks_cons; [done|apply chunks_nil]. }
  destruct Ha as [c H|c d H Hd|c d e0 H Hd H0 H2 H3|c d e0 f H Hd H0 Hf H2 H3]; cbn [escape_with]; unfold cont in *.
  - destruct (Ascii.eqb c e); [|by apply H1, chunk1]. apply (chunks_cons (String e "")); [by apply chunk1|].
    apply (chunks_cons (String e "")); [by apply chunk1|apply chunks_nil].
  - rewrite !Hk by lia. by apply H1, chunk2.
  - rewrite !Hk by lia. by apply H1, chunk3.
  - rewrite !Hk by lia. by apply H1, chunk4.
Qed.

(** *** numbers are ASCII *)
Lemma ascii_app a b : ascii_text a → ascii_text b → ascii_text (a +:+ b).
Proof. unfold ascii_text. induction a as [|c a IH]; [done|]. rewrite app_cons. cbn [str_forallb]. intros [Hc Ha]%andb_prop Hb. rewrite Hc, IH; done. Qed.
Lemma pretty_N_go_ascii x : ∀ s, ascii_text s → ascii_text (pretty_N_go x s).
Proof.
  induction (N.lt_wf_0 x) as [x _ IH]; intros s Hs. destruct (decide (0 < x)%N) as [Hx|Hx].
  - rewrite pretty_N_go_step by done. apply IH; [apply N.div_lt; lia|]. unfold ascii_text. cbn [str_forallb]. unfold ascii_text in Hs. rewrite Hs.
    assert (byte_val (pretty_N_char (x `mod` 10)) <? 128 = true) as ->; [|done].
    unfold pretty_N_char. destruct (x `mod` 10)%N as [|p]; [done|]. repeat (destruct p as [p|p|]; try done).
  - replace x with 0%N by lia. done.
Qed.
Lemma show_nat_ascii n : ascii_text (show_nat n).
Proof.
  unfold show_nat, pretty, pretty_nat, pretty, pretty_N. destruct (decide _); [done|]. apply pretty_N_go_ascii. done.
Qed.
Lemma show_Z_ascii z : ascii_text (show_Z z).
Proof.
  assert (HN : ∀ x : N, ascii_text (pretty x)). { intros x. unfold pretty, pretty_N. destruct (decide _); [done|]. by apply pretty_N_go_ascii. }
  unfold show_Z, pretty, pretty_Z. destruct z as [|p|p]; [done|apply HN|]. unfold ascii_text. rewrite app_cons, app_empty. cbn [str_forallb]. apply HN.
Qed.

(** *** paths *)
Lemma utf8_split_on c s : low c → utf8 s → Forall (λ x, utf8 x) (split_on c s).
Proof.
  intros Hc. remember (slen s) as n eqn:En. revert s En. induction (lt_wf n) as [n _ IH]. intros s -> Hs.
  assert (D : (∃ a b, s = a +:+ String c b ∧ str_forallb (λ x, negb (Ascii.eqb x c)) a = true) ∨ str_forallb (λ x, negb (Ascii.eqb x c)) s = true).
  { clear. induction s as [|x s IH]; [by right|]. destruct (Ascii.eqb x c) eqn:E.
    - apply Ascii.eqb_eq in E as ->. left. by exists "", s.
    - destruct IH as [(a & b & -> & Ha)|H]; [left; exists (String x a), b; split; [done|]; cbn [str_forallb]; by rewrite E, Ha|].
      right. cbn [str_forallb]. by rewrite E, H. }
  assert (K : ∀ a r, str_forallb (λ x, negb (Ascii.eqb x c)) a = true → ∀ y l, split_on c r = y :: l → split_on c (a +:+ r) = (a +:+ y) :: l).
  { clear. induction a as [|x a IH]; intros r Ha y l E; [done|]. cbn [str_forallb] in Ha. apply andb_prop in Ha as [Hx Ha].
    change (String x a +:+ r) with (String x (a +:+ r)). cbn [split_on]. apply negb_true_iff in Hx. rewrite Hx. by rewrite (IH r Ha y l E). }
  destruct D as [(a & b & -> & Ha)|Ha].
  - assert (Es : split_on c (String c b) = "" :: split_on c b). { cbn [split_on]. rewrite (proj2 (Ascii.eqb_eq c c) eq_refl). done. }
    rewrite (K a _ Ha _ _ Es). destruct (utf8_split a c b Hc Hs) as [Ua Ub]. constructor; [by rewrite app_nil_r|].
    apply (IH (slen b)); [|done|done]. rewrite slen_app, slen_cons. lia.
  - assert (E0 : split_on c "" = [""]) by done. pose proof (K s "" Ha _ _ E0) as E. rewrite !app_nil_r in E. rewrite E. by constructor.
Qed.
Lemma utf8_join sep l : utf8 sep → Forall (λ x, utf8 x) l → utf8 (join sep l).
Proof.
  intros Hs. unfold join. induction 1 as [|x l Hx Hl IH]; [done|]. destruct l as [|y l]; [done|].
  change (utf8 (x +:+ sep +:+ String.concat sep (y :: l))). apply utf8_app; [done|]. by apply utf8_app.
Qed.
Lemma utf8_elements p : utf8 p → Forall (λ x, utf8 x) (Paths.elements p).
Proof.
  intros H. unfold Paths.elements. apply Forall_forall. intros x Hx. apply elem_of_list_In, filter_In in Hx as [Hx _]. apply elem_of_list_In in Hx.
  by apply (proj1 (Forall_forall _ _) (utf8_split_on "/" p eq_refl H)).
Qed.
Lemma utf8_clean p : utf8 p → utf8 (clean p).
Proof.
  intros H%utf8_elements. unfold clean, clean_elements.
  assert (K : ∀ acc, Forall (λ x, utf8 x) acc → Forall (λ x, utf8 x) (foldl (clean_step (is_abs p)) acc (Paths.elements p))).
  { induction H as [|c l Hc Hl IH]; intros acc Ha; [done|]. cbn [foldl]. apply IH. unfold clean_step.
    destruct (_ || _)%bool; [done|]. destruct (String.eqb c "..").
    - destruct Ha as [|t r Ht Hr]; [destruct (is_abs p); by repeat constructor|]. destruct (String.eqb t ".."); [by repeat constructor|done].
    - by constructor. }
  specialize (K [] (Forall_nil_2 _)). unfold render. apply Forall_rev in K. destruct (is_abs p).
  - apply utf8_app; [done|]. by apply utf8_join.
  - destruct (rev _) eqn:E; [done|]. by apply utf8_join.
Qed.
Lemma strip_common_sub b : ∀ t rb rt, strip_common b t = (rb, rt) → Forall (λ x, utf8 x) t → Forall (λ x, utf8 x) rt.
Proof.
  induction b as [|x b IH]; intros [|y t] rb rt; cbn; try (by intros [= <- <-]).
  destruct (String.eqb x y); [|by intros [= <- <-]]. intros E H. inversion H. by eapply IH.
Qed.
Lemma utf8_relative root n : utf8 n → utf8 (doc_relative_path root n).
Proof.
  intros H%utf8_clean. unfold doc_relative_path, path_rel. destruct (String.eqb _ _); [done|]. destruct (negb _); [done|].
  destruct (strip_common _ _) as [rb rt] eqn:E. apply strip_common_sub in E; [|by apply utf8_elements].
  assert (K : utf8 (join "/" (map (λ _, "..") rb ++ rt))).
  { apply utf8_join; [done|]. apply Forall_app. split; [|done]. apply Forall_fmap, Forall_forall. done. }
  destruct rb; [done|]. destruct rt; [done|]. by destruct (String.eqb _ _).
Qed.
