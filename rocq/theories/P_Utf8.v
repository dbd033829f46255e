(** UTF-8 decoding inverts encoding *)
From Coq Require Import Ascii String.
From stdpp Require Import prelude strings.
From Verif Require Import GoStr Quote Fingerprint.
Open Scope string_scope.
Open Scope list_scope.
Local Open Scope Z_scope.
Ltac zdiv := Z.to_euclidean_division_equations; lia.

Lemma ord_range c : 0 <= ord c < 256.
Proof. unfold ord. pose proof (N_ascii_bounded c). lia. Qed.
Lemma chr_ord c : chr (ord c) = c.
Proof. unfold chr, ord. rewrite N2Z.id. apply ascii_N_embedding. Qed.
Lemma ord_chr n : 0 <= n < 256 → ord (chr n) = n.
Proof. intros H. unfold chr, ord. rewrite N_ascii_embedding by lia. lia. Qed.
Lemma valid_rune_scalar n : valid_rune n = true ↔ scalar n.
Proof.
  unfold valid_rune, scalar. rewrite orb_true_iff, !andb_true_iff, !Z.leb_le, !Z.ltb_lt. lia.
Qed.
Lemma cont_byte_some c b : cont_byte c = Some b → 0 <= b < 64 ∧ c = chr (128 + b).
Proof.
  unfold cont_byte. destruct (Z.leb_spec 128 (ord c)); [|done]. destruct (Z.ltb_spec (ord c) 192); [|done]. cbn.
  intros [= <-]. split; [lia|]. rewrite <- (chr_ord c) at 1. f_equal. lia.
Qed.
Lemma cont_byte_chr b : 0 <= b < 64 → cont_byte (chr (128 + b)) = Some b.
Proof.
  intros H. unfold cont_byte. rewrite ord_chr by lia. rewrite (proj2 (Z.leb_le _ _)), (proj2 (Z.ltb_lt _ _)) by lia. cbn. f_equal. lia.
Qed.
Ltac zb := repeat match goal with
  | |- context [Z.leb ?a ?b] => first [rewrite (proj2 (Z.leb_le a b)) by zdiv | rewrite (proj2 (Z.leb_gt a b)) by zdiv]
  | |- context [Z.ltb ?a ?b] => first [rewrite (proj2 (Z.ltb_lt a b)) by zdiv | rewrite (proj2 (Z.ltb_ge a b)) by zdiv]
  end; cbn [andb].
Lemma decode_rune_some s n r : decode_rune s = Some (n, r) → 128 <= n ∧ scalar n ∧ s = utf8_encode n +:+ r.
Proof.
  unfold decode_rune. destruct s as [|a s]; [done|]. cbv zeta. pose proof (ord_range a) as Ha.
  destruct (Z.leb_spec 194 (ord a)), (Z.ltb_spec (ord a) 224); cbn [andb].
  1: { destruct s as [|c s]; [done|]. destruct (cont_byte c) as [b|] eqn:E; [|done]. apply cont_byte_some in E as [Hb ->].
    intros [= <- <-]. split; [lia|]. split; [unfold scalar; lia|]. unfold utf8_encode. zb.
    cbn [String.append]. replace ((_ + b) / 64) with (ord a - 192) by zdiv. replace ((_ + b) mod 64) with b by zdiv.
    replace (192 + (ord a - 192)) with (ord a) by lia. by rewrite chr_ord. }
  all: destruct (Z.leb_spec 224 (ord a)), (Z.ltb_spec (ord a) 240); cbn [andb]; try lia.
  1: { destruct s as [|c1 [|c2 s]]; [done..|]. destruct (cont_byte c1) as [b1|] eqn:E1; [|done].
    destruct (cont_byte c2) as [b2|] eqn:E2; [|done]. apply cont_byte_some in E1 as [H1' ->], E2 as [H2' ->].
    destruct (Z.leb_spec 2048 ((ord a - 224) * 4096 + b1 * 64 + b2)); [|done]. cbn [andb].
    destruct (valid_rune _) eqn:Ev; [|done]. apply valid_rune_scalar in Ev.
    intros [= <- <-]. split; [lia|]. split; [done|]. unfold utf8_encode. zb.
    cbn [String.append].
    replace ((_ + b2) / 4096) with (ord a - 224) by zdiv. replace ((_ + b2) mod 64) with b2 by zdiv.
    replace (((_ + b2) / 64) mod 64) with b1 by zdiv.
    replace (224 + (ord a - 224)) with (ord a) by lia. by rewrite chr_ord. }
  all: destruct (Z.leb_spec 240 (ord a)), (Z.ltb_spec (ord a) 245); cbn [andb]; try lia; try done.
  destruct s as [|c1 [|c2 [|c3 s]]]; [done..|]. destruct (cont_byte c1) as [b1|] eqn:E1; [|done].
  destruct (cont_byte c2) as [b2|] eqn:E2; [|done]. destruct (cont_byte c3) as [b3|] eqn:E3; [|done].
  apply cont_byte_some in E1 as [H1' ->], E2 as [H2' ->], E3 as [H3' ->].
  destruct (Z.leb_spec 65536 ((ord a - 240) * 262144 + b1 * 4096 + b2 * 64 + b3)); [|done]. cbn [andb].
  destruct (valid_rune _) eqn:Ev; [|done]. apply valid_rune_scalar in Ev.
  intros [= <- <-]. split; [lia|]. split; [done|]. unfold utf8_encode. zb.
  cbn [String.append].
  replace ((_ + b3) / 262144) with (ord a - 240) by zdiv. replace ((_ + b3) mod 64) with b3 by zdiv.
  replace (((_ + b3) / 4096) mod 64) with b1 by zdiv. replace (((_ + b3) / 64) mod 64) with b2 by zdiv.
  replace (240 + (ord a - 240)) with (ord a) by lia. by rewrite chr_ord.
Qed.
Lemma decode_rune_encode n r : 128 <= n → scalar n → decode_rune (utf8_encode n +:+ r) = Some (n, r).
Proof.
  intros Hn Hs. pose proof (proj2 (valid_rune_scalar n) Hs) as Hv. destruct Hs as [Hr _]. unfold utf8_encode.
  destruct (Z.ltb_spec n 128); [lia|]. destruct (Z.ltb_spec n 2048); [|destruct (Z.ltb_spec n 65536)]; rewrite !app_cons, app_nil_l; unfold decode_rune; cbv beta iota zeta.
  - rewrite ord_chr by zdiv. zb. rewrite cont_byte_chr by zdiv. f_equal. f_equal. zdiv.
  - rewrite ord_chr by zdiv. zb. rewrite !cont_byte_chr by zdiv.
    replace ((224 + n / 4096 - 224) * 4096 + (n / 64) mod 64 * 64 + n mod 64) with n by zdiv. zb. by rewrite Hv.
  - rewrite ord_chr by zdiv. zb. rewrite !cont_byte_chr by zdiv.
    replace ((240 + n / 262144 - 240) * 262144 + (n / 4096) mod 64 * 4096 + (n / 64) mod 64 * 64 + n mod 64) with n by zdiv.
    zb. by rewrite Hv.
Qed.
(** the bytes of a rune from 128 on are from 128 on *)
Fixpoint all_high (s : string) : Prop := match s with String c r => 128 <= ord c ∧ all_high r | "" => True end.
Lemma utf8_encode_high n : 128 <= n → scalar n → all_high (utf8_encode n) ∧ utf8_encode n ≠ "".
Proof.
  intros Hn [Hr _]. unfold utf8_encode. destruct (Z.ltb_spec n 128); [lia|].
  destruct (Z.ltb_spec n 2048); [|destruct (Z.ltb_spec n 65536)]; cbn [all_high]; rewrite !ord_chr by zdiv; split; try done; zdiv.
Qed.
