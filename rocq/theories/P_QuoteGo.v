(** strconv.Quote: the value of the quoted text is the text, and text/scanner reads it back *)
From Coq Require Import Ascii String.
From stdpp Require Import prelude strings.
From Verif Require Import GoStr Quote PropQuote Fingerprint P_Utf8.
Open Scope string_scope.
Open Scope list_scope.
Local Open Scope Z_scope.

Lemma hex_char_digit d : 0 <= d < 16 → hex_digit (hex_char d) d.
Proof.
  intros H. split; [done|]. left. unfold hex_char.
  assert (d = 0 ∨ d = 1 ∨ d = 2 ∨ d = 3 ∨ d = 4 ∨ d = 5 ∨ d = 6 ∨ d = 7 ∨ d = 8 ∨ d = 9 ∨ d = 10 ∨ d = 11 ∨ d = 12 ∨ d = 13 ∨ d = 14 ∨ d = 15) as Hc by lia.
  repeat (destruct Hc as [->|Hc]; [reflexivity|]). by subst d.
Qed.
Lemma hex_text_value k : ∀ n, 0 <= n < 16 ^ Z.of_nat k → hex_value (hex_text k n) n ∧ slen (hex_text k n) = k.
Proof.
  induction k as [|k IH]; intros n Hn.
  - change (16 ^ Z.of_nat 0) with 1 in Hn. replace n with 0 by lia. split; [constructor|done].
  - rewrite Nat2Z.inj_succ, Z.pow_succ_r in Hn by lia. destruct (IH (n / 16)) as [H1 H2]; [zdiv|]. cbn [hex_text]. split.
    + assert (E : n = 16 * (n / 16) + n mod 16) by zdiv. rewrite E at 3. constructor; [done|]. apply hex_char_digit. zdiv.
    + rewrite slen_app, H2. change (slen (String _ "")) with 1%nat. lia.
Qed.
Lemma scan_hex k s : ∀ v r, hex_value s v → slen s = k → scan_n_digits unhex k (s +:+ r) = Some (s, r).
Proof.
  revert s. induction k as [|k IH]; intros s v r Hv Hs.
  - destruct s; [|done]. by rewrite app_nil_l.
  - destruct s as [|c s]; [done|]. rewrite slen_cons in Hs. rewrite app_cons. cbn [scan_n_digits].
    assert (∃ d v', unhex c = Some d ∧ hex_value s v') as (d & v' & -> & Hv').
    { clear IH r Hs. remember (String c s) as cs eqn:E. revert c s E. induction Hv as [|s' c' v' n Hv IHv Hd]; intros c s E; [done|].
      destruct s' as [|a s'].
      - rewrite app_nil_l in E. injection E as -> <-. exists n, 0. split; [by apply hex_digit_unhex|constructor].
      - rewrite app_cons in E. injection E as -> <-. destruct (IHv c s' eq_refl) as (d & v'' & Hd' & Hv''). exists d, (16 * v'' + n).
        split; [done|]. by constructor. }
    rewrite (IH s v' r); [done|done|lia].
Qed.

Lemma utf8_encode_ascii n : n < 128 → utf8_encode n = String (chr n) "".
Proof. intros H. unfold utf8_encode. by rewrite (proj2 (Z.ltb_lt _ _) H). Qed.
Lemma all_high_value s b v : all_high s → literal_value b v → literal_value (s +:+ b) (s +:+ v).
Proof.
  induction s as [|c s IH]; intros Hs Hb; [by rewrite !app_nil_l|]. destruct Hs as [Hc Hs]. rewrite !app_cons.
  apply lv_char; [..|by apply IH]; intros ->; revert Hc; vm_compute; intros X; by apply X.
Qed.
(** a rune below 128, or a scalar value *)
Definition rune_ok (n : Z) : Prop := 0 <= n < 128 ∨ (128 <= n ∧ scalar n).
Lemma escaped_rune_value u n b v : rune_ok n → literal_value b v → literal_value (escaped_rune u n +:+ b) (utf8_encode n +:+ v).
Proof.
  intros Hn Hb. unfold escaped_rune.
  assert (Simple : ∀ e k, (e, k) ∈ simple_escapes → n = Z.of_nat k → n < 128 →
    literal_value (String "\" (String e "") +:+ b) (utf8_encode n +:+ v)).
  { intros e k He -> Hk. rewrite utf8_encode_ascii by done. rewrite !app_cons, !app_nil_l.
    replace (chr (Z.of_nat k)) with (ascii_of_nat k); [by apply lv_simple|]. unfold chr, ascii_of_nat. f_equal. lia. }
  destruct (Z.eqb_spec n 34) as [->|H34]; [cbn [orb]; eapply (Simple dquote 34%nat); [|done|done]; repeat ((by left) || right)|].
  destruct (Z.eqb_spec n 92) as [->|H92]; [cbn [orb]; eapply (Simple "\"%char 92%nat); [|done|done]; repeat ((by left) || right)|].
  cbn [orb]. unfold printable. destruct (Z.ltb_spec n 128) as [Hlt|Hge].
  - destruct (Z.leb_spec 32 n), (Z.ltb_spec n 127); cbn [andb].
    1: { rewrite utf8_encode_ascii by done. rewrite !app_cons, !app_nil_l.
      assert (0 <= n < 256) as Hr by (destruct Hn as [?|[? _]]; lia).
      apply lv_char; [..|done]; intros E; apply (f_equal ord) in E; rewrite ord_chr in E by lia; vm_compute in E; lia. }
    all: assert (0 <= n < 256) as Hr by (destruct Hn as [?|[? _]]; lia).
    all: destruct (Z.eqb_spec n 7) as [Ek|_]; [eapply (Simple "a"%char 7%nat); [repeat ((by left) || right)|done|done]|].
    all: destruct (Z.eqb_spec n 8) as [Ek|_]; [eapply (Simple "b"%char 8%nat); [repeat ((by left) || right)|done|done]|].
    all: destruct (Z.eqb_spec n 12) as [Ek|_]; [eapply (Simple "f"%char 12%nat); [repeat ((by left) || right)|done|done]|].
    all: destruct (Z.eqb_spec n 10) as [Ek|_]; [eapply (Simple "n"%char 10%nat); [repeat ((by left) || right)|done|done]|].
    all: destruct (Z.eqb_spec n 13) as [Ek|_]; [eapply (Simple "r"%char 13%nat); [repeat ((by left) || right)|done|done]|].
    all: destruct (Z.eqb_spec n 9) as [Ek|_]; [eapply (Simple "t"%char 9%nat); [repeat ((by left) || right)|done|done]|].
    all: destruct (Z.eqb_spec n 11) as [Ek|_]; [eapply (Simple "v"%char 11%nat); [repeat ((by left) || right)|done|done]|].
    all: assert (Hx : (Z.ltb n 32 || Z.eqb n 127)%bool = true)
      by (apply orb_true_iff; rewrite Z.ltb_lt, Z.eqb_eq; lia).
    all: rewrite Hx; destruct (hex_text_value 2 n) as [X1 X2]; [lia|]; rewrite utf8_encode_ascii by lia;
      rewrite <- GoStr.app_assoc, (app_cons (chr n)), app_nil_l; by apply lv_hex.
  - assert (scalar n) as Hsc by (destruct Hn as [?|[_ ?]]; [lia|done]). destruct (u_print u n).
    + apply all_high_value; [|done]. by apply utf8_encode_high.
    + repeat match goal with |- context [Z.eqb n ?k] => destruct (Z.eqb_spec n k) as [->|]; [lia|] end.
      rewrite (proj2 (Z.ltb_ge n 32)) by lia. cbn [orb]. destruct (Z.ltb_spec n 65536).
      * destruct (hex_text_value 4 n) as [X1 X2]; [lia|]. rewrite <- GoStr.app_assoc. by apply lv_u.
      * destruct (hex_text_value 8 n) as [X1 X2]; [destruct Hsc; lia|]. rewrite <- GoStr.app_assoc. by apply lv_U.
Qed.
Lemma quote_body_value u fuel : ∀ s, (slen s <= fuel)%nat → literal_value (quote_body u fuel s) s.
Proof.
  induction fuel as [|fuel IH]; intros s Hf.
  - destruct s; [constructor|]. rewrite slen_cons in Hf. lia.
  - destruct s as [|c r]; [constructor|]. rewrite slen_cons in Hf. cbn [quote_body].
    destruct (Z.ltb_spec (ord c) 128).
    + assert (E : String c r = utf8_encode (ord c) +:+ r).
      { rewrite utf8_encode_ascii by done. by rewrite app_cons, app_nil_l, chr_ord. }
      rewrite E. apply escaped_rune_value; [left; pose proof (ord_range c); lia|]. apply IH. lia.
    + destruct (decode_rune (String c r)) as [[n r']|] eqn:E.
      * apply decode_rune_some in E as (H1 & H2 & E). rewrite E. apply escaped_rune_value; [by right|]. apply IH.
        apply (f_equal slen) in E. rewrite slen_cons, slen_app in E. destruct (utf8_encode_high n H1 H2) as [_ Hne].
        assert (slen (utf8_encode n) ≠ 0%nat) by (destruct (utf8_encode n); done). lia.
      * destruct (hex_text_value 2 (ord c)) as [X1 X2]; [pose proof (ord_range c); lia|].
        rewrite <- (chr_ord c) at 2. apply lv_hex; [done|done|]. apply IH. lia.
Qed.
Lemma unquote_quote u s : unquote (quote u s) = Some s.
Proof. unfold quote. apply unquote_value. apply quote_body_value. lia. Qed.

(** *** Scanning *)
Definition scannable (b : string) : Prop :=
  ∀ fuel r, (slen b < fuel)%nat → scan_string fuel (b +:+ String dquote r) = Some (b, r).
Lemma scannable_nil : scannable "".
Proof. intros [|fuel] r H; [lia|]. by rewrite app_nil_l. Qed.
Lemma next_rune_ascii c r : 0 < ord c < 128 → next_rune (String c r) = Some (ord c, String c "", r).
Proof.
  intros H. unfold next_rune. destruct (Z.eqb_spec (ord c) 0); [lia|]. by rewrite (proj2 (Z.ltb_lt (ord c) 128)) by lia.
Qed.
Lemma next_rune_high n r : 128 <= n → scalar n → next_rune (utf8_encode n +:+ r) = Some (n, utf8_encode n, r).
Proof.
  intros H1 H2. pose proof (decode_rune_encode n r H1 H2) as Hd. destruct (utf8_encode_high n H1 H2) as [Hh Hne].
  destruct (utf8_encode n) as [|c w] eqn:E; [done|]. destruct Hh as [Hc _]. rewrite app_cons in Hd |- *. unfold next_rune.
  destruct (Z.eqb_spec (ord c) 0); [lia|]. rewrite (proj2 (Z.ltb_ge (ord c) 128)) by lia. by rewrite Hd, E.
Qed.
Lemma scannable_ascii c b : 0 < ord c < 128 → ord c ≠ 34 → ord c ≠ 10 → ord c ≠ 92 → scannable b → scannable (String c b).
Proof.
  intros H1 H2 H3 H4 Hb [|fuel] r Hf; [lia|]. rewrite slen_cons in Hf. rewrite app_cons. cbn [scan_string].
  rewrite next_rune_ascii by done. rewrite (proj2 (Z.eqb_neq _ _) H2), (proj2 (Z.eqb_neq _ _) H3), (proj2 (Z.eqb_neq _ _) H4).
  rewrite Hb by lia. by rewrite app_cons, app_nil_l.
Qed.
Lemma scannable_high n b : 128 <= n → scalar n → scannable b → scannable (utf8_encode n +:+ b).
Proof.
  intros H1 H2 Hb [|fuel] r Hf; [lia|]. rewrite slen_app in Hf. rewrite <- GoStr.app_assoc. cbn [scan_string].
  rewrite next_rune_high by done. destruct (Z.eqb_spec n 34), (Z.eqb_spec n 10), (Z.eqb_spec n 92); try lia.
  destruct (utf8_encode_high n H1 H2) as [_ Hne]. assert (slen (utf8_encode n) ≠ 0%nat) by (destruct (utf8_encode n); done).
  rewrite Hb by lia. done.
Qed.
Lemma scannable_escape e b : (∀ r, scan_escape (e +:+ r) = Some (e, r)) → scannable b → scannable (String "\" (e +:+ b)).
Proof.
  intros He Hb [|fuel] r Hf; [lia|]. rewrite slen_cons, slen_app in Hf. rewrite app_cons, <- GoStr.app_assoc. cbn [scan_string].
  rewrite next_rune_ascii by (vm_compute; done). change (Z.eqb (ord "\") 34) with false. change (Z.eqb (ord "\") 10) with false.
  change (Z.eqb (ord "\") 92) with true. cbn iota. rewrite He. rewrite Hb by lia. done.
Qed.
Lemma scannable_simple e b : existsb (Ascii.eqb e) ["a"; "b"; "f"; "n"; "r"; "t"; "v"; "\"; dquote]%char = true →
  scannable b → scannable (String "\" (String e b)).
Proof.
  intros He Hb. change (String e b) with (String e "" +:+ b). apply scannable_escape; [|done].
  intros r. rewrite app_cons, app_nil_l. unfold scan_escape. by rewrite He.
Qed.
Lemma scannable_hex c k ds v b : (c, k) ∈ [("x", 2%nat); ("u", 4%nat); ("U", 8%nat)]%char → hex_value ds v → slen ds = k →
  scannable b → scannable (String "\" (String c (ds +:+ b))).
Proof.
  intros Hc Hv Hs Hb. change (String c (ds +:+ b)) with (String c ds +:+ b). apply scannable_escape; [|done].
  intros r. rewrite app_cons. unfold scan_escape.
  repeat (apply elem_of_cons in Hc as [[= -> ->]|Hc]; [cbn [existsb Ascii.eqb Bool.eqb orb]; by rewrite (scan_hex _ ds v r Hv Hs)|]).
  by apply elem_of_nil in Hc.
Qed.
Lemma escaped_rune_scannable u n b : rune_ok n → scannable b → scannable (escaped_rune u n +:+ b).
Proof.
  intros Hn Hb. unfold escaped_rune.
  destruct (Z.eqb_spec n 34) as [->|H34]; [by apply scannable_simple|].
  destruct (Z.eqb_spec n 92) as [->|H92]; [by apply scannable_simple|].
  cbn [orb]. unfold printable. destruct (Z.ltb_spec n 128) as [Hlt|Hge].
  - assert (0 <= n < 256) as Hr by (destruct Hn as [?|[? _]]; lia).
    destruct (Z.leb_spec 32 n), (Z.ltb_spec n 127); cbn [andb].
    1: { rewrite utf8_encode_ascii by done. rewrite !app_cons, !app_nil_l.
      apply scannable_ascii; rewrite ?ord_chr by lia; try lia; done. }
    all: destruct (Z.eqb_spec n 7) as [Ek|_]; [by apply scannable_simple|].
    all: destruct (Z.eqb_spec n 8) as [Ek|_]; [by apply scannable_simple|].
    all: destruct (Z.eqb_spec n 12) as [Ek|_]; [by apply scannable_simple|].
    all: destruct (Z.eqb_spec n 10) as [Ek|_]; [by apply scannable_simple|].
    all: destruct (Z.eqb_spec n 13) as [Ek|_]; [by apply scannable_simple|].
    all: destruct (Z.eqb_spec n 9) as [Ek|_]; [by apply scannable_simple|].
    all: destruct (Z.eqb_spec n 11) as [Ek|_]; [by apply scannable_simple|].
    all: assert (Hx : (Z.ltb n 32 || Z.eqb n 127)%bool = true)
      by (apply orb_true_iff; rewrite Z.ltb_lt, Z.eqb_eq; lia).
    all: rewrite Hx; destruct (hex_text_value 2 n) as [X1 X2]; [lia|];
      rewrite <- GoStr.app_assoc; (apply (scannable_hex "x" 2%nat (hex_text 2 n) n); [left|done|done|done]).
  - assert (scalar n) as Hsc by (destruct Hn as [?|[_ ?]]; [lia|done]). destruct (u_print u n).
    + by apply scannable_high.
    + repeat match goal with |- context [Z.eqb n ?k] => destruct (Z.eqb_spec n k) as [->|]; [lia|] end.
      rewrite (proj2 (Z.ltb_ge n 32)) by lia. cbn [orb]. destruct (Z.ltb_spec n 65536).
      * destruct (hex_text_value 4 n) as [X1 X2]; [lia|]. rewrite <- GoStr.app_assoc.
        (apply (scannable_hex "u" 4%nat (hex_text 4 n) n); [right; left|done|done|done]).
      * destruct (hex_text_value 8 n) as [X1 X2]; [destruct Hsc; lia|]. rewrite <- GoStr.app_assoc.
        (apply (scannable_hex "U" 8%nat (hex_text 8 n) n); [right; right; left|done|done|done]).
Qed.
Lemma quote_body_scannable u fuel : ∀ s, scannable (quote_body u fuel s).
Proof.
  induction fuel as [|fuel IH]; intros s; [apply scannable_nil|]. destruct s as [|c r]; [apply scannable_nil|]. cbn [quote_body].
  destruct (Z.ltb_spec (ord c) 128).
  - apply escaped_rune_scannable; [left; pose proof (ord_range c); lia|]. apply IH.
  - destruct (decode_rune (String c r)) as [[n r']|] eqn:E.
    + apply decode_rune_some in E as (H1 & H2 & _). apply escaped_rune_scannable; [by right|]. apply IH.
    + destruct (hex_text_value 2 (ord c)) as [X1 X2]; [pose proof (ord_range c); lia|].
      apply (scannable_hex "x" 2%nat (hex_text 2 (ord c)) (ord c)); [by left|done|done|]. apply IH.
Qed.
