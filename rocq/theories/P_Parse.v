(** Parsing a fingerprint gives the tree of the type *)
From Coq Require Import Ascii String Decimal DecimalString DecimalN DecimalPos DecimalFacts.
From stdpp Require Import prelude strings.
From Verif Require Import GoStr Scip GoTypes Quote PropQuote Fingerprint SpecTypes P_Utf8 P_QuoteGo P_Finger.
Open Scope string_scope.
Open Scope list_scope.
Local Open Scope Z_scope.

(** the end, or a character that ends a token *)
Definition delim (r : string) : Prop := match r with "" => True | String c _ => c = " "%char ∨ c = ")"%char end.

Lemma scan_space u r : scan u (" " +:+ r) = scan u r.
Proof. reflexivity. Qed.
Lemma scan_open u r : scan u ("(" +:+ r) = Some (TkChar "(", r).
Proof. reflexivity. Qed.
Lemma scan_close u r : scan u (")" +:+ r) = Some (TkChar ")", r).
Proof. reflexivity. Qed.
Lemma skip_white_id c r : existsb (Z.eqb (ord c)) [9; 10; 13; 32] = false → skip_white (String c r) = String c r.
Proof. intros H. cbn [skip_white]. by rewrite H. Qed.

(** *** Identifiers *)
Lemma alpha_range c : is_alpha c = true → 65 <= ord c < 123.
Proof. destruct c as [[] [] [] [] [] [] [] []]; vm_compute; try discriminate; intros _; split; congruence. Qed.
Lemma digit_range c : is_digit c = true → 48 <= ord c < 58.
Proof. destruct c as [[] [] [] [] [] [] [] []]; vm_compute; try discriminate; intros _; split; congruence. Qed.
Lemma ident_tail_scan u w : ident_tail u w → ∀ fuel r, delim r → (slen w < fuel)%nat → scan_ident u fuel (w +:+ r) = Some (w, r).
Proof.
  induction 1 as [|c s Hc Hs IH|n s H1 H2 H3 Hs IH]; intros fuel r Hr Hf; (destruct fuel as [|fuel]; [lia|]).
  - rewrite app_nil_l. destruct r as [|c r]; [done|]. destruct Hr as [-> | ->]; reflexivity.
  - rewrite slen_cons in Hf. rewrite app_cons. cbn [scan_ident].
    assert (Hrange : 0 < ord c < 128).
    { destruct Hc as [Hc| ->]; [|done]. unfold is_alnum in Hc. apply orb_true_iff in Hc as [Hc|Hc].
      - apply alpha_range in Hc. lia.
      - apply digit_range in Hc. lia. }
    rewrite next_rune_ascii by done.
    assert (ident_rune u (ord c) = true) as ->.
    { unfold ident_rune, ident_start. rewrite (proj2 (Z.ltb_lt (ord c) 128)) by lia. rewrite chr_ord.
      destruct Hc as [Hc| ->]; [|done]. unfold is_alnum in Hc. apply orb_true_iff in Hc as [-> | ->]; [by rewrite orb_true_r|by rewrite !orb_true_r]. }
    rewrite IH by (done || lia). by rewrite app_cons, app_nil_l.
  - destruct (utf8_encode_high n H1 H2) as [_ Hne]. assert (slen (utf8_encode n) ≠ 0%nat) by (destruct (utf8_encode n); done).
    rewrite slen_app in Hf. rewrite <- GoStr.app_assoc. cbn [scan_ident].
    assert (Hm : ∀ X : option (string * string), match utf8_encode n +:+ (s +:+ r) with "" => Some ("", "") | String _ _ => X end = X).
    { intros X. by destruct (utf8_encode n). }
    rewrite Hm, next_rune_high by done.
    assert (ident_rune u n = true) as ->.
    { unfold ident_rune. rewrite (proj2 (Z.ltb_ge n 128)) by lia. apply orb_true_iff. done. }
    by rewrite IH by (done || lia).
Qed.
Lemma go_ident_tail u w : go_ident u w → ident_tail u w.
Proof.
  destruct 1 as [c s Hc Hs|n s H1 H2 H3 Hs].
  - apply it_ascii; [|done]. destruct Hc as [Hc|Hc]; [left|by right]. unfold is_alnum. by rewrite Hc.
  - apply it_rune; auto.
Qed.
Lemma scan_go_ident u w r : go_ident u w → delim r → scan u (w +:+ r) = Some (TkIdent w, r).
Proof.
  intros Hw Hr. pose proof (go_ident_tail _ _ Hw) as Ht.
  assert (Hi : scan_ident u (S (slen (w +:+ r))) (w +:+ r) = Some (w, r)).
  { apply ident_tail_scan; [done|done|]. rewrite slen_app. lia. }
  destruct Hw as [c s Hc Hs|n s H1 H2 H3 Hs].
  - rewrite app_cons in Hi |- *.
    assert (Hrange : 65 <= ord c < 128).
    { destruct Hc as [Hc| ->]; [|vm_compute; split; congruence]. apply alpha_range in Hc. lia. }
    unfold scan. rewrite skip_white_id.
    2:{ cbn [existsb]. destruct (Z.eqb_spec (ord c) 9), (Z.eqb_spec (ord c) 10), (Z.eqb_spec (ord c) 13), (Z.eqb_spec (ord c) 32); try lia; done. }
    rewrite next_rune_ascii by lia.
    assert (ident_start u (ord c) = true) as ->.
    { unfold ident_start. rewrite (proj2 (Z.ltb_lt (ord c) 128)) by lia. rewrite chr_ord. destruct Hc as [-> | ->]; [by rewrite orb_true_r|done]. }
    by rewrite Hi.
  - destruct (utf8_encode_high n H1 H2) as [Hh Hne]. rewrite <- GoStr.app_assoc in Hi |- *. unfold scan.
    pose proof (next_rune_high n (s +:+ r) H1 H2) as Hnr.
    destruct (utf8_encode n) as [|c w'] eqn:E; [done|]. destruct Hh as [Hc _]. rewrite app_cons in Hi, Hnr |- *.
    rewrite skip_white_id.
    2:{ cbn [existsb]. destruct (Z.eqb_spec (ord c) 9), (Z.eqb_spec (ord c) 10), (Z.eqb_spec (ord c) 13), (Z.eqb_spec (ord c) 32); try lia; done. }
    rewrite Hnr. assert (ident_start u n = true) as ->.
    { unfold ident_start. by rewrite (proj2 (Z.ltb_ge n 128)) by lia. }
    by rewrite Hi.
Qed.
Fixpoint ascii_tailb (s : string) : bool := match s with "" => true | String c r => ((is_alnum c || Ascii.eqb c "_") && ascii_tailb r)%bool end.
Definition ascii_identb (s : string) : bool := match s with String c r => ((is_alpha c || Ascii.eqb c "_") && ascii_tailb r)%bool | "" => false end.
Lemma ascii_ident u s : ascii_identb s = true → go_ident u s.
Proof.
  destruct s as [|c s]; [done|]. cbn. intros [H1 H2]%andb_true_iff. apply gi_ascii.
  - apply orb_true_iff in H1 as [H|H]; [by left|right; by apply Ascii.eqb_eq].
  - clear H1. induction s as [|a s IH]; [constructor|]. cbn in H2. apply andb_true_iff in H2 as [H1 H2]. apply it_ascii; [|by apply IH].
    apply orb_true_iff in H1 as [H|H]; [by left|right; by apply Ascii.eqb_eq].
Qed.

(** *** Integers *)
Lemma scan_digits_app d r : delim r → scan_digits (NilEmpty.string_of_uint d +:+ r) = (NilEmpty.string_of_uint d, r).
Proof.
  intros Hr. induction d as [|d IH|d IH|d IH|d IH|d IH|d IH|d IH|d IH|d IH|d IH];
    [destruct r as [|c r]; [done|destruct Hr as [-> | ->]; reflexivity]|..];
    cbn [NilEmpty.string_of_uint]; rewrite app_cons; cbn [scan_digits is_digit]; rewrite IH; reflexivity.
Qed.
Lemma string_of_uint_cons d : d ≠ Nil → ∃ c s, NilEmpty.string_of_uint d = String c s ∧ is_digit c = true.
Proof. destruct d; [done|..]; intros _; cbn; eauto. Qed.
Lemma to_uint_zero_head n d : N.to_uint n = D0 d → d = Nil.
Proof.
  intros H. pose proof (DecimalN.Unsigned.to_of (N.to_uint n)) as Hu. rewrite DecimalN.Unsigned.of_to in Hu.
  rewrite H in Hu. cbn in Hu. destruct d; [done|..]; exfalso; revert Hu; cbn.
  - pose proof (DecimalFacts.unorm_D0). unfold unorm. cbn. intros Hu. apply (f_equal (λ x, nb_digits x)) in Hu.
    pose proof (DecimalFacts.nb_digits_nzhead (D0 d)). revert Hu. cbn. destruct (nzhead d) eqn:E; cbn; intros; try lia.
    all: pose proof (DecimalFacts.nb_digits_nzhead d) as Hl; rewrite E in Hl; cbn in Hl; lia.
  - done. - done. - done. - done. - done. - done. - done. - done. - done.
Qed.
Lemma to_uint_nonnil n : N.to_uint n ≠ Nil.
Proof. destruct n; [done|]. apply DecimalPos.Unsigned.to_uint_nonnil. Qed.
Lemma scan_decimal u n r : delim r → scan u (decimal n +:+ r) = Some (TkInt (decimal n), r).
Proof.
  intros Hr. unfold decimal. set (d := N.to_uint (Z.to_N n)).
  pose proof (scan_digits_app d r Hr) as Hd.
  destruct (string_of_uint_cons d (to_uint_nonnil _)) as (c & s & E & Hc).
  assert (Hz : c = "0"%char → s = "").
  { intros ->. destruct d eqn:Ed; cbn in E; try discriminate. injection E as <-. by rewrite (to_uint_zero_head _ _ Ed). }
  pose proof (digit_range c Hc) as Hrange. rewrite E in Hd |- *. rewrite app_cons in Hd |- *.
  unfold scan. rewrite skip_white_id.
  2:{ cbn [existsb]. destruct (Z.eqb_spec (ord c) 9), (Z.eqb_spec (ord c) 10), (Z.eqb_spec (ord c) 13), (Z.eqb_spec (ord c) 32); try lia; done. }
  rewrite next_rune_ascii by lia.
  assert (ident_start u (ord c) = false) as ->.
  { unfold ident_start. rewrite (proj2 (Z.ltb_lt (ord c) 128)) by lia. rewrite chr_ord. destruct (Z.eqb_spec (ord c) 95); [lia|]. cbn.
    apply not_true_iff_false. intros H%alpha_range. lia. }
  rewrite Hc. unfold scan_number. rewrite Hd.
  assert (match r with "" => Some (String c s, r) | String c0 _ => if number_char c0 then None else Some (String c s, r) end = Some (String c s, r)) as E2.
  { destruct r as [|c0 r]; [done|]. destruct Hr as [-> | ->]; reflexivity. }
  rewrite E2. destruct (Ascii.eqb_spec c "0") as [->|Hne].
  - by rewrite (Hz eq_refl).
  - destruct c as [[] [] [] [] [] [] [] []]; try done.
Qed.
Lemma atoi_decimal n : 0 <= n < 9223372036854775808 → atoi (decimal n) = Some n.
Proof.
  intros H. unfold atoi, decimal. rewrite NilEmpty.usu, DecimalN.Unsigned.of_to. rewrite Z2N.id by lia.
  by rewrite (proj2 (Z.ltb_lt _ _)) by lia.
Qed.
Lemma scan_quote u s r : scan u (quote u s +:+ r) = Some (TkStr (quote u s), r).
Proof.
  unfold quote. rewrite app_cons, <- GoStr.app_assoc, app_cons, app_nil_l. unfold scan. rewrite skip_white_id by reflexivity.
  rewrite next_rune_ascii by (vm_compute; done).
  assert (ident_start u (ord dquote) = false) as -> by reflexivity. change (is_digit dquote) with false. change (Z.eqb (ord dquote) 34) with true.
  cbn iota. rewrite (quote_body_scannable u (slen s) s). 2:{ rewrite slen_cons, slen_app. lia. }
  done.
Qed.

(** *** Expressions *)
Section Reads.
  Context (u : unicode).
  (** text s is an expression with tree x *)
  Definition reads (x : sexpr) (s : string) : Prop :=
    ∀ r st', delim r → scan u r = Some st' →
      ∃ st, scan u (s +:+ r) = Some st ∧ st.1 ≠ TkChar ")" ∧ ∃ n, ∀ fuel, (n <= fuel)%nat → parse u fuel st = PDone (x, st').
  (** text s are the elements of a list *)
  Definition reads_list (l : list sexpr) (s : string) : Prop :=
    ∀ r st', scan u r = Some st' →
      ∃ st, scan u (s +:+ (")" +:+ r)) = Some st ∧ ∃ n, ∀ fuel, (n <= fuel)%nat → parse_list u fuel st = PDone (slist l, st').
  Definition spaced (s : string) : Prop := s = "" ∨ ∃ t, s = " " +:+ t.
  Lemma spaced_delim s r : spaced s → delim (s +:+ (")" +:+ r)).
  Proof. intros [->|[t ->]]; [by right|by left]. Qed.
  Lemma reads_ident w : go_ident u w → reads (SSym w) w.
  Proof.
    intros Hw r st' Hr Hst. exists (TkIdent w, r). split; [by apply scan_go_ident|]. split; [done|]. exists 1%nat.
    intros [|fuel] Hf; [lia|]. cbn [parse fst snd]. rewrite Hst. done.
  Qed.
  Lemma reads_int n : 0 <= n < 9223372036854775808 → reads (SInt n) (format_int n).
  Proof.
    intros Hn r st' Hr Hst. unfold format_int. rewrite (proj2 (Z.ltb_ge n 0)) by lia.
    exists (TkInt (decimal n), r). split; [by apply scan_decimal|]. split; [done|]. exists 1%nat.
    intros [|fuel] Hf; [lia|]. cbn [parse fst snd]. rewrite Hst. cbn [of_option pbind]. rewrite atoi_decimal by lia. done.
  Qed.
  Lemma reads_str s : reads (SStr s) (quote u s).
  Proof.
    intros r st' Hr Hst. exists (TkStr (quote u s), r). split; [by apply scan_quote|]. split; [done|]. exists 1%nat.
    intros [|fuel] Hf; [lia|]. cbn [parse fst snd]. rewrite Hst. cbn [of_option pbind]. rewrite unquote_quote. done.
  Qed.
  Lemma reads_list_nil : reads_list [] "".
  Proof.
    intros r st' Hst. exists (TkChar ")", r). split; [by rewrite app_nil_l|]. exists 1%nat.
    intros [|fuel] Hf; [lia|]. cbn [parse_list fst snd]. rewrite Hst. done.
  Qed.
  Lemma reads_list_space l s : reads_list l s → reads_list l (" " +:+ s).
  Proof. intros H r st' Hst. rewrite <- GoStr.app_assoc, scan_space. by apply H. Qed.
  Lemma reads_list_cons x l a b : reads x a → spaced b → reads_list l b → reads_list (x :: l) (a +:+ b).
  Proof.
    intros Hx Hb Hl r st' Hst. destruct (Hl r st' Hst) as (st2 & Hst2 & n2 & Hn2).
    destruct (Hx (b +:+ (")" +:+ r)) st2) as (st1 & Hst1 & Hne & n1 & Hn1); [by apply spaced_delim|done|].
    exists st1. rewrite <- GoStr.app_assoc. split; [done|]. exists (S (n1 + n2)). intros [|fuel] Hf; [lia|]. cbn [parse_list].
    assert (Hm : ∀ X Y : pres (sexpr * (token * string)), match st1.1 with TkChar ")"%char => X | _ => Y end = Y).
    { intros X Y. destruct (st1.1); try done. destruct c as [[] [] [] [] [] [] [] []]; done. }
    rewrite Hm, Hn1 by lia. cbn [pbind]. rewrite Hn2 by lia. done.
  Qed.
  Lemma reads_slist l s : reads_list l s → reads (slist l) ("(" +:+ (s +:+ ")")).
  Proof.
    intros Hl r st' Hr Hst. destruct (Hl r st' Hst) as (st & Hs & n & Hn). exists (TkChar "(", s +:+ (")" +:+ r)).
    rewrite <- !GoStr.app_assoc. split; [apply scan_open|]. split; [done|]. exists (S n). intros [|fuel] Hf; [lia|].
    cbn [parse fst snd]. rewrite Hs. cbn [of_option pbind]. apply Hn. lia.
  Qed.
  (** a list with further elements, each after a space *)
  Inductive items : list sexpr → string → Prop :=
  | items_nil : items [] ""
  | items_cons x l a b : reads x a → items l b → items (x :: l) (" " +:+ (a +:+ b)).
  Lemma items_spaced l s : items l s → spaced s.
  Proof. destruct 1; [by left|right; eauto]. Qed.
  Lemma items_reads l s : items l s → reads_list l s.
  Proof.
    induction 1 as [|x l a b Hx Hl IH]; [apply reads_list_nil|]. apply reads_list_space, reads_list_cons; [done| |done].
    by eapply items_spaced.
  Qed.
  Lemma items_app l1 l2 a b : items l1 a → items l2 b → items (l1 ++ l2) (a +:+ b).
  Proof.
    induction 1 as [|x l c d Hx Hl IH]; intros H2; [done|]. rewrite <- !GoStr.app_assoc. cbn [app].
    apply items_cons; [done|]. auto.
  Qed.
  Lemma items_one x a : reads x a → items [x] (" " +:+ a).
  Proof. intros H. replace a with (a +:+ "") by apply GoStr.app_nil_r. constructor; [done|constructor]. Qed.
  Lemma reads_form h l s : ascii_identb h = true → items l s → reads (slist (SSym h :: l)) ("(" +:+ ((h +:+ s) +:+ ")")).
  Proof.
    intros Hh Hl. apply reads_slist, reads_list_cons; [by apply reads_ident, ascii_ident|by eapply items_spaced|by apply items_reads].
  Qed.
  Lemma reads_qual p n : go_ident u n → reads (qual p n) ("(qual " +:+ quote u p +:+ " " +:+ n +:+ ")").
  Proof.
    intros Hn. pose proof (reads_form "qual" [SStr p; SSym n] ((" " +:+ quote u p) +:+ (" " +:+ n)) eq_refl) as H.
    rewrite <- !GoStr.app_assoc in H. apply H.
    replace (" " +:+ (quote u p +:+ (" " +:+ n))) with ((" " +:+ quote u p) +:+ (" " +:+ n)) by by rewrite <- !GoStr.app_assoc.
    apply (items_app [SStr p]); apply items_one; [apply reads_str|by apply reads_ident].
  Qed.
  Lemma reads_name tn : name_ok u tn → reads (name_tree tn) (print_tname u tn).
  Proof.
    unfold name_ok, name_tree, print_tname. destruct (tn_pkg tn) as [p|].
    - intros [H _]. by apply reads_qual.
    - intros [-> | ->]; by apply reads_ident, ascii_ident.
  Qed.
  Lemma reads_field_name f : field_ok u f → reads (field_name_tree f) (print_field_name u f).
  Proof.
    intros [H1 H2]. unfold field_name_tree, print_field_name. destruct (is_exported (fh_name f)); [by apply reads_ident|].
    destruct (H2 eq_refl) as [p ->]. by apply reads_qual.
  Qed.
  Lemma items_args l : Forall (λ t, type_ok u t → reads (tree t) (print u t)) l → Forall (type_ok u) l →
    items (map tree l) (print_args u l).
  Proof.
    induction l as [|t l IH]; intros Hi Hok; [constructor|]. inversion Hi; inversion Hok; subst. cbn [map print_args].
    constructor; auto.
  Qed.
  Lemma items_fields fs : Forall (λ f, type_ok u f.2 → reads (tree f.2) (print u f.2)) fs →
    Forall (field_ok u) (map fst fs) → Forall (type_ok u) (map snd fs) →
    items (List.concat (map (λ f, [field_name_tree f.1; SSym (format_bool (fh_embedded f.1)); SStr (fh_tag f.1); tree f.2]) fs)) (print_fields u fs).
  Proof.
    induction fs as [|[f t] fs IH]; intros Hi H1 H2; [constructor|]. inversion Hi; inversion H1; inversion H2; subst.
    cbn [map List.concat app print_fields fst snd].
    constructor; [by apply reads_field_name|].
    constructor; [apply reads_ident, ascii_ident; by destruct (fh_embedded f)|].
    constructor; [apply reads_str|]. constructor; auto.
  Qed.
  Ltac form h l s := pose proof (reads_form h l s eq_refl) as Hform; rewrite <- ?GoStr.app_assoc in Hform; apply Hform; clear Hform.
  Lemma reads_type t : type_ok u t → reads (tree t) (print u t).
  Proof.
    induction t as [k a|tn l IH|tn t IH|t IH|t IH|n t IH|k v IHk IHv|d t IH|l IH|ps rs v IHp IHr|fs IH|ms s IH|tn i|l IH] using ty_ind';
      intros Hok; inversion Hok; subst.
    - destruct k; try done; try (apply reads_ident, ascii_ident; reflexivity). by apply reads_qual, ascii_ident.
    - destruct l as [|t l]; [by apply reads_name|]. rewrite print_named. cbn [tree]. 
      form "inst" (name_tree tn :: map tree (t :: l)) (" " +:+ (print_tname u tn +:+ print_args u (t :: l))).
      constructor; [by apply reads_name|]. by apply items_args.
    - cbn [tree Fingerprint.print]. auto.
    - cbn [tree Fingerprint.print]. form "ptr" [tree t] (" " +:+ print u t). apply items_one. auto.
    - cbn [tree Fingerprint.print]. form "slice" [tree t] (" " +:+ print u t). apply items_one. auto.
    - cbn [tree Fingerprint.print]. form "array" [SInt n; tree t] (" " +:+ (format_int n +:+ (" " +:+ print u t))).
      constructor; [by apply reads_int|]. apply items_one. auto.
    - cbn [tree Fingerprint.print]. form "map" [tree k; tree v] (" " +:+ (print u k +:+ (" " +:+ print u v))).
      constructor; [auto|]. apply items_one. auto.
    - cbn [tree Fingerprint.print]. form "chan" [SInt (Z.of_nat d); tree t] (" " +:+ (format_int (Z.of_nat d) +:+ (" " +:+ print u t))).
      constructor; [apply reads_int; lia|]. apply items_one. auto.
    - rewrite print_tuple. cbn [tree]. form "tuple" (map tree l) (print_args u l). by apply items_args.
    - rewrite print_sig. cbn [tree].
      assert (Htup : ∀ l, Forall (λ t, type_ok u t → reads (tree t) (print u t)) l → Forall (type_ok u) l →
        reads (slist (SSym "tuple" :: map tree l)) ("(tuple" +:+ (print_args u l +:+ ")"))).
      { intros l X1 X2. form "tuple" (map tree l) (print_args u l). by apply items_args. }
      assert (Hr : items [slist (SSym "tuple" :: map tree rs)] (" " +:+ ("(tuple" +:+ (print_args u rs +:+ ")")))).
      { apply items_one. auto. }
      assert (Hv : items ((if v then [SSym "v"] else []) ++ [slist (SSym "tuple" :: map tree rs)])
        ((if v then " v" else "") +:+ (" " +:+ ("(tuple" +:+ (print_args u rs +:+ ")"))))).
      { apply items_app; [|done]. destruct v; [|constructor]. apply (items_one (SSym "v") "v"). by apply reads_ident, ascii_ident. }
      form "func" (slist (SSym "tuple" :: map tree ps) :: (if v then [SSym "v"] else []) ++ [slist (SSym "tuple" :: map tree rs)])
        (" " +:+ (("(tuple" +:+ (print_args u ps +:+ ")")) +:+ ((if v then " v" else "") +:+ (" " +:+ ("(tuple" +:+ (print_args u rs +:+ ")")))))).
      pose proof (items_cons _ _ _ _ (Htup ps IHp ltac:(done)) Hv) as X. rewrite <- ?GoStr.app_assoc in X. exact X.
    - rewrite print_struct. cbn [tree].
      form "struct" (List.concat (map (λ f, [field_name_tree f.1; SSym (format_bool (fh_embedded f.1)); SStr (fh_tag f.1); tree f.2]) fs)) (print_fields u fs).
      by apply items_fields.
    - destruct ms; [by apply reads_ident, ascii_ident|]. apply (reads_form "interface" [] "" eq_refl). constructor.
    - cbn [tree Fingerprint.print]. form "typeparam" [SInt (Z.of_nat i)] (" " +:+ format_int (Z.of_nat i)).
      apply items_one. apply reads_int. lia.
  Qed.
End Reads.
