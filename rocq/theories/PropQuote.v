(** C51: struct tags are shown with backticks. *)
From Coq Require Import Ascii String.
From stdpp Require Import prelude strings.
From Verif Require Import GoStr Document Quote.
Open Scope string_scope.
Open Scope list_scope.

(** *** strconv.Unquote agrees with the Go specification *)
Lemma hex_digit_unhex c n : hex_digit c n → unhex c = Some n.
Proof.
  intros [Hn H].
  assert (n = 0 ∨ n = 1 ∨ n = 2 ∨ n = 3 ∨ n = 4 ∨ n = 5 ∨ n = 6 ∨ n = 7 ∨ n = 8 ∨ n = 9 ∨ n = 10 ∨ n = 11 ∨ n = 12 ∨ n = 13 ∨ n = 14 ∨ n = 15)%Z as Hc by lia.
  repeat (destruct Hc as [->|Hc]; [destruct H as [[= <-]|[= <-]]; reflexivity|]). subst n. destruct H as [[= <-]|[= <-]]; reflexivity.
Qed.
Lemma octal_digit_octal c n : octal_digit c n → octal c = Some n ∧ (0 <= n < 8)%Z.
Proof.
  intros [Hn H]. split; [|done].
  assert (n = 0 ∨ n = 1 ∨ n = 2 ∨ n = 3 ∨ n = 4 ∨ n = 5 ∨ n = 6 ∨ n = 7)%Z as Hc by lia.
  repeat (destruct Hc as [->|Hc]; [injection H as <-; reflexivity|]). subst n. injection H as <-. reflexivity.
Qed.
Lemma hex_run_snoc n s : ∀ acc c r v d, slen s = n → hex_run n acc s = Some (v, "") → unhex c = Some d →
  hex_run (S n) acc (s +:+ String c r) = Some ((v * 16 + d)%Z, r).
Proof.
  revert s. induction n as [|n IH]; intros s acc c r v d Hs Hv Hd.
  - destruct s; [|done]. cbn in Hv. injection Hv as <-. rewrite app_nil_l. cbn. by rewrite Hd.
  - destruct s as [|a s]; [done|]. rewrite slen_cons in Hs. rewrite app_cons. cbn [hex_run] in Hv |- *.
    destruct (unhex a) as [x|]; [|done]. apply IH; [lia|done|done].
Qed.
Lemma hex_value_run s v : hex_value s v → hex_run (slen s) 0 s = Some (v, "").
Proof.
  induction 1 as [|s c v n Hs IH Hc]; [done|]. rewrite slen_app. replace (slen s + slen (String c "")) with (S (slen s)) by (cbn; lia).
  erewrite hex_run_snoc; [|done|done|by apply hex_digit_unhex]. by replace (v * 16 + n)%Z with (16 * v + n)%Z by lia.
Qed.
Lemma hex_run_app n : ∀ s acc r v, slen s = n → hex_run n acc s = Some (v, "") → hex_run n acc (s +:+ r) = Some (v, r).
Proof.
  induction n as [|n IH]; intros s acc r v Hs Hv.
  - destruct s; [|done]. cbn in *. by injection Hv as <-.
  - destruct s as [|a s]; [done|]. rewrite slen_cons in Hs. rewrite app_cons. cbn [hex_run] in Hv |- *.
    destruct (unhex a); [|done]. apply IH; [lia|done].
Qed.
Lemma hex_value_app n s v r : slen s = n → hex_value s v → hex_run n 0 (s +:+ r) = Some (v, r).
Proof. intros Hs H. apply hex_run_app; [done|]. rewrite <- Hs. by apply hex_value_run. Qed.
Lemma scalar_valid r : scalar r → valid_rune r = true.
Proof.
  intros [H1 H2]. unfold valid_rune. apply orb_true_iff. destruct (decide (r < 55296)%Z).
  - left. apply andb_true_iff. split; [apply Z.leb_le|apply Z.ltb_lt]; lia.
  - right. apply andb_true_iff. split; [apply Z.ltb_lt|apply Z.leb_le]; lia.
Qed.

Lemma unquote_body_escape fuel e r b r' v : unescape e r = Some (b, r') → unquote_body fuel r' = Some v →
  unquote_body (S fuel) (String "\" (String e r)) = Some (b +:+ v).
Proof. intros H1 H2. cbn [unquote_body]. change (_ || _)%bool with false. cbn beta iota. rewrite H1, H2. done. Qed.
Lemma unquote_body_value b v : literal_value b v → ∀ fuel, slen b < fuel → unquote_body fuel b = Some v.
Proof.
  induction 1 as [|c b v H1 H2 H3 _ IH|e n b v He _ IH|ds n b v Hl Hh _ IH|d1 d2 d3 n1 n2 n3 b v H1 H2 H3 Hlt _ IH
    |ds n b v Hl Hh Hsc _ IH|ds n b v Hl Hh Hsc _ IH]; intros fuel Hf; (destruct fuel as [|fuel]; [lia|]).
  - done.
  - cbn [unquote_body]. rewrite slen_cons in Hf. rewrite (proj2 (Ascii.eqb_neq _ _) H1), (proj2 (Ascii.eqb_neq _ _) H3), (proj2 (Ascii.eqb_neq _ _) H2).
    cbn. by rewrite IH by lia.
  - rewrite !slen_cons in Hf. rewrite (unquote_body_escape fuel e b (String (ascii_of_nat n) "") b v); [done| |apply IH; lia].
    repeat (apply elem_of_cons in He as [[= -> ->]|He]; [done|]). by apply elem_of_nil in He.
  - change ("\x" +:+ (ds +:+ b)) with (String "\" (String "x" (ds +:+ b))). change (String (chr n) v) with (String (chr n) "" +:+ v).
    apply unquote_body_escape with b.
    + cbn [unescape]. by rewrite (hex_value_app 2 ds n b Hl Hh).
    + apply IH. rewrite !slen_app in Hf. lia.
  - destruct (octal_digit_octal _ _ H1) as [E1 R1], (octal_digit_octal _ _ H2) as [E2 R2], (octal_digit_octal _ _ H3) as [E3 R3].
    rewrite !slen_cons in Hf. change (String (chr ?n) v) with (String (chr n) "" +:+ v).
    apply unquote_body_escape with b; [|apply IH; lia].
    assert (E : unescape d1 (String d2 (String d3 b)) = match octal d1 with
      | Some a => match octal d2, octal d3 with
              | Some b', Some c => let n := (a * 64 + b' * 8 + c)%Z in if Z.ltb 255 n then None else Some (String (chr n) "", b)
              | _, _ => None end
      | None => None end).
    { destruct H1 as [_ H1].
      assert (n1 = 0 ∨ n1 = 1 ∨ n1 = 2 ∨ n1 = 3 ∨ n1 = 4 ∨ n1 = 5 ∨ n1 = 6 ∨ n1 = 7)%Z as Hc by lia.
      repeat (destruct Hc as [->|Hc]; [injection H1 as <-; reflexivity|]). subst n1. injection H1 as <-. reflexivity. }
    rewrite E, E1, E2, E3. cbn zeta. rewrite (proj2 (Z.ltb_ge _ _)) by lia. by replace (n1 * 64 + n2 * 8 + n3)%Z with (64 * n1 + 8 * n2 + n3)%Z by lia.
  - change ("\u" +:+ (ds +:+ b)) with (String "\" (String "u" (ds +:+ b))).
    apply unquote_body_escape with b.
    + cbn [unescape]. rewrite (hex_value_app 4 ds n b Hl Hh). by rewrite (scalar_valid n Hsc).
    + apply IH. rewrite !slen_app in Hf. lia.
  - change ("\U" +:+ (ds +:+ b)) with (String "\" (String "U" (ds +:+ b))).
    apply unquote_body_escape with b.
    + cbn [unescape]. rewrite (hex_value_app 8 ds n b Hl Hh). by rewrite (scalar_valid n Hsc).
    + apply IH. rewrite !slen_app in Hf. lia.
Qed.
Lemma strip_quote_app b : strip_quote (b +:+ String dquote "") = Some b.
Proof.
  induction b as [|c b IH]; [done|]. rewrite app_cons. cbn [strip_quote]. destruct (b +:+ String dquote "") eqn:E.
  - by destruct b.
  - by rewrite IH.
Qed.
Lemma unquote_value b v : literal_value b v → unquote (String dquote (b +:+ String dquote "")) = Some v.
Proof. intros H. unfold unquote. rewrite Ascii.eqb_refl, strip_quote_app. apply unquote_body_value; [done|lia]. Qed.

(** *** The scanner *)
Lemma find_close_body b t : literal_body b → find_close (b +:+ String dquote t) = Some (b +:+ String dquote "", t).
Proof.
  induction 1 as [|c b H1 H2 _ IH|c b _ IH].
  - done.
  - rewrite !app_cons. assert (find_close (String c (b +:+ String dquote t)) =
      if Ascii.eqb c dquote then Some (String dquote "", b +:+ String dquote t)
      else match find_close (b +:+ String dquote t) with Some (q, t) => Some (String c q, t) | None => None end) as ->.
    { cbn [find_close]. destruct c as [[] [] [] [] [] [] [] []]; try reflexivity. by destruct H2. }
    rewrite (proj2 (Ascii.eqb_neq _ _) H1), IH. done.
  - rewrite !app_cons. cbn [find_close]. by rewrite IH.
Qed.
Lemma value_body b v : literal_value b v → literal_body b.
Proof.
  assert (Hhex : ∀ s x b, hex_value s x → literal_body b → literal_body (s +:+ b)).
  { intros s x b0 H. revert b0. induction H as [|s c x n _ IH Hc]; intros b0 Hb; [done|]. rewrite <- app_assoc. apply IH.
    apply hex_digit_unhex in Hc. rewrite app_cons, app_nil_l. apply lb_char; [by intros ->|by intros ->|done]. }
  induction 1; try (by constructor).
  - apply lb_escape. by eapply Hhex.
  - apply lb_escape. destruct (octal_digit_octal _ _ H0) as [E0 _], (octal_digit_octal _ _ H1) as [E1 _].
    apply lb_char; [by intros ->|by intros ->|]. apply lb_char; [by intros ->|by intros ->|done].
  - apply lb_escape. by eapply Hhex.
  - apply lb_escape. by eapply Hhex.
Qed.
Lemma no_quote_cons c s : no_quote (String c s) → c ≠ dquote ∧ no_quote s.
Proof. intros H. split; [intros ->; by apply (H 0)|]. intros i Hi. by apply (H (S i)). Qed.
Lemma tags_plain unq p t : ∀ fuel, no_quote p → slen p < fuel →
  quoted_tags_fuel unq fuel (p +:+ t) = p +:+ quoted_tags_fuel unq (fuel - slen p) t.
Proof.
  induction p as [|c p IH]; intros fuel Hp Hf.
  - rewrite !app_nil_l. change (slen "") with 0. by replace (fuel - 0) with fuel by lia.
  - apply no_quote_cons in Hp as [Hc Hp]. rewrite slen_cons in *. destruct fuel as [|fuel]; [lia|]. rewrite !app_cons.
    cbn [quoted_tags_fuel]. rewrite (proj2 (Ascii.eqb_neq _ _) Hc). rewrite IH by (done || lia). done.
Qed.

(** [shown unq body out]: how a literal is shown *)
Definition shown (unq : string → option string) (body : string) : string :=
  let lit := String dquote (body +:+ String dquote "") in
  match unq lit with Some v => String backtick (v +:+ String backtick "") | None => lit end.
Fixpoint rewritten (unq : string → option string) (segments : list (string * string)) (tail : string) : string :=
  match segments with
  | [] => tail
  | (plain, body) :: l => plain +:+ (shown unq body +:+ rewritten unq l tail)
  end.
Lemma segments_spec unq segs tail : ∀ fuel,
  Forall (λ s, no_quote s.1 ∧ literal_body s.2) segs → no_quote tail → slen (text segs tail) < fuel →
  quoted_tags_fuel unq fuel (text segs tail) = rewritten unq segs tail.
Proof.
  induction segs as [|[p b] segs IH]; intros fuel Hs Ht Hf; cbn [text rewritten] in *.
  - rewrite <- (app_nil_r tail) at 1. rewrite tags_plain by done. destruct (fuel - slen tail); by rewrite app_nil_r.
  - apply Forall_cons in Hs as [[Hp Hb] Hs]. cbn [fst snd] in *. rewrite slen_app, slen_cons, slen_app, slen_cons in Hf.
    rewrite tags_plain by (done || lia). f_equal. destruct (fuel - slen p) as [|f] eqn:Ef; [lia|].
    cbn [quoted_tags_fuel]. rewrite Ascii.eqb_refl, (find_close_body _ _ Hb). rewrite IH by (done || lia). done.
Qed.

(** C51: the text outside quoted literals is kept, each literal is replaced by its value in
    backticks. *)
Theorem C51_tags_in_backticks : ∀ segs tail,
  Forall (λ s : string * string * string, no_quote s.1.1 ∧ literal_value s.1.2 s.2) segs → no_quote tail →
  quoted_tags_to_backtick unquote (text (map fst segs) tail) = with_backticks (map (λ s, (s.1.1, s.2)) segs) tail.
Proof.
  intros segs tail Hs Ht. unfold quoted_tags_to_backtick. rewrite segments_spec; [| |done|lia].
  - induction Hs as [|[[p b] v] segs [H1 H2] _ IH]; [done|]. cbn [map rewritten with_backticks fst snd] in *. rewrite IH.
    unfold shown. rewrite (unquote_value _ _ H2). rewrite app_cons. by rewrite <- app_assoc.
  - apply Forall_map. eapply Forall_impl; [exact Hs|]. intros [[p b] v] [H1 H2]. split; [done|]. by eapply value_body.
Qed.
Print Assumptions C51_tags_in_backticks.
(** text without double quotes is unchanged *)
Theorem C51_no_quotes : ∀ unq s, no_quote s → quoted_tags_to_backtick unq s = s.
Proof. intros unq s Hs. apply (segments_spec unq [] s); [done|done|cbn [text]; lia]. Qed.
(** a complete literal that is not valid Go is kept as it is *)
Theorem C51_invalid_literals_kept : ∀ unq segs tail,
  Forall (λ s, no_quote s.1 ∧ literal_body s.2 ∧ unq (String dquote (s.2 +:+ String dquote "")) = None) segs → no_quote tail →
  quoted_tags_to_backtick unq (text segs tail) = text segs tail.
Proof.
  intros unq segs tail Hs Ht. unfold quoted_tags_to_backtick. rewrite segments_spec; [| |done|lia].
  - induction Hs as [|[p b] segs (_ & _ & H) _ IH]; [done|]. cbn [rewritten text fst snd] in *. rewrite IH. unfold shown. rewrite H.
    rewrite app_cons. by rewrite <- app_assoc.
  - eapply Forall_impl; [exact Hs|]. intros x (H1 & H2 & _). done.
Qed.

Definition ex_text : string := "struct{A int " +:+ String dquote ("json:\""a,omit\"" \t\u00e9" +:+ String dquote "; B int}").
Definition ex_segs : list (string * string * string) :=
  [("struct{A int ", "json:\""a,omit\"" \t\u00e9",
    "json:""a,omit"" " +:+ String "009" (String "195" (String "169" "")))].
Example C51_example : quoted_tags_to_backtick unquote ex_text =
  with_backticks [("struct{A int ", "json:""a,omit"" " +:+ String "009" (String "195" (String "169" "")))] "; B int}".
Proof.
  apply (C51_tags_in_backticks ex_segs "; B int}").
  - constructor; [|constructor]. split; [intros i Hi; do 14 (destruct i as [|i]; [by vm_compute in Hi|]); by vm_compute in Hi|]. cbn [fst snd].
    assert (Hv : literal_value "\u00e9" (utf8_encode 233 +:+ "")).
    { change "\u00e9" with ("\u" +:+ ("00e9" +:+ "")). apply lv_u; [done| |split; lia|constructor].
      change "00e9" with ((((("" +:+ "0") +:+ "0") +:+ "e") +:+ "9")). change 233%Z with (16 * (16 * (16 * (16 * 0 + 0) + 0) + 14) + 9)%Z.
      repeat (apply hv_snoc; [|split; [lia|by left]]). constructor. }
    repeat (first [exact Hv | apply (lv_simple _ 34); [by do 8 right; left|] | apply (lv_simple _ 9); [by do 5 right; left|] | apply lv_char; [done|done|done|]]).
  - intros i Hi. do 9 (destruct i as [|i]; [by vm_compute in Hi|]). by vm_compute in Hi.
Qed.

(** *** Limits *)
(** A double quote that is never closed is dropped from the text. *)
Theorem C51_unterminated_refuted : quoted_tags_to_backtick unquote ("a" +:+ String dquote "b") = "ab".
Proof. reflexivity. Qed.
(** A tag that contains a backtick gives text that is not Go. *)
Theorem C51_backtick_in_tag_refuted :
  quoted_tags_to_backtick unquote (String dquote ("a`b" +:+ String dquote "")) = "`a`b`".
Proof. reflexivity. Qed.
