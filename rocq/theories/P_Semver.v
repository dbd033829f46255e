(** The parser of semantic versions recognises exactly [semver_text]; the
    pseudo-version functions recognise exactly [pseudo_text]. *)
From Coq Require Import Ascii String.
From stdpp Require Import prelude strings.
From Verif Require Import GoStr Regex Semver SpecSemver.
Open Scope string_scope.
Open Scope list_scope.

Definition nodot (s : string) : Prop := str_forallb (λ a, negb (Ascii.eqb a ".")) s = true.

Lemma forallb_impl (f g : ascii → bool) s :
  (∀ c, f c = true → g c = true) → str_forallb f s = true → str_forallb g s = true.
Proof.
  intros H. induction s as [|c s IH]; [done|]. cbn.
  rewrite !andb_true_iff. intros [? ?]; auto.
Qed.

Lemma str_span_spec f s t r :
  str_span f s = (t, r) →
  s = t +:+ r ∧ str_forallb f t = true ∧ (∀ c r', r = String c r' → f c = false).
Proof.
  revert t r. induction s as [|c s IH]; intros t r; cbn.
  - intros [= <- <-]. repeat split. intros c r'. discriminate.
  - destruct (f c) eqn:Hc.
    + destruct (str_span f s) as [t' r'] eqn:E. cbn. intros [= <- <-].
      destruct (IH _ _ eq_refl) as (-> & H1 & H2). rewrite app_cons. cbn. by rewrite Hc.
    + intros [= <- <-]. repeat split. by intros c' r' [= -> ->].
Qed.
Lemma str_span_app f t r :
  str_forallb f t = true → (∀ c r', r = String c r' → f c = false) →
  str_span f (t +:+ r) = (t, r).
Proof.
  induction t as [|c t IH]; intros Ht Hr.
  - rewrite app_nil_l. destruct r as [|c r]; [done|]. cbn. by rewrite (Hr _ _ eq_refl).
  - cbn in Ht. apply andb_true_iff in Ht as [Hc Ht]. rewrite app_cons. cbn. rewrite Hc.
    by rewrite IH.
Qed.

Lemma starts_zero_app s t : s ≠ "" → starts_zero (s +:+ t) = starts_zero s.
Proof. by destruct s. Qed.
Lemma starts_zero_spec s : starts_zero s = true ↔ ∃ r, s = "0" +:+ r.
Proof.
  destruct s as [|c s]; cbn.
  - split; [done|]. intros [r H]. discriminate.
  - rewrite Ascii.eqb_eq. split; [intros ->; by exists s|]. by intros [r [= -> _]].
Qed.
Lemma numeric_spec s :
  numeric s ↔ s ≠ "" ∧ str_forallb is_digit s = true ∧
              (starts_zero s && negb (Nat.eqb (slen s) 1))%bool = false.
Proof.
  unfold numeric, all_digits. rewrite andb_false_iff, negb_false_iff, Nat.eqb_eq. split.
  - intros [[H1 H2] H3]. split; [done|]. split; [done|].
    destruct (starts_zero s) eqn:Hz; [|by left]. right.
    apply starts_zero_spec in Hz as [r ->]. destruct r; [done|]. exfalso. apply H3.
    by eexists.
  - intros (H1 & H2 & H3). split; [done|]. intros (r & -> & Hr). destruct H3 as [H3|H3].
    + done.
    + rewrite slen_app in H3. cbn in H3. destruct r; [done|]. rewrite slen_cons in H3. lia.
Qed.

Definition nodigit_head (r : string) : Prop := ∀ c r', r = String c r' → is_digit c = false.
Lemma parse_int_spec v t r :
  parse_int v = Some (t, r) ↔ v = t +:+ r ∧ numeric t ∧ nodigit_head r.
Proof.
  unfold parse_int. rewrite numeric_spec. split.
  - destruct (str_span is_digit v) as [t' r'] eqn:E. cbn [fst snd].
    apply str_span_spec in E as (-> & H1 & H2).
    destruct (String.eqb_spec t' "") as [|Hne]; [done|].
    rewrite starts_zero_app by done. destruct (_ && _)%bool eqn:Hb; [done|].
    by intros [= <- <-].
  - intros (-> & (Hne & Hd & Hz) & Hr). rewrite str_span_app by done. cbn [fst snd].
    destruct (String.eqb_spec t "") as [|]; [done|].
    rewrite starts_zero_app by done. by rewrite Hz.
Qed.

(** splitting at the first dot: [split_on] of a string built from a dot-free head *)
Lemma split_on_cons_nodot c s h t :
  c ≠ "."%char → split_on "." s = h :: t → split_on "." (String c s) = String c h :: t.
Proof. intros Hc H. cbn. destruct (Ascii.eqb_spec c "."); [done|]. by rewrite H. Qed.
Lemma split_on_nodot_app p s h t :
  nodot p → split_on "." s = h :: t → split_on "." (p +:+ s) = (p +:+ h) :: t.
Proof.
  induction p as [|c p IH]; intros Hp Hs; [done|].
  unfold nodot in Hp. cbn in Hp. apply andb_true_iff in Hp as [Hc Hp].
  rewrite !app_cons. apply split_on_cons_nodot.
  - intros ->. done.
  - auto.
Qed.

Lemma is_ident_char_nodot c : is_ident_char c = true → c ≠ "."%char.
Proof. intros H ->. vm_compute in H. done. Qed.

Section dotloop.
Context (stop : ascii → bool) (bad : string → bool).
Context (Hstop : ∀ c, stop c = true → is_ident_char c = false ∧ c ≠ "."%char).
Definition good (s : string) : Prop :=
  s ≠ "" ∧ str_forallb is_ident_char s = true ∧ bad s = false.
Definition stop_head (r : string) : Prop := r = "" ∨ ∃ c r', r = String c r' ∧ stop c = true.

Lemma forallb_nodot s : str_forallb is_ident_char s = true → nodot s.
Proof.
  apply forallb_impl. intros c Hc. apply negb_true_iff.
  destruct (Ascii.eqb_spec c "."); [|done]. by apply is_ident_char_nodot in Hc.
Qed.

Lemma good_check cur : str_forallb is_ident_char cur = true →
  (String.eqb cur "" || bad cur)%bool = false ↔ good cur.
Proof.
  intros Hc. unfold good. rewrite orb_false_iff, String.eqb_neq. naive_solver.
Qed.

Lemma dot_loop_spec cur v t r :
  str_forallb is_ident_char cur = true →
  dot_loop stop bad cur v = Some (t, r) ↔
  v = t +:+ r ∧ Forall good (split_on "." (cur +:+ t)) ∧ stop_head r.
Proof.
  revert cur t r. induction v as [|c v IH]; intros cur t r Hcur; cbn [dot_loop].
  - split.
    + destruct (_ || _)%bool eqn:E; [done|]. intros [= <- <-].
      rewrite (app_nil_r cur). rewrite split_on_nosep by by apply forallb_nodot.
      split; [done|]. split; [|by left]. constructor; [|done]. by apply good_check.
    + intros (H & Hg & _). symmetry in H. apply app_eq_nil in H as [-> ->].
      rewrite (app_nil_r cur), split_on_nosep in Hg by by apply forallb_nodot.
      inversion Hg; subst. apply good_check in H1 as ->; done.
  - destruct (stop c) eqn:Hs.
    + destruct (Hstop c Hs) as [Hni Hnd]. split.
      * destruct (_ || _)%bool eqn:E; [done|]. intros [= <- <-].
        rewrite (app_nil_r cur). rewrite split_on_nosep by by apply forallb_nodot.
        split; [done|]. split; [|right; eauto]. constructor; [|done]. by apply good_check.
      * intros (H & Hg & _). destruct t as [|c' t].
        { rewrite app_nil_l in H. subst r.
          rewrite (app_nil_r cur), split_on_nosep in Hg by by apply forallb_nodot.
          inversion Hg; subst. apply good_check in H1 as ->; done. }
        exfalso. rewrite app_cons in H. injection H as <- ->.
        destruct (split_on "." t) as [|h tl] eqn:Et; [by apply split_on_ne in Et|].
        rewrite (split_on_nodot_app cur (String c t) (String c h) tl) in Hg;
          [|by apply forallb_nodot|by apply split_on_cons_nodot].
        inversion Hg as [|?? (_ & Hf & _)]; subst. rewrite str_forallb_app in Hf.
        cbn in Hf. rewrite Hni in Hf. rewrite andb_false_r in Hf. done.
    + destruct (Ascii.eqb_spec c ".") as [->|Hcd].
      * cbn [negb]. rewrite andb_false_r.
        assert (∀ t', split_on "." (cur +:+ String "." t') = cur :: split_on "." t') as Hsp.
        { intros t'. apply split_on_app_sep. by apply forallb_nodot. }
        split.
        -- destruct (_ || _)%bool eqn:E; [done|].
           destruct (dot_loop stop bad "" v) as [[t0 r0]|] eqn:El; [|done].
           intros [= <- <-]. apply IH in El as (-> & Hg & Hr); [|done].
           rewrite Hsp. split; [done|]. split; [|done]. constructor; [by apply good_check|done].
        -- intros (H & Hg & Hr). destruct t as [|c' t].
           { rewrite app_nil_l in H. subst r. destruct Hr as [|(c & r' & [= <- ->] & Hc)]; [done|].
             congruence. }
           rewrite app_cons in H. injection H as <- ->. rewrite Hsp in Hg.
           inversion Hg as [|?? Hg1 Hg2]; subst.
           apply good_check in Hg1 as ->; [|done].
           assert (dot_loop stop bad "" (t +:+ r) = Some (t, r)) as -> by by apply IH.
           done.
      * destruct (is_ident_char c) eqn:Hic; cbn [negb andb].
        -- assert (str_forallb is_ident_char (cur +:+ String c "") = true) as Hcur'.
           { rewrite str_forallb_app, Hcur. cbn. by rewrite Hic. }
           assert (∀ t', cur +:+ String c t' = (cur +:+ String c "") +:+ t') as Hap.
           { intros t'. by rewrite <-app_assoc, app_cons. }
           split.
           ++ destruct (dot_loop _ _ _ v) as [[t0 r0]|] eqn:El; [|done].
              intros [= <- <-]. apply IH in El as (-> & Hg & Hr); [|done].
              rewrite Hap. done.
           ++ intros (H & Hg & Hr). destruct t as [|c' t].
              { rewrite app_nil_l in H. subst r.
                destruct Hr as [|(c' & r' & [= <- ->] & Hc)]; [done|]. congruence. }
              rewrite app_cons in H. injection H as <- ->. rewrite Hap in Hg.
              assert (dot_loop stop bad (cur +:+ String c "") (t +:+ r) = Some (t, r)) as ->
                by by apply IH.
              done.
        -- split; [done|]. intros (H & Hg & Hr). destruct t as [|c' t].
           { rewrite app_nil_l in H. subst r.
             destruct Hr as [|(c' & r' & [= <- ->] & Hc)]; [done|]. congruence. }
           exfalso. rewrite app_cons in H. injection H as <- ->.
           destruct (split_on "." t) as [|h tl] eqn:Et; [by apply split_on_ne in Et|].
           rewrite (split_on_nodot_app cur (String c t) (String c h) tl) in Hg;
             [|by apply forallb_nodot|by apply split_on_cons_nodot].
           inversion Hg as [|?? (_ & Hf & _)]; subst. rewrite str_forallb_app in Hf.
           cbn in Hf. rewrite Hic in Hf. rewrite andb_false_r in Hf. done.
Qed.
End dotloop.

Lemma good_pre s : good is_bad_num s ↔ pre_ident s.
Proof.
  unfold good, pre_ident, ident. change (λ c, is_alnum c || Ascii.eqb c "-")%bool with is_ident_char.
  assert (is_bad_num s = true ↔ all_digits s ∧ ∃ r, s = "0" +:+ r ∧ r ≠ "") as Hb.
  { unfold is_bad_num, all_digits. rewrite !andb_true_iff, Nat.ltb_lt, starts_zero_spec.
    split.
    - intros [[H1 H2] [r ->]]. split; [done|]. exists r. split; [done|]. intros ->. rewrite slen_app in H2. unfold slen in H2. cbn in H2. lia.
    - intros [[H1 H2] (r & -> & Hr)]. split; [split; [done|]|by exists r].
      destruct r; [done|]. rewrite slen_app, slen_cons. cbn. lia. }
  rewrite <-Hb. destruct (is_bad_num s); naive_solver.
Qed.
Lemma good_build s : good (λ _, false) s ↔ ident s.
Proof.
  unfold good, ident. change (λ c, is_alnum c || Ascii.eqb c "-")%bool with is_ident_char.
  naive_solver.
Qed.
Lemma Forall_iff' {A} (P Q : A → Prop) l : (∀ x, P x ↔ Q x) → Forall P l ↔ Forall Q l.
Proof. intros H. split; intros F; (eapply Forall_impl; [exact F|]); intros x; apply H. Qed.

Lemma parse_prerelease_spec v t r :
  parse_prerelease v = Some (t, r) ↔
  v = t +:+ r ∧ (∃ p, t = "-" +:+ p ∧ dotted pre_ident p) ∧
  (r = "" ∨ ∃ r', r = String "+" r').
Proof.
  assert (∀ c, Ascii.eqb "+" c = true → is_ident_char c = false ∧ c ≠ "."%char) as Hst.
  { intros c Hc. apply Ascii.eqb_eq in Hc as <-. done. }
  split.
  - intros H. assert (∃ w, v = String "-" w) as [w ->].
    { destruct v as [|c v]; [done|]. exists v.
      destruct c as [[] [] [] [] [] [] [] []]; try done. }
    revert H. cbn.
    destruct (dot_loop _ _ _ _) as [[t0 r0]|] eqn:E; [|done]. intros [= <- <-].
    apply dot_loop_spec in E as (-> & Hg & Hr); [|done|done].
    split; [done|]. split.
    + exists t0. split; [done|]. unfold dotted. rewrite <-(Forall_iff' _ _ _ good_pre).
      done.
    + destruct Hr as [->|(c & r' & -> & Hc)]; [by left|right].
      apply Ascii.eqb_eq in Hc as <-. eauto.
  - intros (-> & (p & -> & Hp) & Hr).
    change (("-" +:+ p) +:+ r) with (String "-" (p +:+ r)). cbn [parse_prerelease].
    assert (dot_loop (Ascii.eqb "+") is_bad_num "" (p +:+ r) = Some (p, r)) as ->; [|done].
    apply dot_loop_spec; [done|done|]. split; [done|]. split.
    + rewrite app_nil_l. by rewrite (Forall_iff' _ _ _ good_pre).
    + destruct Hr as [->|(r' & ->)]; [by left|right]. eauto.
Qed.
Lemma parse_build_spec v t r :
  parse_build v = Some (t, r) ↔
  v = t +:+ r ∧ (∃ p, t = "+" +:+ p ∧ dotted ident p) ∧ r = "".
Proof.
  split.
  - intros H. assert (∃ w, v = String "+" w) as [w ->].
    { destruct v as [|c v]; [done|]. exists v.
      destruct c as [[] [] [] [] [] [] [] []]; try done. }
    revert H. cbn.
    destruct (dot_loop _ _ _ _) as [[t0 r0]|] eqn:E; [|done]. intros [= <- <-].
    apply dot_loop_spec in E as (-> & Hg & Hr); [|done|done].
    split; [done|]. split.
    + exists t0. split; [done|]. unfold dotted. rewrite <-(Forall_iff' _ _ _ good_build).
      done.
    + by destruct Hr as [->|(c & r' & -> & Hc)].
  - intros (-> & (p & -> & Hp) & ->).
    change (("+" +:+ p) +:+ "") with (String "+" (p +:+ "")). cbn [parse_build].
    assert (dot_loop (λ _, false) (λ _, false) "" (p +:+ "") = Some (p, "")) as ->; [|done].
    apply dot_loop_spec; [done|done|]. split; [done|]. split.
    + rewrite app_nil_l. by rewrite (Forall_iff' _ _ _ good_build).
    + by left.
Qed.

(** [match v with String c _ => ...] on a literal character *)
Lemma match_head (c : ascii) (v : string) :
  (∃ r, v = String c r) ∨ (∀ r, v ≠ String c r).
Proof.
  destruct v as [|c' v]; [by right|]. destruct (decide (c = c')) as [->|].
  - left. by eexists.
  - right. intros r [= ??]. done.
Qed.

Definition parse_opt (c : ascii) (f : string → option (string * string)) (v : string) :=
  match v with
  | String c' _ => if Ascii.eqb c' c then f v else Some ("", v)
  | _ => Some ("", v)
  end.
Lemma match_minus {A} v (x y : A) :
  match v with String "-" _ => x | _ => y end =
  match v with String c _ => if Ascii.eqb c "-" then x else y | "" => y end.
Proof. destruct v as [|c v]; [done|]. by destruct c as [[] [] [] [] [] [] [] []]. Qed.
Lemma match_plus {A} v (x y : A) :
  match v with String "+" _ => x | _ => y end =
  match v with String c _ => if Ascii.eqb c "+" then x else y | "" => y end.
Proof. destruct v as [|c v]; [done|]. by destruct c as [[] [] [] [] [] [] [] []]. Qed.

Lemma parse_tail_spec mj mn pt v p :
  parse_tail mj mn pt v = Some p ↔
  ∃ pre b, v = pre +:+ b ∧ prerelease pre ∧ build_meta b ∧ p = SemVer mj mn pt pre b.
Proof.
  unfold parse_tail. rewrite match_minus. split.
  - intros H.
    assert (∃ pre v1, v = pre +:+ v1 ∧ prerelease pre ∧
      match match v1 with String "+" _ => parse_build v1 | _ => Some ("", v1) end with
      | Some (b, v) => if String.eqb v "" then Some (SemVer mj mn pt pre b) else None
      | None => None end = Some p) as (pre & v1 & -> & Hpre & H').
    { destruct v as [|c v].
      - exists "", "". split; [done|]. split; [by left|done].
      - destruct (Ascii.eqb_spec c "-") as [->|Hc].
        + destruct (parse_prerelease _) as [[pre v1]|] eqn:E; [|done].
          apply parse_prerelease_spec in E as (Hv & Hp & _).
          exists pre, v1. split; [done|]. split; [by right|done].
        + exists "", (String c v). split; [done|]. split; [by left|done]. }
    clear H. rewrite match_plus in H'.
    destruct v1 as [|c v1].
    + cbn in H'. injection H' as <-. exists pre, "". repeat split; [done|by left].
    + destruct (Ascii.eqb_spec c "+") as [->|Hc].
      * destruct (parse_build _) as [[b v2]|] eqn:E; [|done].
        apply parse_build_spec in E as (Hv & Hp & ->). cbn in H'. injection H' as <-.
        rewrite app_nil_r in Hv. rewrite Hv. exists pre, b. repeat split; [done|by right].
      * done.
  - intros (pre & b & -> & Hpre & Hb & ->).
    assert (match pre +:+ b with
      | String c _ => if Ascii.eqb c "-" then parse_prerelease (pre +:+ b) else Some ("", pre +:+ b)
      | "" => Some ("", pre +:+ b) end = Some (pre, b)) as ->.
    { assert (b = "" ∨ ∃ r', b = String "+" r') as Hb'.
      { destruct Hb as [->|(q & -> & _)]; [by left|right]. by exists q. }
      destruct Hpre as [->|Hpre].
      - rewrite app_nil_l. by destruct Hb' as [->|(r' & ->)].
      - destruct Hpre as (q & -> & Hq).
        assert (parse_prerelease (("-" +:+ q) +:+ b) = Some ("-" +:+ q, b)) as HE.
        { apply parse_prerelease_spec. split; [done|]. split; [by eauto|done]. }
        rewrite HE. done. }
    rewrite match_plus.
    destruct Hb as [->|Hb]; [done|].
    assert (parse_build b = Some (b, "")) as HE.
    { apply parse_build_spec. rewrite app_nil_r. done. }
    destruct Hb as (q & -> & Hq). cbn [Ascii.eqb]. rewrite HE. done.
Qed.

Lemma match_dot {A} v (x : A) (f : string → A) (y : A) :
  match v with "" => x | String "." r => f r | _ => y end =
  match v with "" => x | String c r => if Ascii.eqb c "." then f r else y end.
Proof. destruct v as [|c v]; [done|]. by destruct c as [[] [] [] [] [] [] [] []]. Qed.
Lemma match_v {A} v (f : string → A) (y : A) :
  match v with String "v" r => f r | _ => y end =
  match v with String c r => if Ascii.eqb c "v" then f r else y | _ => y end.
Proof. destruct v as [|c v]; [done|]. by destruct c as [[] [] [] [] [] [] [] []]. Qed.

Lemma semver_parse_eq v :
  semver_parse v =
  match v with
  | String c v =>
      if Ascii.eqb c "v" then
        match parse_int v with
        | None => None
        | Some (mj, v) =>
            match v with
            | "" => Some (SemVer mj "" "" "" "")
            | String c v =>
                if Ascii.eqb c "." then
                  match parse_int v with
                  | None => None
                  | Some (mn, v) =>
                      match v with
                      | "" => Some (SemVer mj mn "" "" "")
                      | String c v =>
                          if Ascii.eqb c "." then
                            match parse_int v with
                            | None => None
                            | Some (pt, v) => parse_tail mj mn pt v
                            end
                          else None
                      end
                  end
                else None
            end
        end
      else None
  | _ => None
  end.
Proof.
  unfold semver_parse. rewrite match_v. destruct v as [|c v]; [done|].
  destruct (Ascii.eqb c "v"); [|done]. destruct (parse_int v) as [[mj v1]|]; [|done].
  rewrite match_dot. destruct v1 as [|c1 v1]; [done|]. destruct (Ascii.eqb c1 "."); [|done].
  destruct (parse_int v1) as [[mn v2]|]; [|done].
  rewrite match_dot. by destruct v2 as [|c2 v2].
Qed.

Lemma nodigit_dot s : nodigit_head (String "." s).
Proof. by intros c r' [= <- <-]. Qed.
Lemma nodigit_nil : nodigit_head "".
Proof. by intros c r'. Qed.
Lemma nodigit_tail pre b : prerelease pre → build_meta b → nodigit_head (pre +:+ b).
Proof.
  intros [->|(p & -> & _)] [->|(q & -> & _)] c r' H; try done; cbn in H; by injection H as <- _.
Qed.

Lemma semver_parse_sound v p :
  semver_parse v = Some p → semver_text v (sv_pre p) (sv_build p).
Proof.
  rewrite semver_parse_eq. destruct v as [|c v]; [done|].
  destruct (Ascii.eqb_spec c "v") as [->|]; [|done].
  destruct (parse_int v) as [[mj v1]|] eqn:E1; [|done].
  apply parse_int_spec in E1 as (-> & Hmj & _).
  destruct v1 as [|c1 v1].
  { intros [= <-]. cbn. rewrite (app_nil_r mj). exact (SV_major mj Hmj). }
  destruct (Ascii.eqb_spec c1 ".") as [->|]; [|done].
  destruct (parse_int v1) as [[mn v2]|] eqn:E2; [|done].
  apply parse_int_spec in E2 as (-> & Hmn & _).
  destruct v2 as [|c2 v2].
  { intros [= <-]. cbn. rewrite (app_nil_r mn). exact (SV_minor mj mn Hmj Hmn). }
  destruct (Ascii.eqb_spec c2 ".") as [->|]; [|done].
  destruct (parse_int v2) as [[pt v3]|] eqn:E3; [|done].
  apply parse_int_spec in E3 as (-> & Hpt & _).
  rewrite parse_tail_spec. intros (pre & b & -> & Hpre & Hb & ->). cbn [sv_pre sv_build].
  exact (SV_full mj mn pt pre b Hmj Hmn Hpt Hpre Hb).
Qed.
Lemma semver_parse_complete v pre b :
  semver_text v pre b → ∃ p, semver_parse v = Some p ∧ sv_pre p = pre ∧ sv_build p = b.
Proof.
  assert (∀ t r, numeric t → nodigit_head r → parse_int (t +:+ r) = Some (t, r)) as Hpi.
  { intros t r H1 H2. by apply parse_int_spec. }
  intros [mj Hmj|mj mn Hmj Hmn|mj mn pt pre' b' Hmj Hmn Hpt Hpre Hb]; rewrite semver_parse_eq.
  - exists (SemVer mj "" "" "" ""). rewrite <-(app_nil_r mj) at 1.
    change ("v" +:+ mj +:+ "") with (String "v" (mj +:+ "")). cbn [Ascii.eqb Bool.eqb].
    rewrite Hpi by (done || apply nodigit_nil). done.
  - exists (SemVer mj mn "" "" ""). rewrite <-(app_nil_r mn) at 1.
    change ("v" +:+ mj +:+ "." +:+ mn +:+ "") with (String "v" (mj +:+ String "." (mn +:+ ""))).
    cbn [Ascii.eqb Bool.eqb]. rewrite Hpi by (done || apply nodigit_dot). cbn [Ascii.eqb Bool.eqb].
    rewrite Hpi by (done || apply nodigit_nil). done.
  - eexists (SemVer mj mn pt pre' b').
    change ("v" +:+ mj +:+ "." +:+ mn +:+ "." +:+ pt +:+ pre' +:+ b')
      with (String "v" (mj +:+ String "." (mn +:+ String "." (pt +:+ (pre' +:+ b'))))).
    cbn [Ascii.eqb Bool.eqb]. rewrite Hpi by (done || apply nodigit_dot). cbn [Ascii.eqb Bool.eqb].
    rewrite Hpi by (done || apply nodigit_dot). cbn [Ascii.eqb Bool.eqb].
    rewrite Hpi by (done || by apply nodigit_tail).
    split; [|done]. apply parse_tail_spec. eauto 10.
Qed.
Lemma semver_is_valid_spec v : semver_is_valid v = true ↔ ∃ pre b, semver_text v pre b.
Proof.
  unfold semver_is_valid. split.
  - destruct (semver_parse v) as [p|] eqn:E; [|done]. intros _.
    apply semver_parse_sound in E. eauto.
  - intros (pre & b & H). by apply semver_parse_complete in H as (p & -> & _).
Qed.
(** a text is a semantic version in one way only *)
Lemma semver_text_unique v pre b pre' b' :
  semver_text v pre b → semver_text v pre' b' → pre = pre' ∧ b = b'.
Proof.
  intros (p & H1 & <- & <-)%semver_parse_complete (p' & H2 & <- & <-)%semver_parse_complete.
  assert (p = p') by congruence. by subst.
Qed.
Lemma semver_build_spec v b :
  semver_build v = b ↔ (∃ pre, semver_text v pre b) ∨ (b = "" ∧ ¬ ∃ pre b', semver_text v pre b').
Proof.
  unfold semver_build. destruct (semver_parse v) as [p|] eqn:E.
  - split.
    + intros <-. left. apply semver_parse_sound in E. eauto.
    + intros [(pre & H)|[_ H]].
      * apply semver_parse_complete in H as (p' & H & _ & <-). congruence.
      * exfalso. apply H. apply semver_parse_sound in E. eauto.
  - split.
    + intros <-. right. split; [done|]. intros (pre & b' & H).
      apply semver_parse_complete in H as (p' & H & _). congruence.
    + intros [(pre & H)|[-> _]]; [|done].
      apply semver_parse_complete in H as (p' & H & _). congruence.
Qed.

Lemma semver_text_app v pre b : semver_text v pre b → ∃ core, v = core +:+ pre +:+ b.
Proof.
  intros [mj Hmj|mj mn Hmj Hmn|mj mn pt pre' b' Hmj Hmn Hpt Hpre Hb].
  - exists ("v" +:+ mj). by rewrite !app_nil_r.
  - exists ("v" +:+ mj +:+ "." +:+ mn). by rewrite !app_nil_r.
  - exists ("v" +:+ mj +:+ "." +:+ mn +:+ "." +:+ pt). by rewrite <-!app_assoc.
Qed.

(** ------------------------------------------------------------------ *)
(** Pseudo-versions *)
Lemma rmatch_dotted s :
  rmatch (RSeq RIdent (RStar (RSeq (RLit ".") RIdent))) s ↔ dotted ident s.
Proof.
  assert (∀ s, rmatch RIdent s ↔ ident s) as Hid.
  { intros t. unfold RIdent. rewrite rmatch_plus_cls. done. }
  assert (∀ s, ident s → nodot s) as Hnd.
  { intros t [_ H]. by apply forallb_nodot. }
  unfold dotted. split.
  - rewrite rmatch_seq. intros (x & y & -> & Hx & Hy). apply Hid in Hx.
    remember (RStar _) as r eqn:Hr. revert x Hx.
    induction Hy as [| | | | |a|a u t H1 _ H2 IH]; intros x Hx; try discriminate.
    + rewrite (app_nil_r x), split_on_nosep by by apply Hnd. by constructor.
    + injection Hr as ->. apply rmatch_seq in H1 as (u1 & u2 & -> & Hu1 & Hu2).
      apply (rmatch_lit ".") in Hu1 as ->. apply Hid in Hu2.
      change (x +:+ (("." +:+ u2) +:+ t)) with (x +:+ String "." (u2 +:+ t)).
      rewrite split_on_app_sep by by apply Hnd. constructor; [done|]. by apply IH.
  - remember (split_on "." s) as l eqn:Hl. revert s Hl.
    induction l as [|h l IH]; intros s Hl H; [by symmetry in Hl; apply split_on_ne in Hl|].
    inversion H as [|?? Hh Hl']; subst.
    assert ((l = [] ∧ s = h) ∨ ∃ s', s = h +:+ String "." s' ∧ split_on "." s' = l) as [[-> ->]|(s' & -> & Hs')].
    { clear -Hl. revert h l Hl. induction s as [|c s IH]; intros h l Hl.
      - cbn in Hl. injection Hl as -> ->. by left.
      - cbn in Hl. destruct (Ascii.eqb_spec c ".") as [->|Hc].
        + injection Hl as -> ->. right. by exists s.
        + destruct (split_on "." s) as [|h' l'] eqn:E; [by apply split_on_ne in E|].
          injection Hl as -> ->. destruct (IH h' l' eq_refl) as [[-> ->]|(s' & -> & Hs')];
            [by left|]. right. by exists s'. }
    + apply rmatch_seq. exists h, "". rewrite app_nil_r. split; [done|]. split; [by apply Hid|].
      constructor.
    + destruct l as [|h' l0]; [by apply split_on_ne in Hs'|].
      specialize (IH s' (eq_sym Hs') Hl'). apply rmatch_seq in IH as (x & y & -> & Hx & Hy).
      apply rmatch_seq. exists h, (String "." (x +:+ y)). split; [done|]. split; [by apply Hid|].
      change (String "." (x +:+ y)) with (("." +:+ x) +:+ y). constructor; [|done].
      constructor; [by apply rmatch_lit|done].
Qed.

Lemma rmatch_digits s : rmatch RDigits s ↔ all_digits s.
Proof. apply rmatch_plus_cls. Qed.

Lemma rmatch_litseq l r s : rmatch (RSeq (RLit l) r) s ↔ ∃ t, s = l +:+ t ∧ rmatch r t.
Proof.
  rewrite rmatch_seq. setoid_rewrite rmatch_lit. split.
  - intros (x & y & -> & -> & H). eauto.
  - intros (t & -> & H). eauto.
Qed.

Lemma pseudo_re_spec v : rmatch pseudo_re v ↔ ∃ rev, pseudo_text v rev.
Proof.
  unfold pseudo_re, pseudo_text. split.
  - rewrite rmatch_litseq. intros (v1 & -> & H).
    apply rmatch_seq in H as (mj & v2 & -> & Hmj & H). apply rmatch_digits in Hmj.
    apply rmatch_litseq in H as (v3 & -> & H).
    apply rmatch_seq in H as (mid & v4 & -> & Hmid & H).
    apply rmatch_seq in H as (ts & v5 & -> & Hts & H). apply rmatch_rep_cls in Hts.
    apply rmatch_litseq in H as (v6 & -> & H).
    apply rmatch_seq in H as (rev & b & -> & Hrev & Hb). apply rmatch_plus_cls in Hrev.
    exists rev, mj, mid, ts, b. split; [done|]. split; [done|]. split; [|split; [done|split; [done|]]].
    + apply rmatch_alt in Hmid as [Hmid|Hmid].
      * apply rmatch_lit in Hmid as ->. constructor.
      * apply rmatch_seq in Hmid as (mn & w1 & -> & Hmn & H). apply rmatch_digits in Hmn.
        apply rmatch_litseq in H as (w2 & -> & H).
        apply rmatch_seq in H as (pt & w3 & -> & Hpt & H). apply rmatch_digits in Hpt.
        apply rmatch_litseq in H as (w4 & -> & H).
        apply rmatch_seq in H as (x & w5 & -> & Hx & H). apply rmatch_lit in H as ->.
        apply rmatch_opt in Hx as [->|Hx].
        { rewrite app_nil_l. by constructor. }
        apply rmatch_seq in Hx as (x1 & x2 & -> & Hx1 & Hx2). apply rmatch_lit in Hx2 as ->.
        apply rmatch_star_cls in Hx1. rewrite <-(app_assoc x1). by constructor.
    + apply rmatch_opt in Hb as [->|Hb]; [by left|right].
      apply rmatch_litseq in Hb as (q & -> & Hq). exists q. split; [done|]. by apply rmatch_dotted.
  - intros (rev & mj & mid & ts & b & -> & Hmj & Hmid & Hts & Hrev & Hb).
    apply rmatch_litseq. eexists. split; [done|].
    apply rmatch_seq. eexists _, _. split; [done|]. split; [by apply rmatch_digits|].
    apply rmatch_litseq. eexists. split; [done|].
    apply rmatch_seq. eexists _, _. split; [done|]. split.
    { apply rmatch_alt. destruct Hmid as [|mn pt Hmn Hpt|mn pt x Hmn Hpt Hx].
      - left. by apply rmatch_lit.
      - right. apply rmatch_seq. eexists _, _. split; [done|]. split; [by apply rmatch_digits|].
        apply rmatch_litseq. eexists. split; [done|].
        apply rmatch_seq. eexists _, _. split; [done|]. split; [by apply rmatch_digits|].
        apply rmatch_litseq. eexists. split; [done|].
        apply rmatch_seq. exists "", "0.". split; [done|]. split; [|by apply rmatch_lit].
        apply rmatch_opt. by left.
      - right. apply rmatch_seq. eexists _, _. split; [done|]. split; [by apply rmatch_digits|].
        apply rmatch_litseq. eexists. split; [done|].
        apply rmatch_seq. eexists _, _. split; [done|]. split; [by apply rmatch_digits|].
        apply rmatch_litseq. eexists. split; [done|].
        apply rmatch_seq. exists (x +:+ "."), "0.". split; [by rewrite <-(app_assoc x)|].
        split; [|by apply rmatch_lit]. apply rmatch_opt. right.
        apply rmatch_seq. exists x, ".". split; [done|]. split; [by apply rmatch_star_cls|].
        by apply rmatch_lit. }
    apply rmatch_seq. eexists _, _. split; [done|]. split; [by apply rmatch_rep_cls|].
    apply rmatch_litseq. eexists. split; [done|].
    apply rmatch_seq. eexists _, _. split; [done|]. split; [by apply rmatch_plus_cls|].
    apply rmatch_opt. destruct Hb as [->|(q & -> & Hq)]; [by left|right].
    apply rmatch_litseq. eexists. split; [done|]. by apply rmatch_dotted.
Qed.

(** the part before the first "+" *)
Definition noplus (s : string) : Prop := str_forallb (λ c, negb (Ascii.eqb c "+")) s = true.
Lemma noplus_app s t : noplus (s +:+ t) ↔ noplus s ∧ noplus t.
Proof. unfold noplus. rewrite str_forallb_app, andb_true_iff. done. Qed.
Lemma noplus_split x y b b' :
  noplus x → noplus y →
  (b = "" ∨ ∃ r, b = String "+" r) → (b' = "" ∨ ∃ r, b' = String "+" r) →
  x +:+ b = y +:+ b' → x = y ∧ b = b'.
Proof.
  revert y. induction x as [|c x IH]; intros [|d y] Hx Hy Hb Hb' E; rewrite ?app_nil_l, ?app_cons in E.
  - done.
  - exfalso. destruct Hb as [->|(r & ->)]; [done|]. injection E as <- _. done.
  - exfalso. destruct Hb' as [->|(r & ->)]; [done|]. injection E as -> _. done.
  - injection E as <- E. unfold noplus in Hx, Hy. cbn in Hx, Hy. apply andb_true_iff in Hx as [_ Hx].
    apply andb_true_iff in Hy as [_ Hy]. destruct (IH y Hx Hy Hb Hb' E) as [-> ->]. done.
Qed.
Lemma noplus_digits s : str_forallb is_digit s = true → noplus s.
Proof.
  apply forallb_impl. intros c Hc. destruct (Ascii.eqb_spec c "+") as [He|]; [rewrite He in Hc; vm_compute in Hc; discriminate|done].
Qed.
Lemma noplus_alnum s : str_forallb is_alnum s = true → noplus s.
Proof.
  apply forallb_impl. intros c Hc. destruct (Ascii.eqb_spec c "+") as [He|]; [rewrite He in Hc; vm_compute in Hc; discriminate|done].
Qed.
Lemma noplus_dotted (P : string → Prop) s :
  (∀ t, P t → str_forallb is_ident_char t = true) → dotted P s → noplus s.
Proof.
  intros HP. unfold dotted.
  remember (split_on "." s) as l eqn:Hl. revert s Hl.
  assert (∀ s h l, split_on "." s = h :: l → Forall P l → noplus h →
            (∀ l', l = l' → ∀ s', split_on "." s' = l' → Forall P l' → noplus s') → noplus s) as Hgen.
  { intros s. induction s as [|c s IH]; intros h m; cbn.
    - by intros [= <- <-].
    - destruct (Ascii.eqb_spec c ".") as [->|Hc].
      + intros [= <- <-] HF _ Hs. change (noplus s). eapply Hs; eauto.
      + destruct (split_on "." s) as [|h' l'] eqn:E; [by apply split_on_ne in E|].
        intros [= <- <-] HF Hh Hs. unfold noplus in *. cbn in *.
        apply andb_true_iff in Hh as [Hc' Hh]. rewrite Hc'. cbn. eapply IH; eauto. }
  induction l as [|h l IH]; intros s Hl HF; [by symmetry in Hl; apply split_on_ne in Hl|].
  inversion HF as [|?? Hh Hl']; subst. eapply Hgen; eauto.
  - apply HP in Hh. revert Hh. apply forallb_impl. intros c Hc.
    destruct (Ascii.eqb_spec c "+") as [He|]; [rewrite He in Hc; vm_compute in Hc; discriminate|done].
  - intros l' <- s' Hs' HF'. by apply IH.
Qed.

Lemma semver_noplus v pre b : semver_text v pre b → ∃ core, v = core +:+ b ∧ noplus core.
Proof.
  assert (∀ s, numeric s → noplus s) as Hn by (intros s [[_ H] _]; by apply noplus_digits).
  intros [mj Hmj|mj mn Hmj Hmn|mj mn pt pre' b' Hmj Hmn Hpt Hpre Hb].
  - exists ("v" +:+ mj). rewrite app_nil_r. split; [done|]. apply noplus_app. split; [done|auto].
  - exists ("v" +:+ mj +:+ "." +:+ mn). rewrite app_nil_r. split; [done|].
    rewrite !noplus_app. repeat split; auto.
  - exists ("v" +:+ mj +:+ "." +:+ mn +:+ "." +:+ pt +:+ pre').
    rewrite <-!app_assoc. split; [done|]. rewrite !noplus_app.
    assert (noplus pre').
    { destruct Hpre as [->|(p & -> & Hp)]; [done|]. apply noplus_app. split; [done|].
      eapply noplus_dotted; [|done]. by intros t [[_ H] _]. }
    repeat split; auto; done.
Qed.
Lemma build_meta_head b : build_meta b → b = "" ∨ ∃ r, b = String "+" r.
Proof. intros [->|(q & -> & _)]; [by left|right]. by exists q. Qed.
Lemma semver_text_build v pre b : semver_text v pre b → build_meta b.
Proof. intros [| |]; [by left|by left|done]. Qed.

Lemma count_char_app c s t : count_char c (s +:+ t) = count_char c s + count_char c t.
Proof. induction s as [|a s IH]; [done|]. rewrite app_cons. cbn. rewrite IH. lia. Qed.

Lemma pseudo_core mj mid ts rev :
  all_digits mj → pseudo_middle mid → str_forallb is_digit ts = true → str_forallb is_alnum rev = true →
  noplus ("v" +:+ mj +:+ "." +:+ mid +:+ ts +:+ "-" +:+ rev).
Proof.
  intros [_ Hmj] Hmid Hts Hrev. rewrite !noplus_app.
  apply noplus_digits in Hmj, Hts. apply noplus_alnum in Hrev.
  assert (noplus mid).
  { destruct Hmid as [|mn pt [_ Hmn] [_ Hpt]|mn pt x [_ Hmn] [_ Hpt] Hx]; [done| |];
      apply noplus_digits in Hmn, Hpt; rewrite !noplus_app; repeat split; done. }
  repeat split; done.
Qed.

Lemma str_drop_S_app s c t : str_drop (S (slen s)) (s +:+ String c t) = t.
Proof. induction s as [|a s IH]; [by destruct t|]. rewrite app_cons, slen_cons. exact IH. Qed.

Theorem pseudo_version_rev_spec v rev :
  pseudo_version_rev v = Some rev ↔ (∃ pre b, semver_text v pre b) ∧ pseudo_text v rev.
Proof.
  assert ((∃ pre b, semver_text v pre b) → pseudo_text v rev →
    Nat.leb 2 (count_char "-" v) = true ∧
    match last_index "-" (trim_suffix v (semver_build v)) with
    | Some j => Some (str_drop (S j) (trim_suffix v (semver_build v))) | None => None end = Some rev) as Hfw.
  { intros (pre & b' & Hsv) (mj & mid & ts & b & Hv & Hmj & Hmid & [_ Hts] & [_ Hrev] & Hb).
    pose proof (pseudo_core mj mid ts rev Hmj Hmid Hts Hrev) as Hnp.
    assert (v = ("v" +:+ mj +:+ "." +:+ mid +:+ ts +:+ "-" +:+ rev) +:+ b) as Hv'.
    { by rewrite <-!app_assoc. }
    destruct (semver_noplus _ _ _ Hsv) as (core & Hcore & Hcnp).
    rewrite Hv' in Hcore.
    destruct (noplus_split _ _ b b' Hnp Hcnp (build_meta_head _ Hb)
      (build_meta_head _ (semver_text_build _ _ _ Hsv)) Hcore) as [<- <-].
    assert (semver_build v = b) as -> by (apply semver_build_spec; eauto).
    rewrite Hv', trim_suffix_app. split.
    - apply Nat.leb_le. rewrite !count_char_app.
      assert (1 <= count_char "-" mid).
      { destruct Hmid; rewrite ?count_char_app; cbn; lia. }
      cbn. lia.
    - replace ("v" +:+ mj +:+ "." +:+ mid +:+ ts +:+ "-" +:+ rev)
        with (("v" +:+ mj +:+ "." +:+ mid +:+ ts) +:+ String "-" rev) by by rewrite <-!app_assoc.
      rewrite last_index_app_sep.
      + f_equal. apply str_drop_S_app.
      + revert Hrev. apply forallb_impl. intros c Hc.
        destruct (Ascii.eqb_spec c "-") as [He|]; [rewrite He in Hc; vm_compute in Hc; discriminate|done]. }
  unfold pseudo_version_rev, is_pseudo_version. split.
  - destruct (_ && _)%bool eqn:E; [|done].
    apply andb_true_iff in E as [[_ Hv]%andb_true_iff Hre].
    apply semver_is_valid_spec in Hv. apply rmatchb_spec, pseudo_re_spec in Hre as [rev' Hp].
    intros H. split; [done|].
    (* the revision found is the unique one *)
    assert (rev' = rev) as <-; [|done].
    clear Hfw. destruct Hp as (mj & mid & ts & b & Hveq & Hmj & Hmid & [_ Hts] & [_ Hrev] & Hb).
    destruct Hv as (pre & b' & Hsv).
    pose proof (pseudo_core mj mid ts rev' Hmj Hmid Hts Hrev) as Hnp.
    assert (v = ("v" +:+ mj +:+ "." +:+ mid +:+ ts +:+ "-" +:+ rev') +:+ b) as Hv'.
    { by rewrite <-!app_assoc. }
    destruct (semver_noplus _ _ _ Hsv) as (core & Hcore & Hcnp).
    rewrite Hv' in Hcore.
    destruct (noplus_split _ _ b b' Hnp Hcnp (build_meta_head _ Hb)
      (build_meta_head _ (semver_text_build _ _ _ Hsv)) Hcore) as [<- <-].
    assert (semver_build v = b) as Hbb by (apply semver_build_spec; eauto).
    rewrite Hbb in H. rewrite Hv', trim_suffix_app in H.
    replace ("v" +:+ mj +:+ "." +:+ mid +:+ ts +:+ "-" +:+ rev')
        with (("v" +:+ mj +:+ "." +:+ mid +:+ ts) +:+ String "-" rev') in H by by rewrite <-!app_assoc.
    rewrite last_index_app_sep in H.
    + rewrite str_drop_S_app in H. by injection H as <-.
    + revert Hrev. apply forallb_impl. intros c Hc.
        destruct (Ascii.eqb_spec c "-") as [He|]; [rewrite He in Hc; vm_compute in Hc; discriminate|done].
  - intros [Hv Hp]. destruct (Hfw Hv Hp) as [Hcnt Hrev]. rewrite Hcnt.
    apply semver_is_valid_spec in Hv as ->.
    assert (rmatchb pseudo_re v = true) as -> by (apply rmatchb_spec, pseudo_re_spec; eauto).
    done.
Qed.
Lemma is_pseudo_version_spec v :
  is_pseudo_version v = true ↔ (∃ pre b, semver_text v pre b) ∧ ∃ rev, pseudo_text v rev.
Proof.
  split.
  - intros H. unfold is_pseudo_version in H.
    apply andb_true_iff in H as [[_ Hv]%andb_true_iff Hre].
    apply semver_is_valid_spec in Hv. apply rmatchb_spec, pseudo_re_spec in Hre. done.
  - intros [Hv [rev Hp]]. assert (pseudo_version_rev v = Some rev) as H.
    { by apply pseudo_version_rev_spec. }
    unfold pseudo_version_rev in H. by destruct (is_pseudo_version v).
Qed.
