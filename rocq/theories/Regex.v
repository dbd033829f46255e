(** A small regular-expression engine (for regexp.MatchString on anchored
    patterns).  [rmatch] is the usual denotational meaning; [rmatchb] is an
    executable matcher (Brzozowski derivatives); [rmatchb_spec] proves they
    agree.  Go's regexp package is a dependency: what is trusted is that
    MatchString on an anchored pattern decides membership in this language. *)
From Coq Require Import Ascii String.
From stdpp Require Import prelude strings.
From Verif Require Import GoStr.
Open Scope string_scope.
Open Scope list_scope.

Inductive regex :=
| RNone
| REps
| RCls (f : ascii → bool)
| RSeq (a b : regex)
| RAlt (a b : regex)
| RStar (a : regex).

Inductive rmatch : regex → string → Prop :=
| M_eps : rmatch REps ""
| M_cls f c : f c = true → rmatch (RCls f) (String c "")
| M_seq a b s t : rmatch a s → rmatch b t → rmatch (RSeq a b) (s +:+ t)
| M_altl a b s : rmatch a s → rmatch (RAlt a b) s
| M_altr a b s : rmatch b s → rmatch (RAlt a b) s
| M_star0 a : rmatch (RStar a) ""
| M_star1 a s t : rmatch a s → rmatch (RStar a) t → rmatch (RStar a) (s +:+ t).

Fixpoint nullable (r : regex) : bool :=
  match r with
  | RNone | RCls _ => false
  | REps | RStar _ => true
  | RSeq a b => (nullable a && nullable b)%bool
  | RAlt a b => (nullable a || nullable b)%bool
  end.
Fixpoint deriv (c : ascii) (r : regex) : regex :=
  match r with
  | RNone | REps => RNone
  | RCls f => if f c then REps else RNone
  | RSeq a b =>
      if nullable a then RAlt (RSeq (deriv c a) b) (deriv c b) else RSeq (deriv c a) b
  | RAlt a b => RAlt (deriv c a) (deriv c b)
  | RStar a => RSeq (deriv c a) (RStar a)
  end.
Fixpoint rmatchb (r : regex) (s : string) : bool :=
  match s with "" => nullable r | String c s' => rmatchb (deriv c r) s' end.

(** literal strings and the usual abbreviations *)
Fixpoint RLit (s : string) : regex :=
  match s with "" => REps | String c s' => RSeq (RCls (Ascii.eqb c)) (RLit s') end.
Definition RPlus (r : regex) : regex := RSeq r (RStar r).
Definition ROpt (r : regex) : regex := RAlt REps r.
Fixpoint RRep (n : nat) (r : regex) : regex :=
  match n with O => REps | S n' => RSeq r (RRep n' r) end.

Lemma rmatch_none s : ¬ rmatch RNone s.
Proof. inversion 1. Qed.
Lemma rmatch_eps s : rmatch REps s ↔ s = "".
Proof. split; [by inversion 1|intros ->; constructor]. Qed.
Lemma rmatch_cls f s : rmatch (RCls f) s ↔ ∃ c, s = String c "" ∧ f c = true.
Proof. split; [inversion 1; subst; eauto|intros (c & -> & H); by constructor]. Qed.
Lemma rmatch_seq a b s :
  rmatch (RSeq a b) s ↔ ∃ x y, s = x +:+ y ∧ rmatch a x ∧ rmatch b y.
Proof. split; [inversion 1; subst; eauto|intros (x & y & -> & H1 & H2); by constructor]. Qed.
Lemma rmatch_alt a b s : rmatch (RAlt a b) s ↔ rmatch a s ∨ rmatch b s.
Proof. split; [inversion 1; subst; auto|intros [H|H]; [by apply M_altl|by apply M_altr]]. Qed.

Lemma nullable_spec r : nullable r = true ↔ rmatch r "".
Proof.
  induction r as [| |f|a IHa b IHb|a IHa b IHb|a IHa]; cbn.
  - split; [done|by intros ?%rmatch_none].
  - split; [constructor|done].
  - rewrite rmatch_cls. split; [done|]. intros (c & H & _). discriminate.
  - rewrite andb_true_iff, IHa, IHb, rmatch_seq. split.
    + intros [H1 H2]. by exists "", "".
    + intros (x & y & H & H1 & H2). symmetry in H. apply app_eq_nil in H as [-> ->]. done.
  - rewrite orb_true_iff, IHa, IHb. by rewrite rmatch_alt.
  - split; [constructor|done].
Qed.

Lemma rmatch_star_cons a c s :
  rmatch (RStar a) (String c s) ↔
  ∃ x y, s = x +:+ y ∧ rmatch a (String c x) ∧ rmatch (RStar a) y.
Proof.
  split.
  - remember (RStar a) as r eqn:Hr. remember (String c s) as w eqn:Hw.
    intros H. revert c s Hw Hr.
    induction H as [| | | | |?|a' x y H1 _ H2 IH2]; intros c0 s0 Hw Hr; try discriminate.
    injection Hr as ->. destruct x as [|c' x].
    + rewrite app_nil_l in Hw. by apply IH2.
    + rewrite app_cons in Hw. injection Hw as -> <-. eauto.
  - intros (x & y & -> & H1 & H2). rewrite <-app_cons. by constructor.
Qed.

Lemma deriv_spec c r s : rmatch (deriv c r) s ↔ rmatch r (String c s).
Proof.
  revert s. induction r as [| |f|a IHa b IHb|a IHa b IHb|a IHa]; intros s; cbn.
  - split; by intros ?%rmatch_none.
  - rewrite rmatch_eps. split; [by intros ?%rmatch_none|discriminate].
  - rewrite rmatch_cls. destruct (f c) eqn:Hf.
    + rewrite rmatch_eps. split; [intros ->; eauto|by intros (c' & [= -> ->] & _)].
    + split; [by intros ?%rmatch_none|]. intros (c' & [= -> ->] & H). congruence.
  - assert (rmatch (RSeq a b) (String c s) ↔
      rmatch (RSeq (deriv c a) b) s ∨ (rmatch a "" ∧ rmatch (deriv c b) s)) as ->.
    { rewrite !rmatch_seq. split.
      - intros ([|c' x] & y & Hs & H1 & H2).
        + rewrite app_nil_l in Hs. subst. right. split; [done|]. by apply IHb.
        + rewrite app_cons in Hs. injection Hs as -> ->. left. exists x, y.
          split; [done|]. split; [by apply IHa|done].
      - intros [(x & y & -> & H1 & H2)|[H1 H2]].
        + exists (String c x), y. rewrite app_cons. split; [done|].
          split; [by apply IHa|done].
        + exists "", (String c s). split; [done|]. split; [done|by apply IHb]. }
    destruct (nullable a) eqn:Hn.
    + rewrite rmatch_alt. apply nullable_spec in Hn. tauto.
    + assert (¬ rmatch a "") by (rewrite <-nullable_spec; congruence). tauto.
  - by rewrite !rmatch_alt, IHa, IHb.
  - rewrite rmatch_star_cons, rmatch_seq. split; intros (x & y & -> & H1 & H2);
      exists x, y; (split; [done|]); (split; [by apply IHa|done]).
Qed.

Lemma rmatchb_spec r s : rmatchb r s = true ↔ rmatch r s.
Proof.
  revert r. induction s as [|c s IH]; intros r; cbn; [apply nullable_spec|].
  rewrite IH. apply deriv_spec.
Qed.

Lemma rmatch_lit l s : rmatch (RLit l) s ↔ s = l.
Proof.
  revert s. induction l as [|c l IH]; intros s; cbn; [apply rmatch_eps|].
  rewrite rmatch_seq. setoid_rewrite rmatch_cls. split.
  - intros (x & y & -> & (c' & -> & H) & H2). apply IH in H2 as ->.
    apply Ascii.eqb_eq in H as ->. done.
  - intros ->. exists (String c ""), l. split; [done|]. split; [|by apply IH].
    exists c. split; [done|]. apply Ascii.eqb_refl.
Qed.
Lemma rmatch_star_cls f s : rmatch (RStar (RCls f)) s ↔ str_forallb f s = true.
Proof.
  induction s as [|c s IH]; [split; [done|constructor]|].
  rewrite rmatch_star_cons. cbn. rewrite andb_true_iff, <-IH. split.
  - intros (x & y & -> & H1 & H2). apply rmatch_cls in H1 as (c' & [= <- ->] & Hf).
    by rewrite app_nil_l.
  - intros [Hf Hs]. exists "", s. split; [done|]. split; [by constructor|done].
Qed.
Lemma rmatch_plus_cls f s :
  rmatch (RPlus (RCls f)) s ↔ s ≠ "" ∧ str_forallb f s = true.
Proof.
  unfold RPlus. rewrite rmatch_seq. split.
  - intros (x & y & -> & H1 & H2). apply rmatch_cls in H1 as (c & -> & Hc).
    apply rmatch_star_cls in H2. rewrite app_cons, app_nil_l. cbn. by rewrite Hc.
  - intros [Hne H]. destruct s as [|c s]; [done|]. cbn in H. apply andb_true_iff in H as [Hc H].
    exists (String c ""), s. split; [done|]. split; [by constructor|by apply rmatch_star_cls].
Qed.
Lemma rmatch_opt r s : rmatch (ROpt r) s ↔ s = "" ∨ rmatch r s.
Proof. unfold ROpt. by rewrite rmatch_alt, rmatch_eps. Qed.
Lemma rmatch_rep_cls n f s :
  rmatch (RRep n (RCls f)) s ↔ slen s = n ∧ str_forallb f s = true.
Proof.
  revert s. induction n as [|n IH]; intros s; cbn.
  - rewrite rmatch_eps. split; [by intros ->|]. intros [H _]. by apply slen_zero.
  - rewrite rmatch_seq. split.
    + intros (x & y & -> & H1 & H2). apply rmatch_cls in H1 as (c & -> & Hc).
      apply IH in H2 as [<- H2]. rewrite app_cons, app_nil_l. cbn. by rewrite Hc.
    + intros [Hl H]. destruct s as [|c s]; [done|]. cbn in H.
      apply andb_true_iff in H as [Hc H]. rewrite slen_cons in Hl.
      exists (String c ""), s. split; [done|]. split; [by constructor|]. apply IH. split; [lia|done].
Qed.
