(** The signature texts of declarations as UTF-8: strconv.Quote gives valid text; the tags of a field's type are shown
    unquoted. *)
From Coq Require Import Ascii String.
From stdpp Require Import prelude strings pretty.
From Verif Require Import GoStr Document Quote PropQuote Fingerprint P_Utf8 P_QuoteGo Signature Scip Paths Proto P_Valid SpecSig.
Open Scope string_scope.
Open Scope list_scope.

(** *** strconv.Quote *)
Lemma ascii_utf8_hex k : ∀ n, ascii_text (hex_text k n).
Proof.
  induction k as [|k IH]; intros n; [done|]. cbn [hex_text]. apply ascii_app; [done|]. unfold ascii_text. cbn [str_forallb].
  rewrite andb_true_r. unfold hex_char. destruct (String.get _ _) as [c|] eqn:E; [|done].
  generalize dependent (Z.to_nat (n mod 16)). intros i E. do 16 (destruct i as [|i]; [by injection E as <-|]). done.
Qed.
Local Open Scope Z_scope.
Lemma byte_chr n : 0 <= n < 256 → byte_val (chr n) = n.
Proof. apply ord_chr. Qed.
Lemma encode_utf8 n : 0 <= n → (n < 128 ∨ scalar n) → utf8 (utf8_encode n).
Proof.
  intros H0 Hn. unfold utf8_encode. destruct (Z.ltb_spec n 128).
  { apply utf8_low; [unfold low; rewrite byte_chr; lia|done]. }
  assert (Hs : scalar n) by (destruct Hn; [lia|done]). destruct Hs as [Hs1 Hs2].
  apply utf8_chunks. match goal with |- chunks ?s => rewrite <- (GoStr.app_nil_r s) end. apply chunks_cons; [|constructor].
  destruct (Z.ltb_spec n 2048); [|destruct (Z.ltb_spec n 65536)].
  - apply chunk2; unfold cont; rewrite byte_chr by zdiv; zdiv.
  - apply chunk3; unfold cont; rewrite ?byte_chr by zdiv; zdiv.
  - apply chunk4; unfold cont; rewrite ?byte_chr by zdiv; zdiv.
Qed.
Lemma escaped_rune_utf8 u n : rune_ok n → utf8 (escaped_rune u n).
Proof.
  intros Hn. assert (H0 : 0 <= n) by (destruct Hn as [?|[? _]]; lia). unfold escaped_rune.
  destruct (_ || _)%bool eqn:E.
  { apply orb_prop in E as [->%Z.eqb_eq| ->%Z.eqb_eq]; reflexivity. }
  clear E. destruct (printable u n). { apply encode_utf8; [done|]. destruct Hn as [?|[_ ?]]; [left; lia|by right]. }
  repeat (destruct (Z.eqb _ _); [reflexivity|]). destruct (_ || _)%bool; [|destruct (Z.ltb _ _)]; (apply utf8_app; [reflexivity|]); apply utf8_ascii, ascii_utf8_hex.
Qed.
Lemma quote_body_utf8 u fuel : ∀ s, utf8 (quote_body u fuel s).
Proof.
  induction fuel as [|fuel IH]; intros s; [done|]. destruct s as [|c r]; [done|]. cbn [quote_body].
  destruct (Z.ltb_spec (ord c) 128).
  - apply utf8_app; [|done]. apply escaped_rune_utf8. left. pose proof (ord_range c). lia.
  - destruct (decode_rune (String c r)) as [[n r']|] eqn:E.
    + apply decode_rune_some in E as (H1 & H2 & _). apply utf8_app; [|done]. apply escaped_rune_utf8. by right.
    + apply (utf8_app "\x"); [done|]. apply utf8_app; [|done]. apply utf8_ascii, ascii_utf8_hex.
Qed.
Local Close Scope Z_scope.

(** *** Texts with literals *)
Fixpoint plainb (s : string) : bool := match s with "" => true | String c r => (negb (Ascii.eqb c dquote) && (Z.ltb (byte_val c) 128) && plainb r)%bool end.
Lemma plainb_ok s : plainb s = true → plain s.
Proof.
  intros H. split.
  - apply utf8_ascii. unfold ascii_text. induction s as [|c s IH]; [done|]. cbn in *. apply andb_prop in H as [[_ ->]%andb_prop H]. by apply (IH).
  - induction s as [|c s IH]; [intros i; by destruct i|]. cbn in H. apply andb_prop in H as [[H1 _]%andb_prop H]. intros [|i]; cbn; [|by apply IH].
    intros [= ->]. done.
Qed.
(** the text s consists of plain parts and literals with the values l *)
Inductive lits : string → list string → Prop :=
| lits_plain p : plain p → lits p []
| lits_lit p b v s l : plain p → utf8 b → literal_value b v → lits s l → lits (p +:+ String dquote (b +:+ String dquote s)) (v :: l).
Lemma no_quote_app a b : no_quote a → no_quote b → no_quote (a +:+ b).
Proof.
  induction a as [|c a IH]; intros Ha Hb; [by rewrite GoStr.app_nil_l|]. apply no_quote_cons in Ha as [Hc Ha].
  intros [|i] Hi; rewrite GoStr.app_cons in Hi; cbn in Hi; [by injection Hi as ->|]. by apply (IH Ha Hb i).
Qed.
Lemma plain_app a b : plain a → plain b → plain (a +:+ b).
Proof. intros [H1 H2] [H3 H4]. split; [by apply utf8_app|by apply no_quote_app]. Qed.
Lemma lits_app a l b l' : lits a l → lits b l' → lits (a +:+ b) (l ++ l').
Proof.
  induction 1 as [p Hp|p q v s l Hp Hq Hv Hs IH]; intros Hb.
  - cbn [app]. destruct Hb as [p' Hp'|p' q v s l Hp' Hq Hv Hs]; [constructor; by apply plain_app|].
    rewrite GoStr.app_assoc. constructor; [by apply plain_app|done|done|done].
  - cbn [app]. rewrite <- GoStr.app_assoc, GoStr.app_cons, <- GoStr.app_assoc, GoStr.app_cons. constructor; [done|done|done|by apply IH].
Qed.
Lemma lits_plain_app p s l : plain p → lits s l → lits (p +:+ s) l.
Proof. intros Hp Hs. exact (lits_app p [] s l (lits_plain p Hp) Hs). Qed.
Lemma lits_app_plain p s l : plain p → lits s l → lits (s +:+ p) l.
Proof. intros Hp Hs. rewrite <- (List.app_nil_r l). by apply lits_app; [|constructor]. Qed.
Lemma pretty_N_go_plain x : ∀ s, plainb s = true → plainb (pretty_N_go x s) = true.
Proof.
  induction (N.lt_wf_0 x) as [x _ IH]; intros s Hs. destruct (decide (0 < x)%N) as [Hx|Hx].
  - rewrite pretty_N_go_step by done. apply IH; [apply N.div_lt; lia|]. cbn [plainb]. rewrite Hs.
    unfold pretty_N_char. destruct (x `mod` 10)%N as [|p]; [done|]. repeat (destruct p as [p|p|]; try done).
  - replace x with 0%N by lia. done.
Qed.
Lemma Z_plain z : plain (show_Z z).
Proof.
  assert (HN : ∀ x : N, plainb (pretty x) = true). { intros x. unfold pretty, pretty_N. destruct (decide _); [done|]. by apply pretty_N_go_plain. }
  apply plainb_ok. unfold show_Z, pretty, pretty_Z. destruct z as [|p|p]; [done|apply HN|]. rewrite GoStr.app_cons, GoStr.app_nil_l. cbn [plainb]. apply HN.
Qed.
Lemma lits_quote u v : lits (quote u v) [v].
Proof.
  unfold quote. change (String dquote (?b +:+ ?s)) with ("" +:+ String dquote (b +:+ s)).
  apply lits_lit; [by apply plainb_ok|apply quote_body_utf8|apply quote_body_value; lia|]. constructor. by apply plainb_ok.
Qed.
Lemma lits_concat {A} sep (f : A → string) (g : A → list string) l : plain sep → Forall (λ x, lits (f x) (g x)) l →
  lits (String.concat sep (map f l)) (List.concat (map g l)).
Proof.
  intros Hsep. induction 1 as [|x l Hx Hl IH]; [by constructor; apply plainb_ok|]. cbn [map List.concat].
  destruct l as [|y l]; [cbn; by rewrite List.app_nil_r|].
  change (String.concat sep (f x :: map f (y :: l))) with (f x +:+ (sep +:+ String.concat sep (map f (y :: l)))).
  apply lits_app; [done|]. by apply lits_plain_app.
Qed.
Lemma lits_utf8 s l : lits s l → utf8 s.
Proof.
  induction 1 as [p [Hp _]|p b v s l [Hp _] Hb Hv Hs IH]; [done|]. apply utf8_app; [done|]. apply utf8_low; [done|]. apply utf8_app; [done|]. by apply utf8_low.
Qed.
Lemma lits_segs s l : lits s l → ∃ segs tail, s = text (map fst segs) tail ∧ l = map snd segs ∧
  Forall (λ x : string * string * string, plain x.1.1 ∧ literal_value x.1.2 x.2) segs ∧ plain tail.
Proof.
  induction 1 as [p Hp|p b v s l Hp Hb Hv Hs (segs & tail & -> & -> & H1 & H2)]; [by exists [], p|].
  exists ((p, b, v) :: segs), tail. split; [done|]. split; [done|]. split; [|done]. by constructor.
Qed.
Lemma utf8_app_low c a b : low c → utf8 (a +:+ String c b) ↔ utf8 a ∧ utf8 b.
Proof. intros Hc. split; [by apply utf8_split|]. intros [Ha Hb]. apply utf8_app; [done|]. by apply utf8_low. Qed.
Lemma utf8_cons_low c b : low c → utf8 (String c b) ↔ utf8 b.
Proof. intros Hc. split; [by apply utf8_tl|by apply utf8_low]. Qed.
Lemma lits_backtick s l : lits s l → utf8 (quoted_tags_to_backtick unquote s) ↔ Forall (λ v, utf8 v) l.
Proof.
  intros (segs & tail & -> & -> & Hs & Ht)%lits_segs. rewrite C51_tags_in_backticks; [| |apply Ht].
  2: { eapply Forall_impl; [exact Hs|]. intros x [[_ H1] H2]. done. }
  rewrite Forall_map. induction Hs as [|[[p b] v] segs [[Hp _] _] _ IH]; cbn [map with_backticks fst snd] in *.
  { split; [by constructor|]. intros _. apply Ht. }
  rewrite Forall_cons, utf8_app_low, utf8_app_low, IH by done. cbn [snd]. tauto.
Qed.

(** *** The printer *)
Section Write.
  Context (u : unicode) (qf : hpkg → string).
  Notation w := (write (quote u) qf).
  Hypothesis Hqf : ∀ p, plain (hp_path p) → plain (hp_name p) → plain (qf p).

  Ltac pl := first [assumption | by apply plainb_ok].
  Ltac pre := apply lits_plain_app; [pl|].
  Ltac post := apply lits_app_plain; [pl|].

  Lemma prefix_plain p : Forall plain (pkg_texts p) → plain (prefix_of qf p).
  Proof.
    intros H. destruct p as [p|]; [|pl]. cbn [prefix_of]. destruct (String.eqb _ _); [pl|].
    apply plain_app; [|pl]. cbn [pkg_texts] in H. apply Forall_cons in H as [H1 [H2 _]%Forall_cons]. by apply Hqf.
  Qed.
  Lemma names_plain l : Forall plain l → plain (String.concat ", " l).
  Proof.
    induction 1 as [|x l Hx Hl IH]; [pl|]. destruct l as [|y l]; [done|].
    change (String.concat ", " (x :: y :: l)) with (x +:+ (", " +:+ String.concat ", " (y :: l))).
    apply plain_app; [done|]. apply plain_app; [pl|done].
  Qed.
  Lemma label_plain n : plain n → plain (label n).
  Proof. intros H. unfold label. destruct (String.eqb _ _); [pl|]. apply plain_app; [done|pl]. Qed.
  Lemma Forall_cat {A B} (P : B → Prop) (f : A → list B) l : Forall P (List.concat (map f l)) → Forall (λ x, Forall P (f x)) l.
  Proof. induction l as [|x l IH]; [constructor|]. cbn [map List.concat]. intros [H1 H2]%Forall_app. constructor; [done|by apply IH]. Qed.

  Lemma tparams_lits tps : Forall plain (group_texts tps) → Forall (λ g, Forall plain (texts g.2) → ∀ b, lits (w b g.2) (tags g.2)) tps →
    lits (String.concat ", " (map (λ p : list string * hty, String.concat ", " p.1 +:+ " " +:+ w false p.2) tps)) (List.concat (map (λ g : list string * hty, tags g.2) tps)).
  Proof.
    intros H1 H2. apply lits_concat; [apply plainb_ok; reflexivity|]. apply Forall_forall. intros g Hg. apply Forall_cat in H1.
    destruct (proj1 (Forall_app _ _ _) (proj1 (Forall_forall _ _) H1 g Hg)) as [X1 X2].
    apply lits_plain_app; [by apply names_plain|]. pre. by apply (proj1 (Forall_forall _ _) H2 g Hg).
  Qed.
  Lemma write_lits0 t : Forall plain (texts t) → (∀ b, lits (w b t) (tags t)) ∧ ∀ e, t = HSlice e → lits (w false e) (tags e).
  Proof.
    induction t as [n|n l tps Hl Ht|t IH|t IH|n t IH|k v IHk IHv|d t IH|l Hl|tps ps rs v Ht Hp Hr|i ms es Hm He| | |n|l Hl] using hty_ind'; intros Hpl; (split; [intros b|try done]);
      cbn [write tags texts] in *.
    - apply Forall_cons in Hpl as [Hn _]. destruct (String.eqb n "Pointer"); [|by constructor]. constructor. unfold write_name. apply plain_app; [|done].
      apply prefix_plain. cbn [hn_pkg pkg_texts hp_path hp_name unsafe_pkg]. constructor; [pl|]. constructor; [pl|constructor].
    - apply Forall_cons in Hpl as [Hn [Hpk [Ha Htp]%Forall_app]%Forall_app]. apply lits_plain_app; [apply plain_app; [by apply prefix_plain|done]|].
      destruct l as [|x l].
      + destruct tps as [|y tps]; [constructor; pl|]. pre. post. apply tparams_lits; [done|]. eapply Forall_impl; [exact Ht|]. intros x Hx H. exact (proj1 (Hx H)).
      + pre. post. apply lits_concat; [pl|]. apply Forall_cat in Ha. apply Forall_forall. intros g Hg.
        exact (proj1 (proj1 (Forall_forall _ _) Hl g Hg (proj1 (Forall_forall _ _) Ha g Hg)) false).
    - pre. exact (proj1 (IH Hpl) _).
    - pre. exact (proj1 (IH Hpl) _).
    - intros e [= <-]. exact (proj1 (IH Hpl) _).
    - pre. apply lits_plain_app; [|pre; exact (proj1 (IH Hpl) _)]. apply Z_plain.
    - apply Forall_app in Hpl as [H1 H2]. pre. apply lits_app; [exact (proj1 (IHk H1) _)|]. pre. exact (proj1 (IHv H2) _).
    - destruct d as [|[|d]]; [destruct (is_recv_chan t)|..]; pre; try post; exact (proj1 (IH Hpl) _).
    - pre. post. apply lits_concat; [pl|]. apply Forall_cat in Hpl. apply Forall_forall. intros [[[n e] tag] t] Hf.
      pose proof (proj1 (Forall_forall _ _) Hpl _ Hf) as Hx. cbn [fst snd] in *. apply Forall_cons in Hx as [H1 H2].
      destruct (proj1 (Forall_forall _ _) Hl _ Hf H2) as [Ht _]. cbn [snd] in Ht.
      apply lits_plain_app; [destruct e; [pl|apply plain_app; pl]|]. apply lits_app; [done|].
      destruct (String.eqb tag ""); [constructor; pl|]. pre. apply lits_quote.
    - apply Forall_app in Hpl as [H1 [H2 H3]%Forall_app].
      apply lits_plain_app; [destruct b; pl|]. apply lits_app.
      + destruct tps as [|y tps]; [constructor; pl|]. pre. post. apply tparams_lits; [done|]. eapply Forall_impl; [exact Ht|]. intros x Hx H. exact (proj1 (Hx H)).
      + pre. apply lits_app.
        * clear H1 H3 Ht Hr rs tps b. apply Forall_cat in H2. induction Hp as [|p ps Hp Hps IH]; [constructor; pl|].
          apply Forall_cons in H2 as [[Hn Hty]%Forall_cons H2].
          assert (Hx : lits (label p.1 +:+ (if (v && match ps with [] => true | _ => false end)%bool
                  then match p.2 with HSlice e => "..." +:+ w false e | _ => w false p.2 +:+ "..." end else w false p.2)) (tags p.2)).
          { apply lits_plain_app; [by apply label_plain|]. destruct (_ && _)%bool; [|exact (proj1 (Hp Hty) _)].
            destruct (Hp Hty) as [Hw He]. specialize (Hw false). destruct p.2 as [| | |e| | | | | | | | | |] eqn:Ep; try (post; exact Hw).
            pre. exact (He e eq_refl). }
          specialize (IH H2).
          destruct ps as [|p' ps]; [cbn [map List.concat]; rewrite List.app_nil_r; exact Hx|]. cbn [map List.concat].
          match goal with |- lits (String.concat ?s (?x :: ?y :: ?l)) _ => change (String.concat s (x :: y :: l)) with (x +:+ (s +:+ String.concat s (y :: l))) end.
          apply lits_app; [exact Hx|]. pre. exact IH.
        * pre. destruct rs as [|r rs]; [constructor; pl|]. apply Forall_cat in H3. destruct (_ && _)%bool eqn:E.
          { apply andb_prop in E as [_ E]. destruct rs; [|done]. cbn [map List.concat]. rewrite List.app_nil_r. pre.
            apply Forall_cons in Hr as [Hr _]. apply Forall_cons in H3 as [[_ H3]%Forall_cons _]. exact (proj1 (Hr H3) _). }
          pre. post. apply lits_concat; [pl|]. apply Forall_forall. intros q Hq. pose proof (proj1 (Forall_forall _ _) H3 q Hq) as [Hn Hty]%Forall_cons.
          apply lits_plain_app; [by apply label_plain|]. exact (proj1 (proj1 (Forall_forall _ _) Hr q Hq Hty) false).
    - apply Forall_app in Hpl as [H1 H2]. apply Forall_cat in H1, H2.
      assert (Hm' : Forall (λ m : string * hty, lits (m.1 +:+ w true m.2) (tags m.2)) ms).
      { apply Forall_forall. intros q Hq. pose proof (proj1 (Forall_forall _ _) H1 q Hq) as [Hn Hty]%Forall_cons. apply lits_plain_app; [done|]. exact (proj1 (proj1 (Forall_forall _ _) Hm q Hq Hty) true). }
      assert (He' : Forall (λ e, lits (w false e) (tags e)) es).
      { apply Forall_forall. intros q Hq. pose proof (proj1 (Forall_forall _ _) H2 q Hq) as Hty. exact (proj1 (proj1 (Forall_forall _ _) He q Hq Hty) false). }
      assert (X : lits ("interface{" +:+ String.concat "; " (map (λ m : string * hty, m.1 +:+ w true m.2) ms ++ map (w false) es) +:+ "}")
        (List.concat (map (λ p : string * hty, tags p.2) ms) ++ List.concat (map tags es))).
      { pre. post. rewrite <- List.concat_app. 
        set (f := λ x : string * hty + hty, match x with inl m => m.1 +:+ w true m.2 | inr e => w false e end).
        set (g := λ x : string * hty + hty, match x with inl m => tags m.2 | inr e => tags e end).
        assert (E1 : map (λ m : string * hty, m.1 +:+ w true m.2) ms ++ map (w false) es = map f (map inl ms ++ map inr es)) by (by rewrite List.map_app, !List.map_map).
        assert (E2 : map (λ p : string * hty, tags p.2) ms ++ map tags es = map g (map inl ms ++ map inr es)) by (by rewrite List.map_app, !List.map_map).
        rewrite E1, E2. apply lits_concat; [pl|]. apply Forall_app. split; by apply Forall_map. }
      destruct i; [|exact X]. destruct ms as [|m ms]; [destruct es as [|e [|e' es]]|]; [pre; exact X| |pre; exact X|pre; exact X].
      cbn [map List.concat app]. rewrite List.app_nil_r. by apply Forall_cons in He' as [He' _].
    - constructor; pl.
    - constructor; pl.
    - apply Forall_cons in Hpl as [Hn _]. by constructor.
    - apply Forall_cat in Hpl. apply lits_concat; [pl|]. apply Forall_forall. intros x Hx. apply lits_plain_app; [destruct x.1; pl|].
      exact (proj1 (proj1 (Forall_forall _ _) Hl x Hx (proj1 (Forall_forall _ _) Hpl x Hx)) false).
  Qed.
  Lemma write_lits t : Forall plain (texts t) → ∀ b, lits (w b t) (tags t).
  Proof. intros H. exact (proj1 (write_lits0 t H)). Qed.
  Lemma tparam_list_lits tps : Forall plain (group_texts tps) → lits (tparam_list (quote u) qf tps) (List.concat (map (λ g : list string * hty, tags g.2) tps)).
  Proof.
    intros H. unfold tparam_list. destruct tps as [|g tps]; [constructor; pl|]. pre. post. apply tparams_lits; [done|].
    apply Forall_forall. intros x _ Hx. by apply write_lits.
  Qed.
End Write.

(** *** Objects *)
Ltac pl := first [assumption | by apply plainb_ok].
Ltac pre := apply lits_plain_app; [pl|].
Ltac post := apply lits_app_plain; [pl|].
Lemma relative_plain pkg p : plain (hp_path p) → plain (hp_name p) → plain (relative_qualifier pkg p).
Proof. intros H1 H2. unfold relative_qualifier. by destruct (decide _); [apply plainb_ok|]. Qed.
Section Objects.
  Context (u : unicode) (qf : hpkg → string).
  Hypothesis Hqf : ∀ p, plain (hp_path p) → plain (hp_name p) → plain (qf p).
  Lemma object_string_lits o : Forall plain (object_texts o) → ∃ l, lits (object_string (quote u) qf o) l ∧ (∀ t b, ho_kind o = HVar b t → l = tags t).
  Proof.
    intros H. unfold object_texts in H. apply Forall_cons in H as [Hn [Hp Hk]%Forall_app].
    assert (Hname : plain ((if ho_top o then prefix_of qf (ho_pkg o) else "") +:+ ho_name o)).
    { apply plain_app; [|done]. destruct (ho_top o); [by apply prefix_plain|by apply plainb_ok]. }
    unfold object_string, type_string. destruct (ho_kind o) as [path|t v|d|[] t|r sig| | |].
    - destruct (_ || _)%bool; eexists; (split; [|done]); pre; pre.
      + constructor. pl.
      + pre. post. apply lits_quote.
    - eexists. split; [|done]. do 3 pre. by apply (write_lits _ _ Hqf).
    - destruct d as [tps t|t|tps t|b t]; eexists; (split; [|done]).
      + apply Forall_app in Hk as [H1 H2]. do 2 pre. eapply lits_app; [by apply (tparam_list_lits _ _ Hqf)|]. pre. by apply (write_lits _ _ Hqf).
      + do 3 pre. by apply (write_lits _ _ Hqf).
      + apply Forall_app in Hk as [H1 H2]. do 2 pre. eapply lits_app; [by apply (tparam_list_lits _ _ Hqf)|]. pre. by apply (write_lits _ _ Hqf).
      + apply Forall_app in Hk as [H1 H2]. do 3 pre. by apply (write_lits _ _ Hqf).
    - exists (tags t). split; [|intros t' b [= _ ->]; done]. do 3 pre. by apply (write_lits _ _ Hqf).
    - exists (tags t). split; [|intros t' b [= _ ->]; done]. do 3 pre. by apply (write_lits _ _ Hqf).
    - apply Forall_app in Hk as [H1 H2]. destruct r as [r|]; eexists; (split; [|done]); pre.
      + eapply lits_app; [|pre; by apply (write_lits _ _ Hqf)]. pre. post.
        instantiate (1 := match r with HInterface _ _ _ | HAny | HComparable => [] | _ => tags r end).
        pose proof (write_lits u qf Hqf r H1 false) as Hw. destruct r; first [exact Hw|constructor; pl].
      + apply lits_plain_app; [by apply prefix_plain|]. pre. by apply (write_lits _ _ Hqf).
    - eexists. split; [|done]. pre. by constructor.
    - eexists. split; [|done]. pre. by constructor.
    - eexists. split; [|done]. constructor. pl.
  Qed.
End Objects.

Lemma utf8_expand_tabs s : utf8 s → utf8 (expand_tabs s).
Proof.
  rewrite !utf8_chunks. induction 1 as [|a s Ha Hs IH]; [constructor|].
  assert (X : ∀ c r, c ≠ tab → expand_tabs (String c r) = String c (expand_tabs r)) by (intros c r Hc; cbn; by rewrite (proj2 (Ascii.eqb_neq _ _) Hc)).
  assert (Y : ∀ c, (128 <= byte_val c)%Z → c ≠ tab) by (intros c Hc ->; vm_compute in Hc; by apply Hc).
  destruct Ha as [c Hc|c d Hc Hd|c d e Hc Hd He H1 H2|c d e f Hc Hd He Hf H1 H2]; unfold cont in *; rewrite !GoStr.app_cons, GoStr.app_nil_l.
  - cbn [expand_tabs]. destruct (Ascii.eqb c tab).
    + apply chunks_app; [|done]. apply utf8_chunks. done.
    + apply (chunks_cons (String c "")); [by apply chunk1|done].
  - rewrite !X by (apply Y; lia). apply (chunks_cons (String c (String d ""))); [by apply chunk2|done].
  - rewrite !X by (apply Y; lia). apply (chunks_cons (String c (String d (String e "")))); [by apply chunk3|done].
  - rewrite !X by (apply Y; lia). apply (chunks_cons (String c (String d (String e (String f ""))))); [by apply chunk4|done].
Qed.
Lemma utf8_trim_prefix s p : ascii_text p → utf8 s → utf8 (trim_prefix s p).
Proof.
  intros Hp Hs. unfold trim_prefix. destruct (has_prefix s p) eqn:E; [|done]. apply has_prefix_spec in E as [r ->]. rewrite str_drop_app by done.
  revert Hp Hs. unfold ascii_text. induction p as [|c p IH]; [by rewrite GoStr.app_nil_l|]. cbn [str_forallb]. intros [Hc Hp]%andb_prop Hs. rewrite GoStr.app_cons in Hs.
  apply IH; [done|]. eapply utf8_tl; [|exact Hs]. unfold low. lia.
Qed.
Lemma format_go_decl_utf8 gofmt s r : gofmt_text gofmt → utf8 s → format_go_decl gofmt s = Some r → utf8 r.
Proof.
  intros Hg Hs H. unfold format_go_decl in H. apply fmap_Some in H as (f & Hf & ->). apply Hg in Hf.
  - apply utf8_expand_tabs, utf8_trim_space, utf8_trim_prefix; done.
  - apply utf8_app; [done|]. apply utf8_app; [done|]. apply utf8_app; [done|]. apply utf8_app; [done|]. done.
Qed.
Lemma expand_type_utf8 u gofmt pkg t : gofmt_text gofmt → Forall plain (texts t) → utf8 (expand_type_expr (quote u) gofmt pkg t).
Proof.
  intros Hg Ht. assert (Hw : utf8 (type_string (quote u) (relative_qualifier pkg) t)).
  { eapply lits_utf8. apply write_lits; [apply relative_plain|done]. }
  assert (X : utf8 match format_go_decl gofmt ("type _ " +:+ type_string (quote u) (relative_qualifier pkg) t) with
        | Some formatted => trim_prefix formatted "type _ " | None => type_string (quote u) (relative_qualifier pkg) t end).
  { destruct (format_go_decl _ _) as [f|] eqn:E; [|done]. apply utf8_trim_prefix; [done|]. eapply format_go_decl_utf8; [done| |exact E]. by apply utf8_app. }
  unfold expand_type_expr. destruct t; first [exact Hw|exact X].
Qed.
Lemma param_list_utf8 u tps : Forall plain (group_texts tps) → utf8 (format_type_param_list (quote u) tps).
Proof.
  intros H. unfold format_type_param_list. destruct tps as [|g tps]; [done|].
  apply utf8_app; [done|]. apply utf8_app; [|done].
  assert (J : ∀ l, Forall (λ x, utf8 x) l → utf8 (String.concat ", " l)).
  { induction 1 as [|x l Hx Hl IH]; [done|]. destruct l as [|y l]; [done|].
    change (String.concat ", " (x :: y :: l)) with (x +:+ (", " +:+ String.concat ", " (y :: l))). apply utf8_app; [done|]. by apply utf8_app. }
  apply J. apply Forall_cat in H. apply Forall_forall. intros s Hs. apply elem_of_list_In, in_concat in Hs as (l & Hl & Hs).
  apply in_map_iff in Hl as (g' & <- & Hg'). apply in_map_iff in Hs as (n & <- & Hn). apply elem_of_list_In in Hg', Hn.
  pose proof (proj1 (Forall_forall _ _) H g' Hg') as [H1 H2]%Forall_app. apply utf8_app; [apply (proj1 (Forall_forall _ _) H1 n Hn)|]. apply utf8_app; [done|].
  eapply lits_utf8. apply write_lits; done.
Qed.
Lemma alias_utf8 u gofmt pkg n tps t : gofmt_text gofmt → plain n → Forall plain (group_texts tps) → Forall plain (texts t) →
  utf8 (format_alias_declaration (quote u) gofmt pkg n tps t).
Proof.
  intros Hg Hn H1 H2.
  assert (X : ∀ s, utf8 s → utf8 ("type " +:+ (n +:+ format_type_param_list (quote u) tps) +:+ " = " +:+ s)).
  { intros s Hs. apply utf8_app; [done|]. apply utf8_app; [apply utf8_app; [apply Hn|by apply param_list_utf8]|]. by apply utf8_app. }
  unfold format_alias_declaration.
  destruct t; apply X; try (by apply expand_type_utf8). eapply lits_utf8. apply write_lits; [apply relative_plain|done].
Qed.
Theorem signature_utf8 u gofmt o : gofmt_text gofmt → object_plain o →
  (utf8 (type_string_for_object (quote u) unquote gofmt o) ↔ Forall (λ tag, utf8 tag) (field_tags o)) ∧ utf8 (local_signature (quote u) o).
Proof.
  intros Hg [Ho Hc].
  destruct (object_string_lits u (relative_qualifier (ho_pkg o)) (relative_plain _) o Ho) as (l & Hl & El).
  destruct (object_string_lits u (λ _, "") (λ _ _ _, proj2 (conj I (plainb_ok "" eq_refl))) o Ho) as (l' & Hl' & _).
  pose proof (lits_utf8 _ _ Hl) as Hu. pose proof (lits_utf8 _ _ Hl') as Hu'.
  unfold object_texts in Ho. apply Forall_cons in Ho as [[Hn Hq] [Hp Hk]%Forall_app].
  assert (T : ∀ s, utf8 s → (utf8 s ↔ Forall (λ tag, utf8 tag) [])) by (intros; split; [constructor|done]).
  unfold type_string_for_object, field_tags, local_signature. destruct (ho_kind o) as [path|t v|d|[] t|r sig| | |] eqn:Ek; (split; [|try exact Hu']).
  - apply T. by apply utf8_app.
  - apply Forall_cons in Hk as [[Hpath _] _]. apply utf8_app; [done|]. apply utf8_app; [done|]. by apply utf8_app.
  - apply T. apply utf8_app; [done|]. apply utf8_app; [done|]. by eapply Hc.
  - apply T. unfold format_type_declaration. destruct d as [tps t|t|tps t|b t].
    + apply Forall_app in Hk as [H1 H2]. by apply alias_utf8.
    + apply utf8_app; [done|]. apply utf8_app; [done|]. apply utf8_app; [done|]. by apply expand_type_utf8.
    + apply Forall_app in Hk as [H1 H2]. apply utf8_app; [done|]. apply utf8_app; [done|]. apply utf8_app; [done|]. by apply expand_type_utf8.
    + apply Forall_app in Hk as [H1 H2]. apply utf8_app; [done|]. apply utf8_app; [done|]. apply utf8_app; [done|]. by apply expand_type_utf8.
  - rewrite <- (El t true eq_refl). rewrite <- (lits_backtick _ _ Hl). split; [|by apply utf8_app].
    intros H. apply (utf8_trim_prefix _ "struct ") in H; [|done]. by rewrite trim_prefix_app in H.
  - by apply T.
  - by apply T.
  - by apply T.
  - by apply T.
  - by apply T.
Qed.
