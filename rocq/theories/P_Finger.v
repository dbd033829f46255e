(** Lemmas about fingerprints *)
From Coq Require Import Ascii String Decimal DecimalString DecimalN.
From stdpp Require Import prelude strings.
From Verif Require Import GoStr Scip GoTypes Quote PropQuote Fingerprint SpecTypes.
Open Scope string_scope.
Open Scope list_scope.

(** *** Printing with explicit helpers *)
Section Print.
  Context (u : unicode).
  Notation print := (print u).
  Fixpoint print_args (l : list ty) : string := match l with [] => "" | t :: l => " " +:+ print t +:+ print_args l end.
  Fixpoint print_fields (fs : list (fhdr * ty)) : string :=
    match fs with
    | [] => ""
    | (f, t) :: fs => " " +:+ print_field_name u f +:+ " " +:+ format_bool (fh_embedded f) +:+ " " +:+ quote u (fh_tag f) +:+ " "
                      +:+ print t +:+ print_fields fs
    end.
  Lemma print_named tn t l : print (TNamed tn (t :: l)) = "(inst " +:+ print_tname u tn +:+ print_args (t :: l) +:+ ")".
  Proof. reflexivity. Qed.
  Lemma print_tuple l : print (TTuple l) = "(tuple" +:+ print_args l +:+ ")".
  Proof. reflexivity. Qed.
  Lemma print_sig ps rs v : print (TSig ps rs v) =
    "(func " +:+ "(tuple" +:+ print_args ps +:+ ")" +:+ (if v then " v" else "") +:+ " " +:+ "(tuple" +:+ print_args rs +:+ ")" +:+ ")".
  Proof. reflexivity. Qed.
  Lemma print_struct fs : print (TStruct fs) = "(struct" +:+ print_fields fs +:+ ")".
  Proof. reflexivity. Qed.

  Lemma print_unalias t : print (unalias t) = print t.
  Proof. induction t; try done. Qed.
  Lemma tricky_unalias t : tricky (unalias t) = tricky t.
  Proof. induction t; try done. Qed.
  Lemma panics_unalias t : encode_panics (unalias t) = encode_panics t.
  Proof. induction t; try done. Qed.
  Lemma encode_unalias t : encode u (unalias t) = encode u t.
  Proof. unfold encode. by rewrite print_unalias, tricky_unalias, panics_unalias. Qed.
  Lemma identical_alias_l n t r : identical (TAlias n t) r → identical t r.
  Proof. intros H. inversion H; subst;
    [eapply id_basic|eapply id_named|eapply id_pointer|eapply id_slice|eapply id_array|eapply id_map|eapply id_chan|eapply id_tuple
    |eapply id_sig|eapply id_struct|eapply id_interface|eapply id_typeparam|eapply id_union]; eauto.
  Qed.

  Definition same_code (t r : ty) : Prop := print t = print r ∧ tricky t = tricky r ∧ encode_panics t = encode_panics r.
  Lemma same_code_args l : ∀ l', Forall (λ t, ∀ r, identical t r → same_code t r) l → Forall2 identical l l' →
    print_args l = print_args l' ∧ existsb tricky l = existsb tricky l' ∧ existsb encode_panics l = existsb encode_panics l'.
  Proof.
    induction l as [|t l IH]; intros l' Hl H2; inversion H2 as [|? y ? l'' Hy Hrest]; subst; [done|]. inversion Hl as [|? ? Ht Hl']; subst.
    destruct (IH l'') as (E1 & E2 & E3); [done..|]. cbn [print_args existsb]. rewrite E1, E2, E3.
    destruct (Ht y) as (-> & -> & ->); done.
  Qed.
  Lemma same_code_fields fs : ∀ fs', Forall (λ f, ∀ r, identical f.2 r → same_code f.2 r) fs →
    Forall2 same_field (map fst fs) (map fst fs') → Forall2 identical (map snd fs) (map snd fs') →
    print_fields fs = print_fields fs' ∧ tricky (TStruct fs) = tricky (TStruct fs') ∧
    encode_panics (TStruct fs) = encode_panics (TStruct fs').
  Proof.
    induction fs as [|[f t] fs IH]; intros [|[f' t'] fs'] Hl H1 H2; cbn in H1, H2; inversion H1; inversion H2; subst; [done|].
    inversion Hl as [|? ? Ht Hl']; subst.
    destruct (IH fs') as (E1 & E2 & E3); [done..|]. cbn [tricky encode_panics] in E2, E3. cbn [print_fields tricky encode_panics existsb fst snd].
    rewrite E1, E2, E3. cbn in Ht. destruct (Ht t') as (-> & -> & ->); [done|].
    match goal with H : same_field f f' |- _ => destruct H as (En & Ep & Ee & Et) end.
    unfold print_field_name. rewrite Ee, Et, <- En. destruct (is_exported (fh_name f)) eqn:Ex; [done|]. by rewrite (Ep eq_refl).
  Qed.
  Lemma identical_same_code t : ∀ r, identical t r → same_code t r.
  Proof.
    induction t as [k a|tn l IH|tn t IH|t IH|t IH|n t IH|k v IHk IHv|d t IH|l IH|ps rs v IHp IHr|fs IH|ms s IH|tn i|l IH] using ty_ind';
      intros r H.
    3: { destruct (IH r) as (E1 & E2 & E3); [by eapply identical_alias_l|]. split; [|split]; done. }
    all: inversion H as [? ? ? ? ? E1 E2|? ? ? ? ? E1 E2 Hl|? ? ? ? E1 E2 Ha|? ? ? ? E1 E2 Ha|? ? ? ? ? E1 E2 Ha
      |? ? ? ? ? ? E1 E2 Ha Hb|? ? ? ? ? E1 E2 Ha|? ? ? ? E1 E2 Ha|? ? ? ? ? ? ? E1 E2 Ha Hb|? ? ? ? E1 E2 Ha Hb
      |? ? ? ? ? E1 E2 Ha Hb|? ? ? ? E1 E2|? ? ? ? E1 E2 Ha Hb]; subst; cbn in E1; try done; injection E1; intros; subst;
      unfold same_code; rewrite <- (print_unalias r), <- (tricky_unalias r), <- (panics_unalias r), E2.
    - done.
    - destruct (same_code_args _ _ IH Hl) as (X1 & X2 & X3). cbn [tricky encode_panics]. rewrite X2, X3.
      inversion Hl; subst; [done|]. by rewrite !print_named, X1.
    - destruct (IH b Ha) as (X1 & X2 & X3). cbn. by rewrite X1, X2, X3.
    - destruct (IH b Ha) as (X1 & X2 & X3). cbn. by rewrite X1, X2, X3.
    - destruct (IH b Ha) as (X1 & X2 & X3). cbn. by rewrite X1, X2, X3.
    - destruct (IHk _ Ha) as (X1 & X2 & X3), (IHv _ Hb) as (Y1 & Y2 & Y3). cbn. by rewrite X1, X2, X3, Y1, Y2, Y3.
    - destruct (IH b Ha) as (X1 & X2 & X3). cbn. by rewrite X1, X2, X3.
    - destruct (same_code_args _ _ IH Ha) as (X1 & X2 & X3). cbn [tricky encode_panics]. by rewrite !print_tuple, X1, X2, X3.
    - destruct (same_code_args _ _ IHp Ha) as (X1 & X2 & X3), (same_code_args _ _ IHr Hb) as (Y1 & Y2 & Y3).
      cbn [tricky encode_panics]. by rewrite !print_sig, X1, X2, X3, Y1, Y2, Y3.
    - destruct (same_code_fields _ _ IH Ha Hb) as (X1 & X2 & X3). by rewrite !print_struct, X1, X2, X3.
    - match goal with H : map fst ?a = map fst ?b |- _ => destruct a, b; done end.
    - done.
    - done.
  Qed.
End Print.
