(** C30, C31, C37: fingerprints of types *)
From Coq Require Import Ascii String.
From stdpp Require Import prelude strings.
From Verif Require Import GoStr Scip GoTypes Quote Fingerprint SpecTypes P_Utf8 P_QuoteGo P_Finger P_Parse P_Match.
Open Scope string_scope.
Open Scope list_scope.
Local Open Scope Z_scope.

(** C30: identical types have the same fingerprint, the same flag, and fail alike. *)
Theorem C30_identical_types : ∀ u t r, identical t r → encode u t = encode u r.
Proof.
  intros u t r H. destruct (identical_same_code u t r H) as (E1 & E2 & E3). unfold encode. by rewrite E1, E2, E3.
Qed.
Print Assumptions C30_identical_types.

Lemma existsb_false_Forall {A} (f : A → bool) l : Forall (λ x, f x = false) l → existsb f l = false.
Proof. induction 1 as [|x l H _ IH]; [done|]. cbn. by rewrite H, IH. Qed.
Lemma type_ok_encodes u t : type_ok u t → encode_panics t = false.
Proof.
  induction t as [k a|tn l IH|tn t IH|t IH|t IH|n t IH|k v IHk IHv|d t IH|l IH|ps rs v IHp IHr|fs IH|ms s IH|tn i|l IH] using ty_ind';
    intros Hok; inversion Hok; subst; try done; cbn [encode_panics]; auto.
  - rewrite (existsb_false_Forall encode_panics l).
    + unfold name_ok in *. destruct (tn_pkg tn); [done|]. by destruct H1 as [-> | ->].
    + rewrite Forall_forall in *. eauto.
  - by rewrite IHk, IHv.
  - apply existsb_false_Forall. rewrite Forall_forall in *. eauto.
  - rewrite !existsb_false_Forall; [done| |]; rewrite Forall_forall in *; eauto.
  - inversion Hok as [| | | | | | | | | |? F1 F2| |]; subst. pose proof (proj1 (Forall_forall _ _) F1) as G1. pose proof (proj1 (Forall_forall _ _) F2) as G2.
    apply existsb_false_Forall. rewrite Forall_forall in IH. rewrite Forall_forall. intros [f t] Hf. cbn.
    apply orb_false_iff. split.
    + destruct (is_exported (fh_name f)) eqn:E; [done|]. cbn. destruct (G1 f) as [_ Hp]; [apply elem_of_list_fmap; by exists (f, t)|].
      by destruct (Hp E) as [p ->].
    + apply (IH (f, t) Hf). apply (G2 t). apply elem_of_list_fmap. by exists (f, t).
Qed.

(** *** The text of a tree *)
Section Write.
  Context (u : unicode).
  Fixpoint write_items (l : list sexpr) : string := match l with [] => "" | x :: l => " " +:+ write_sexpr u x +:+ write_items l end.
  Lemma write_slist x l : write_sexpr u (slist (x :: l)) = "(" +:+ write_sexpr u x +:+ write_items l +:+ ")".
  Proof.
    cbn [slist write_sexpr]. do 2 f_equal. f_equal. induction l as [|y l IH]; [done|]. cbn [slist write_items]. by rewrite <- IH.
  Qed.
  Lemma write_items_app l r : write_items (l ++ r) = write_items l +:+ write_items r.
  Proof. induction l as [|x l IH]; [done|]. cbn [app write_items]. rewrite IH. by rewrite !GoStr.app_assoc. Qed.
  Lemma write_name tn : write_sexpr u (name_tree tn) = print_tname u tn.
  Proof. unfold name_tree, print_tname. destruct (tn_pkg tn); [|done]. unfold qual. rewrite write_slist. cbn [write_items write_sexpr]. by rewrite !GoStr.app_assoc, !GoStr.app_nil_r. Qed.
  Lemma write_field_name f : write_sexpr u (field_name_tree f) = print_field_name u f.
  Proof.
    unfold field_name_tree, print_field_name. destruct (is_exported _); [done|]. unfold qual. rewrite write_slist. cbn [write_items write_sexpr].
    by rewrite !GoStr.app_assoc, !GoStr.app_nil_r.
  Qed.
  Lemma write_args l : Forall (λ t, encode_panics t = false → write_sexpr u (tree t) = print u t) l → existsb encode_panics l = false →
    write_items (map tree l) = print_args u l.
  Proof.
    induction 1 as [|t l Ht _ IH]; [done|]. cbn [existsb map write_items print_args]. intros H. apply orb_false_iff in H as [H1 H2].
    by rewrite Ht, IH.
  Qed.
  Lemma write_fields fs : Forall (λ f, encode_panics f.2 = false → write_sexpr u (tree f.2) = print u f.2) fs → encode_panics (TStruct fs) = false →
    write_items (List.concat (map (λ f, [field_name_tree f.1; SSym (format_bool (fh_embedded f.1)); SStr (fh_tag f.1); tree f.2]) fs)) = print_fields u fs.
  Proof.
    induction 1 as [|[f t] l Ht _ IH]; [done|]. cbn [encode_panics existsb map List.concat fst snd print_fields]. intros H.
    apply orb_false_iff in H as [H1 H2]. apply orb_false_iff in H1 as [_ H1]. rewrite write_items_app. cbn [encode_panics] in IH. rewrite IH by done.
    cbn [write_items write_sexpr]. cbn [snd] in Ht. rewrite write_field_name, Ht by done. by rewrite !GoStr.app_assoc, !GoStr.app_nil_r.
  Qed.
  Lemma write_tree t : encode_panics t = false → write_sexpr u (tree t) = print u t.
  Proof.
    induction t as [k a|tn l IH|tn t IH|t IH|t IH|n t IH|k v IHk IHv|d t IH|l IH|ps rs v IHp IHr|fs IH|ms s IH|tn i|l IH] using ty_ind';
      intros Hp; cbn [encode_panics] in Hp.
    - by destruct k.
    - apply orb_false_iff in Hp as [_ Hp]. destruct l as [|t l]; [apply write_name|]. rewrite print_named.
      change (tree (TNamed tn (t :: l))) with (slist (SSym "inst" :: name_tree tn :: map tree (t :: l))).
      rewrite write_slist. cbn [write_items]. rewrite write_name, write_args by done. cbn [write_sexpr]. by rewrite !GoStr.app_assoc.
    - cbn. auto.
    - cbn [tree]. rewrite write_slist. cbn [write_items write_sexpr]. rewrite IH by done. cbn [print]. by rewrite !GoStr.app_assoc, !GoStr.app_nil_r.
    - cbn [tree]. rewrite write_slist. cbn [write_items write_sexpr]. rewrite IH by done. cbn [print]. by rewrite !GoStr.app_assoc, !GoStr.app_nil_r.
    - cbn [tree]. rewrite write_slist. cbn [write_items write_sexpr]. rewrite IH by done. cbn [print]. by rewrite !GoStr.app_assoc, !GoStr.app_nil_r.
    - apply orb_false_iff in Hp as [H1 H2]. cbn [tree]. rewrite write_slist. cbn [write_items write_sexpr]. rewrite IHk, IHv by done. cbn [print].
      by rewrite !GoStr.app_assoc, !GoStr.app_nil_r.
    - cbn [tree]. rewrite write_slist. cbn [write_items write_sexpr]. rewrite IH by done. cbn [print]. by rewrite !GoStr.app_assoc, !GoStr.app_nil_r.
    - cbn [tree]. rewrite write_slist, write_args, print_tuple by done. cbn [write_sexpr]. by rewrite !GoStr.app_assoc.
    - apply orb_false_iff in Hp as [H1 H2]. cbn [tree]. rewrite write_slist. cbn [write_items]. rewrite write_items_app. cbn [write_items].
      rewrite !write_slist, !write_args, print_sig by done. cbn [write_sexpr].
      destruct v; cbn [write_items write_sexpr]; rewrite <- ?GoStr.app_assoc, ?GoStr.app_nil_r; reflexivity.
    - cbn [tree]. rewrite write_slist, write_fields, print_struct by done. cbn [write_sexpr]. by rewrite !GoStr.app_assoc.
    - by destruct ms.
    - cbn [tree]. rewrite write_slist. cbn [write_items write_sexpr print]. by rewrite !GoStr.app_assoc, !GoStr.app_nil_r.
    - done.
  Qed.
End Write.

(** C37: the text of a parsed fingerprint is the fingerprint. *)
Theorem C37_text : ∀ u t fp tr x, type_ok u t → encode u t = Ok (fp, tr) → parses_to u fp x → write_sexpr u x = fp.
Proof.
  intros u t fp tr x Ht E P. destruct (reads_type u t Ht "" (TkEOF, "") I eq_refl) as (st & Hst & _ & n & Hn). rewrite GoStr.app_nil_r in Hst.
  pose proof (type_ok_encodes u t Ht) as Hp. unfold encode in E. rewrite Hp in E. injection E as <- _.
  destruct P as [m Hm]. specialize (Hm (n + m)%nat ltac:(lia)). unfold parse_fingerprint in Hm. rewrite Hst in Hm. cbn [of_option pbind] in Hm.
  rewrite Hn in Hm by lia. cbn in Hm. injection Hm as <-. by apply write_tree.
Qed.
Print Assumptions C37_text.

(** C37: every fingerprint of a type is parsed, to the tree of the type. *)
Theorem C37_parse : ∀ u t, type_ok u t → ∃ fp, encode u t = Ok (fp, tricky t) ∧ parses_to u fp (tree t).
Proof.
  intros u t Ht. exists (print u t). unfold encode. rewrite (type_ok_encodes u t Ht). split; [done|].
  destruct (reads_type u t Ht "" (TkEOF, "") I eq_refl) as (st & Hst & _ & n & Hn). rewrite GoStr.app_nil_r in Hst.
  exists n. intros fuel Hf. unfold parse_fingerprint. rewrite Hst. cbn [of_option pbind]. by rewrite Hn.
Qed.
Print Assumptions C37_parse.

Lemma parses_to_unique u fp x y : parses_to u fp x → parses_to u fp y → x = y.
Proof. intros [n Hn] [m Hm]. specialize (Hn (n + m)%nat ltac:(lia)). specialize (Hm (n + m)%nat ltac:(lia)). congruence. Qed.

(** C31: two types without interfaces or type parameters and with the same fingerprint are built
    the same way from the same basic types and names. *)
Theorem C31_same_structure : ∀ u t r fp tr, type_ok u t → type_ok u r →
  encode u t = Ok (fp, false) → encode u r = Ok (fp, tr) → same_structure t r.
Proof.
  intros u t r fp tr Ht Hr Et Er. destruct (C37_parse u t Ht) as (fp1 & E1 & P1). destruct (C37_parse u r Hr) as (fp2 & E2 & P2).
  rewrite Et in E1. injection E1 as <- Htr. rewrite Er in E2. injection E2 as <- _.
  eapply tree_structure; [done|done|done|]. by eapply parses_to_unique.
Qed.
Print Assumptions C31_same_structure.

(** the named types occurring in a type *)
Fixpoint tnames (t : ty) : list tname :=
  match t with
  | TAlias _ r => tnames r
  | TNamed tn l => tn :: List.concat (map tnames l)
  | TTuple l => List.concat (map tnames l)
  | TArray _ e | TSlice e | TPointer e | TChan _ e => tnames e
  | TMap k v => tnames k ++ tnames v
  | TSig ps rs _ => List.concat (map tnames ps) ++ List.concat (map tnames rs)
  | TStruct fs => List.concat (map (λ f, tnames f.2) fs)
  | _ => []
  end.
(** an interface without methods is the type any (no constraint interface) *)
Fixpoint no_constraints (t : ty) : Prop :=
  match t with
  | TAlias _ r => no_constraints r
  | TNamed _ l | TTuple l => foldr (λ t P, no_constraints t ∧ P) True l
  | TArray _ e | TSlice e | TPointer e | TChan _ e => no_constraints e
  | TMap k v => no_constraints k ∧ no_constraints v
  | TSig ps rs _ => foldr (λ t P, no_constraints t ∧ P) True ps ∧ foldr (λ t P, no_constraints t ∧ P) True rs
  | TStruct fs => foldr (λ f P, no_constraints f.2 ∧ P) True fs
  | TInterface [] s => s = ""
  | _ => True
  end.
Lemma tnames_unalias t : tnames (unalias t) = tnames t.
Proof. induction t; done. Qed.
Lemma no_constraints_unalias t : no_constraints (unalias t) = no_constraints t.
Proof. induction t; done. Qed.
Lemma foldr_fst {A} (f : A → Prop) l : foldr (λ t P, f t ∧ P) True l → Forall f l.
Proof. induction l as [|x l IH]; [constructor|]. cbn. intros [H1 H2]. constructor; auto. Qed.
Lemma elem_of_concat_map {A B} (f : A → list B) l (b : B) : b ∈ List.concat (map f l) ↔ ∃ a, a ∈ l ∧ b ∈ f a.
Proof.
  rewrite elem_of_list_In, in_concat. split.
  - intros (x & Hx & Hb). apply in_map_iff in Hx as (a & <- & Ha). exists a. by rewrite !elem_of_list_In.
  - intros (a & Ha & Hb). rewrite elem_of_list_In in Ha. rewrite elem_of_list_In in Hb. exists (f a). split; [by apply in_map|done].
Qed.
Section Names.
  Context (names : list tname) (Hinj : ∀ a b, a ∈ names → b ∈ names → same_name a b → a = b).
  Notation IHs t := (∀ r, same_structure t r → no_constraints t → no_constraints r → tnames t ⊆ names → tnames r ⊆ names → identical t r).
  Lemma structure_identical_args l : ∀ l', Forall (λ t, IHs t) l → Forall2 same_structure l l' →
    Forall no_constraints l → Forall no_constraints l' →
    (∀ t, t ∈ l → tnames t ⊆ names) → (∀ t, t ∈ l' → tnames t ⊆ names) → Forall2 identical l l'.
  Proof.
    induction l as [|t l IH]; intros l' Hi H Hc Hc' Hn Hn'; inversion H; subst; [constructor|]. inversion Hi; inversion Hc; inversion Hc'; subst.
    constructor.
    - match goal with X : ∀ r, same_structure t r → _ |- _ => apply X end; [done|done|done|apply Hn; by left|apply Hn'; by left].
    - apply IH; try done; intros x Hx; [apply Hn|apply Hn']; by right.
  Qed.
  Lemma structure_identical t : IHs t.
  Proof.
    induction t as [k a|tn l IH|tn t IH|t IH|t IH|n t IH|k v IHk IHv|d t IH|l IH|ps rs v IHp IHr|fs IH|ms s IH|tn i|l IH] using ty_ind';
      intros r H Hc Hc' Hn Hn'.
    3: { assert (X : same_structure t r).
         { inversion H; subst; [eapply ss_basic|eapply ss_named|eapply ss_pointer|eapply ss_slice|eapply ss_array|eapply ss_map|eapply ss_chan|eapply ss_tuple
           |eapply ss_sig|eapply ss_struct|eapply ss_any]; eauto. }
         pose proof (IH r X Hc Hc' Hn Hn') as Y. inversion Y; subst;
         [eapply id_basic|eapply id_named|eapply id_pointer|eapply id_slice|eapply id_array|eapply id_map|eapply id_chan|eapply id_tuple
    |eapply id_sig|eapply id_struct|eapply id_interface|eapply id_typeparam|eapply id_union]; eauto. }
    all: rewrite <- (tnames_unalias r) in Hn'; rewrite <- (no_constraints_unalias r) in Hc'.
    all: inversion H as [? ? ? ? ? E1 E2|? ? ? ? ? ? E1 E2 Hs Hl|? ? ? ? E1 E2 Ha|? ? ? ? E1 E2 Ha|? ? ? ? ? E1 E2 Ha
      |? ? ? ? ? ? E1 E2 Ha Hb|? ? ? ? ? E1 E2 Ha|? ? ? ? E1 E2 Ha|? ? ? ? ? ? ? E1 E2 Ha Hb|? ? ? ? E1 E2 Ha Hb
      |? ? ? ? E1 E2]; subst; cbn in E1; try done; injection E1; intros; subst; rewrite E2 in Hn', Hc'; cbn [tnames no_constraints] in *.
    - by eapply id_basic.
    - assert (tn0 = tn') as ->.
      { apply Hinj; [apply Hn; by left|apply Hn'; by left|done]. }
      eapply id_named; [done|done|]. eapply structure_identical_args; [done|done|by apply foldr_fst|by apply foldr_fst|..].
      + intros x Hx b Hbb. apply Hn. right. apply elem_of_concat_map. eauto.
      + intros x Hx b Hbb. apply Hn'. right. apply elem_of_concat_map. eauto.
    - eapply id_pointer; [done|done|]. by apply IH.
    - eapply id_slice; [done|done|]. by apply IH.
    - eapply id_array; [done|done|]. by apply IH.
    - destruct Hc as [C1 C2], Hc' as [C3 C4]. eapply id_map; [done|done|apply IHk|apply IHv]; try done; intros x Hx; first [apply Hn; apply elem_of_app; by auto|apply Hn'; apply elem_of_app; by auto].
    - eapply id_chan; [done|done|]. by apply IH.
    - eapply id_tuple; [done|done|]. eapply structure_identical_args; [done|done|by apply foldr_fst|by apply foldr_fst|..].
      + intros x Hx b Hbb. apply Hn. apply elem_of_concat_map. eauto.
      + intros x Hx b Hbb. apply Hn'. apply elem_of_concat_map. eauto.
    - destruct Hc as [C1 C2], Hc' as [C3 C4].
      eapply id_sig; [done|done|eapply structure_identical_args; [done|done|by apply foldr_fst|by apply foldr_fst|..]
        |eapply structure_identical_args; [done|done|by apply foldr_fst|by apply foldr_fst|..]].
      + intros x Hx b Hbb. apply Hn. apply elem_of_app. left. apply elem_of_concat_map. eauto.
      + intros x Hx b Hbb. apply Hn'. apply elem_of_app. left. apply elem_of_concat_map. eauto.
      + intros x Hx b Hbb. apply Hn. apply elem_of_app. right. apply elem_of_concat_map. eauto.
      + intros x Hx b Hbb. apply Hn'. apply elem_of_app. right. apply elem_of_concat_map. eauto.
    - eapply id_struct; [done|done|done|]. apply foldr_fst in Hc, Hc'.
      eapply structure_identical_args; [|done|..].
      + clear -IH. induction IH; constructor; auto.
      + clear -Hc. induction Hc; constructor; auto.
      + clear -Hc'. induction Hc'; constructor; auto.
      + intros x Hx b Hbb. apply Hn. apply elem_of_list_fmap in Hx as (f & -> & Hf). apply elem_of_concat_map. eauto.
      + intros x Hx b Hbb. apply Hn'. apply elem_of_list_fmap in Hx as (f & -> & Hf). apply elem_of_concat_map. eauto.
    - cbn in Hc, Hc'. subst. eapply id_interface; [reflexivity|eassumption|done|constructor].
  Qed.
End Names.

(** C31, with C30: if package path and name determine the named types involved, two types
    without interfaces or type parameters are identical exactly when their fingerprints are equal. *)
Theorem C31_identical_iff : ∀ u t r, type_ok u t → type_ok u r → tricky t = false → tricky r = false →
  no_constraints t → no_constraints r →
  (∀ a b, a ∈ tnames t ++ tnames r → b ∈ tnames t ++ tnames r → same_name a b → a = b) →
  identical t r ↔ encode u t = encode u r.
Proof.
  intros u t r Ht Hr T1 T2 C1 C2 Hinj. split; [apply C30_identical_types|]. intros E.
  assert (E1 : encode u t = Ok (print u t, false)) by (unfold encode; by rewrite (type_ok_encodes u t Ht), T1).
  assert (E2 : encode u r = Ok (print u t, false)) by (rewrite <- E; done).
  eapply (structure_identical (tnames t ++ tnames r) Hinj); [by eapply C31_same_structure|done|done|..].
  - intros x Hx. apply elem_of_app. by left.
  - intros x Hx. apply elem_of_app. by right.
Qed.
Print Assumptions C31_identical_iff.

(** *** Matching *)
(** no type or field of the type is called typeparam *)
Definition avoids (t : ty) : Prop := Forall (λ tn, tn_name tn ≠ "typeparam") (tnames t).
Fixpoint field_names (t : ty) : list string :=
  match t with
  | TAlias _ r => field_names r
  | TNamed tn l => List.concat (map field_names l)
  | TTuple l => List.concat (map field_names l)
  | TArray _ e | TSlice e | TPointer e | TChan _ e => field_names e
  | TMap k v => field_names k ++ field_names v
  | TSig ps rs _ => List.concat (map field_names ps) ++ List.concat (map field_names rs)
  | TStruct fs => map (λ f, fh_name f.1) fs ++ List.concat (map (λ f, field_names f.2) fs)
  | _ => []
  end.
(** the type has type parameters *)
Fixpoint generic (t : ty) : bool :=
  match t with
  | TAlias _ r => generic r
  | TNamed tn l => existsb generic l
  | TTuple l => existsb generic l
  | TArray _ e | TSlice e | TPointer e | TChan _ e => generic e
  | TMap k v => (generic k || generic v)%bool
  | TSig ps rs _ => (existsb generic ps || existsb generic rs)%bool
  | TStruct fs => existsb (λ f, generic f.2) fs
  | TTypeParam _ _ => true
  | _ => false
  end.
Definition nice (g : bool) (x : sexpr) : Prop := x ≠ SSym "typeparam" ∧ x ≠ SNil ∧ well_formed x ∧ no_empty x ∧ (g = false → ground x).
Lemma nice_slist g x l : nice g x → Forall (nice g) l → nice g (slist (x :: l)).
Proof.
  intros Hx Hl. split; [done|]. split; [done|].
  assert (X : ∀ l, Forall (nice g) l → well_formed (slist l) ∧ no_empty (slist l) ∧ (g = false → ground (slist l))).
  { clear. induction 1 as [|x l (H1 & H2 & H3 & H4 & H5) _ (I1 & I2 & I3)]; [split; [constructor|done]|]. cbn. split; [by constructor|].
    split; [done|]. intros ->. split; [done|]. auto. }
  apply (X (x :: l)). by constructor.
Qed.
Lemma nice_sym g s : s ≠ "typeparam" → nice g (SSym s).
Proof. intros H. split; [congruence|]. split; [done|]. split; [constructor|]. done. Qed.
Lemma nice_str g s : nice g (SStr s).
Proof. split; [congruence|]. split; [done|]. split; [constructor|]. done. Qed.
Lemma nice_int g s : nice g (SInt s).
Proof. split; [congruence|]. split; [done|]. split; [constructor|]. done. Qed.
Lemma nice_qual g p n : n ≠ "typeparam" → nice g (qual p n).
Proof. intros H. apply nice_slist; [by apply nice_sym|]. apply Forall_cons. split; [apply nice_str|]. apply Forall_cons. split; [by apply nice_sym|]. by apply Forall_nil. Qed.
Lemma nice_mono g x : nice false x → nice g x.
Proof. intros (H1 & H2 & H3 & H4 & H5). split; [done|]. split; [done|]. split; [done|]. split; [done|]. auto. Qed.
Lemma existsb_In_false {A} (f : A → bool) l x : existsb f l = false → x ∈ l → f x = false.
Proof. intros H Hx. apply not_true_iff_false. intros E. apply not_true_iff_false in H. apply H. apply existsb_exists. exists x. by rewrite <- elem_of_list_In. Qed.
Lemma nice_tree u g t : type_ok u t → avoids t → "typeparam" ∉ field_names t → (g = false → generic t = false) → nice g (tree t).
Proof.
  unfold avoids.
  induction t as [k a|tn l IH|tn t IH|t IH|t IH|n t IH|k v IHk IHv|d t IH|l IH|ps rs v IHp IHr|fs IH|ms s IH|tn i|l IH] using ty_ind';
    intros Hok Ha Hf Hg; inversion Hok; subst; cbn [tnames field_names generic] in *.
  - destruct k; try done; first [by apply nice_sym | by apply nice_qual].
  - apply Forall_cons in Ha as [Ha0 Ha]. assert (Hname : nice g (name_tree tn)).
    { unfold name_tree. destruct (tn_pkg tn); [by apply nice_qual|by apply nice_sym]. }
    destruct l as [|t l]; [done|]. cbn [tree]. apply nice_slist; [by apply nice_sym|]. apply Forall_cons. split; [done|].
    match goal with X : Forall (type_ok u) (t :: l) |- _ => rename X into Hl end.
    change (Forall (nice g) (map tree (t :: l))).
    rewrite Forall_fmap. pose proof (proj1 (Forall_forall _ _) IH) as IH'. pose proof (proj1 (Forall_forall _ _) Hl) as Hl'. pose proof (proj1 (Forall_forall _ _) Ha) as Ha'.
    apply Forall_forall. intros x Hx. apply IH'; [done|auto|..].
    + apply Forall_forall. intros b Hb. apply Ha'. apply elem_of_concat_map. eauto.
    + intros Hb. apply Hf. apply elem_of_concat_map. eauto.
    + intros E. eapply existsb_In_false; [by apply Hg|done].
  - cbn. auto.
  - apply nice_slist; [by apply nice_sym|]. apply Forall_singleton. auto.
  - apply nice_slist; [by apply nice_sym|]. apply Forall_singleton. auto.
  - apply nice_slist; [by apply nice_sym|]. apply Forall_cons. split; [apply nice_int|]. apply Forall_singleton. auto.
  - rewrite elem_of_app in Hf. apply Forall_app in Ha as [Ha1 Ha2]. apply nice_slist; [by apply nice_sym|].
    apply Forall_cons. split; [|apply Forall_singleton]; [apply IHk|apply IHv]; auto; intros E; apply Hg, orb_false_iff in E; tauto.
  - apply nice_slist; [by apply nice_sym|]. apply Forall_cons. split; [apply nice_int|]. apply Forall_singleton. auto.
  - apply nice_slist; [by apply nice_sym|]. rewrite Forall_fmap. apply Forall_forall. intros x Hx. apply (proj1 (Forall_forall _ _) IH); [done|by eapply (proj1 (Forall_forall _ _)); eauto|..].
    + apply Forall_forall. intros b Hb. apply (proj1 (Forall_forall _ _) Ha). apply elem_of_concat_map. eauto.
    + intros Hb. apply Hf. apply elem_of_concat_map. eauto.
    + intros E. eapply existsb_In_false; [by apply Hg|done].
  - rewrite elem_of_app in Hf. apply Forall_app in Ha as [Ha1 Ha2].
    assert (Ht : ∀ l, Forall (λ t, type_ok u t → Forall (λ tn, tn_name tn ≠ "typeparam") (tnames t) → "typeparam" ∉ field_names t →
              (g = false → generic t = false) → nice g (tree t)) l → Forall (type_ok u) l →
              Forall (λ tn, tn_name tn ≠ "typeparam") (List.concat (map tnames l)) → ¬ "typeparam" ∈ List.concat (map field_names l) →
              (g = false → existsb generic l = false) → nice g (slist (SSym "tuple" :: map tree l))).
    { clear. intros l IH Hok Ha Hf Hg. apply nice_slist; [by apply nice_sym|]. rewrite Forall_fmap. apply Forall_forall. intros x Hx. apply (proj1 (Forall_forall _ _) IH); [done|by eapply (proj1 (Forall_forall _ _)); eauto|..].
      + apply Forall_forall. intros b Hb. apply (proj1 (Forall_forall _ _) Ha). apply elem_of_concat_map. eauto.
      + intros Hb. apply Hf. apply elem_of_concat_map. eauto.
      + intros E. eapply existsb_In_false; [by apply Hg|done]. }
    cbn [tree]. apply nice_slist; [by apply nice_sym|]. constructor.
    + apply Ht; auto. intros E. apply Hg, orb_false_iff in E. tauto.
    + apply Forall_app. split; [destruct v; [apply Forall_singleton; by apply nice_sym|by apply Forall_nil]|]. constructor; [|constructor].
      apply Ht; auto. intros E. apply Hg, orb_false_iff in E. tauto.
  - rewrite elem_of_app in Hf. cbn [tree]. apply nice_slist; [by apply nice_sym|]. rewrite Forall_forall. intros x Hx.
    apply elem_of_concat_map in Hx as ([f t] & Hft & Hx). cbn [fst snd] in Hx.
    rewrite !elem_of_cons, elem_of_nil in Hx. destruct Hx as [->|[->|[->|[->|[]]]]].
    + unfold field_name_tree. assert (fh_name f ≠ "typeparam").
      { intros E. apply Hf. left. rewrite <- E. apply elem_of_list_fmap. by exists (f, t). }
      destruct (is_exported (fh_name f)); [by apply nice_sym|by apply nice_qual].
    + apply nice_sym. by destruct (fh_embedded f).
    + apply nice_str.
    + apply (proj1 (Forall_forall _ _) IH (f, t) Hft).
      * inversion Hok as [| | | | | | | | | |? F1 F2| |]; subst. apply (proj1 (Forall_forall _ _) F2). apply elem_of_list_fmap. by exists (f, t).
      * apply Forall_forall. intros b Hb. apply (proj1 (Forall_forall _ _) Ha). apply elem_of_concat_map. by exists (f, t).
      * intros Hb. apply Hf. right. apply elem_of_concat_map. by exists (f, t).
      * intros E. by eapply (existsb_In_false _ fs (f, t)) in Hft; [|by apply Hg].
  - destruct ms; [by apply nice_sym|]. apply nice_slist; [by apply nice_sym|constructor].
  - split; [done|]. split; [done|]. split; [apply wf_param; lia|]. split; [done|]. intros E. by apply Hg in E.
Qed.

(** C37: a type matches itself. *)
Theorem C37_matches_self : ∀ u t, type_ok u t → avoids t → "typeparam" ∉ field_names t →
  ∃ fp x, encode u t = Ok (fp, tricky t) ∧ parses_to u fp x ∧ matches_returns x x true.
Proof.
  intros u t Ht H1 H2. destruct (C37_parse u t Ht) as (fp & E & P). exists fp, (tree t). split; [done|]. split; [done|].
  apply matches_self. destruct (nice_tree u true t Ht H1 H2) as (_ & _ & Hw & _); done.
Qed.
Print Assumptions C37_matches_self.

(** C37: types without type parameters match exactly when their fingerprints are equal. *)
Theorem C37_matches_equal : ∀ u t r fp fq a b, type_ok u t → avoids t → "typeparam" ∉ field_names t → generic t = false →
  type_ok u r → avoids r → "typeparam" ∉ field_names r → generic r = false →
  encode u t = Ok (fp, a) → encode u r = Ok (fq, b) →
  ∃ x y, parses_to u fp x ∧ parses_to u fq y ∧ matches_returns x y (bool_decide (fp = fq)).
Proof.
  intros u t r fp fq a b Ht H1 H2 H3 Hr H4 H5 H6 Et Er.
  destruct (C37_parse u t Ht) as (fp' & Et' & P). rewrite Et in Et'. injection Et' as <- _.
  destruct (C37_parse u r Hr) as (fq' & Er' & Q). rewrite Er in Er'. injection Er' as <- _.
  exists (tree t), (tree r). split; [done|]. split; [done|].
  destruct (nice_tree u false t Ht H1 H2 (λ _, H3)) as (_ & _ & _ & _ & G1). destruct (nice_tree u false r Hr H4 H5 (λ _, H6)) as (_ & _ & _ & _ & G2).
  pose proof (ground_match (tree t) (tree r) (G1 eq_refl) (G2 eq_refl)) as M.
  replace (bool_decide (fp = fq)) with (bool_decide (tree t = tree r)); [done|]. apply bool_decide_ext. split.
  - intros E. unfold encode in Et, Er. rewrite (type_ok_encodes u t Ht) in Et. rewrite (type_ok_encodes u r Hr) in Er.
    injection Et as <- _. injection Er as <- _. rewrite <- !write_tree by by eapply type_ok_encodes. congruence.
  - intros ->. by eapply parses_to_unique.
Qed.

(** C37: a type matches a type without type parameters exactly when replacing its type parameters
    (each by one tree throughout) gives it. *)
Theorem C37_matches_instance : ∀ u t r fp fq a b, type_ok u t → avoids t → "typeparam" ∉ field_names t →
  type_ok u r → avoids r → "typeparam" ∉ field_names r → generic r = false →
  encode u t = Ok (fp, a) → encode u r = Ok (fq, b) →
  ∃ x y m, parses_to u fp x ∧ parses_to u fq y ∧ matches_returns x y m ∧
           (m = true ↔ ∃ σ, (∀ i, σ i ≠ SNil) ∧ instance_of σ x y).
Proof.
  intros u t r fp fq a b Ht H1 H2 Hr H4 H5 H6 Et Er.
  destruct (C37_parse u t Ht) as (fp' & Et' & P). rewrite Et in Et'. injection Et' as <- _.
  destruct (C37_parse u r Hr) as (fq' & Er' & Q). rewrite Er in Er'. injection Er' as <- _.
  destruct (nice_tree u true t Ht H1 H2) as (_ & _ & W & _); [done|]. destruct (nice_tree u false r Hr H4 H5 (λ _, H6)) as (_ & N & _ & E & G).
  destruct (match_one_sided (tree t) (tree r) W (G eq_refl) E N) as (m & M1 & M2). exists (tree t), (tree r), m. done.
Qed.
Print Assumptions C37_matches_instance.

(** *** The cases *)
Definition x_u : unicode := Unicode (λ n, Z.ltb n 55296) (λ n, Z.ltb n 1000) (λ _, false).
Definition tp (i : nat) : ty := TTypeParam (TName 9 (Some "example.com/p") "E") i.
Definition x_file : ty := TNamed (TName 1 (Some "example.com/p") "File") [].
Definition x_bytes : ty := TSlice (TAlias (TName 0 None "byte") (TBasic BUint8 true)).
(** func(p []byte, m map[string]*p.List[p.File], s struct{ A, b int; c.D "x\ny" }, xs ...[4]chan int) (n int, err error) *)
Definition x_sig (b : ty) : ty :=
  TSig [b; TMap (TBasic BString false) (TPointer (TNamed (TName 2 (Some "example.com/p") "List") [x_file]));
        TStruct [(FHdr 3 "A" (Some "example.com/p") false "", TBasic BInt false);
                 (FHdr 4 "b" (Some "example.com/p") false "", TBasic BInt false);
                 (FHdr 5 "D" (Some "example.com/p") true (String "x" (String "010" "y")), TNamed (TName 5 (Some "example.com/c") "D") [])];
        TSlice (TArray 4 (TChan 0 (TBasic BInt false)))]
       [TBasic BInt false; TNamed (TName 6 None "error") []] true.
Lemma x_ident s : ascii_identb s = true → go_ident x_u s.
Proof. apply ascii_ident. Qed.
Ltac type_ok := repeat match goal with
  | |- type_ok _ (TBasic _ _) => apply ok_basic; done
  | |- type_ok _ (TNamed _ _) => apply ok_named
  | |- type_ok _ (TAlias _ _) => apply ok_alias
  | |- type_ok _ (TPointer _) => apply ok_pointer
  | |- type_ok _ (TSlice _) => apply ok_slice
  | |- type_ok _ (TArray _ _) => apply ok_array; [lia|]
  | |- type_ok _ (TMap _ _) => apply ok_map
  | |- type_ok _ (TChan _ _) => apply ok_chan; [lia|]
  | |- type_ok _ (TTuple _) => apply ok_tuple
  | |- type_ok _ (TSig _ _ _) => apply ok_sig
  | |- type_ok _ (TStruct _) => apply ok_struct
  | |- type_ok _ (TInterface _ _) => apply ok_interface
  | |- type_ok _ (TTypeParam _ _) => apply ok_typeparam; cbn; lia
  | |- Forall _ [] => apply Forall_nil; exact I
  | |- Forall _ (_ :: _) => apply Forall_cons; split
  | |- name_ok _ _ => first [by left | by right | split; [apply x_ident; reflexivity|by intros [? ?]]]
  | |- field_ok _ _ => split; [apply x_ident; reflexivity|intros _; eexists; reflexivity]
  | |- Forall _ (map _ _) => cbn [map fst snd]
  end.
Example x_sig_ok : type_ok x_u (x_sig x_bytes) ∧ type_ok x_u (x_sig (TSlice (TBasic BUint8 false))).
Proof. split; unfold x_sig, x_bytes, x_file; type_ok. Qed.

Example C30_example : identical (x_sig x_bytes) (x_sig (TSlice (TBasic BUint8 false))) ∧ x_sig x_bytes ≠ x_sig (TSlice (TBasic BUint8 false)).
Proof.
  split; [|done]. eapply id_sig; [reflexivity..| |].
  - apply Forall2_cons; split; [eapply id_slice; [reflexivity..|]; by eapply id_basic|].
    apply Forall2_cons; split. { eapply id_map; [reflexivity..|by eapply id_basic|]. eapply id_pointer; [reflexivity..|]. eapply id_named; [reflexivity..|].
      apply Forall2_cons; split; [|by apply Forall2_nil]. eapply id_named; [reflexivity..|]. by apply Forall2_nil. }
    apply Forall2_cons; split. { eapply id_struct; [reflexivity..| |]; cbn [map fst snd]; repeat (apply Forall2_cons; split); try (by apply Forall2_nil); try (by eapply id_basic).
      all: try (repeat split; done). eapply id_named; [reflexivity..|]. by apply Forall2_nil. }
    apply Forall2_cons; split; [|by apply Forall2_nil]. eapply id_slice; [reflexivity..|]. eapply id_array; [reflexivity..|].
    eapply id_chan; [reflexivity..|]. by eapply id_basic.
  - apply Forall2_cons; split; [by eapply id_basic|]. apply Forall2_cons; split; [|by apply Forall2_nil]. eapply id_named; [reflexivity..|]. by apply Forall2_nil.
Qed.
Example C31_example : tricky (x_sig x_bytes) = false ∧ no_constraints (x_sig x_bytes) ∧
  (∀ a b, a ∈ tnames (x_sig x_bytes) ++ tnames (x_sig (TSlice (TBasic BUint8 false))) →
          b ∈ tnames (x_sig x_bytes) ++ tnames (x_sig (TSlice (TBasic BUint8 false))) → same_name a b → a = b) ∧
  encode x_u (x_sig x_bytes) =
    Ok ("(func (tuple (slice byte) (map string (ptr (inst (qual ""example.com/p"" List) (qual ""example.com/p"" File)))) (struct A false """" int (qual ""example.com/p"" b) false """" int D true ""x\ny"" (qual ""example.com/c"" D)) (slice (array 4 (chan 0 int)))) v (tuple int error))", false).
Proof.
  split; [done|]. split; [by cbn|]. split; [|vm_compute; reflexivity].
  intros a b Ha Hb [Hp Hn]. cbn in Ha, Hb. rewrite !elem_of_cons, elem_of_nil in Ha, Hb.
  repeat (destruct Ha as [->|Ha]); try done; repeat (destruct Hb as [->|Hb]); done.
Qed.
(** func(x E, xs []E) E against func(x p.File, xs []p.File) p.File *)
Definition x_gen : ty := TSig [tp 0; TSlice (tp 0)] [tp 0] false.
Definition x_inst : ty := TSig [x_file; TSlice x_file] [x_file] false.
Example C37_example : type_ok x_u x_gen ∧ avoids x_gen ∧ "typeparam" ∉ field_names x_gen ∧
  type_ok x_u x_inst ∧ avoids x_inst ∧ "typeparam" ∉ field_names x_inst ∧ generic x_inst = false ∧
  matches 100 (tree x_gen) (tree x_inst) = PDone true ∧
  matches 100 (tree x_gen) (tree (TSig [x_file; TSlice x_file] [TBasic BInt false] false)) = PDone false.
Proof.
  split; [unfold x_gen, tp; type_ok|]. split; [by apply Forall_nil|]. split; [by apply not_elem_of_nil|].
  split; [unfold x_inst, x_file; type_ok|]. split; [unfold avoids; cbn [tnames x_inst x_file map List.concat app]; repeat (apply Forall_cons; split; [done|]); by apply Forall_nil|]. split; [by apply not_elem_of_nil|]. vm_compute. done.
Qed.

(** C31 needs the hypothesis on names: two types declared with the same name in different
    functions of a package have the same fingerprint. *)
Theorem C31_local_types_refuted : ∃ t r, type_ok x_u t ∧ type_ok x_u r ∧ ¬ identical t r ∧ encode x_u t = encode x_u r ∧ tricky t = false.
Proof.
  exists (TNamed (TName 1 (Some "p") "T") []), (TNamed (TName 2 (Some "p") "T") []).
  split; [type_ok|]. split; [type_ok|]. split; [|done]. intros H. inversion H as [? ? ? ? ? E1 E2|? ? ? ? ? E1 E2|? ? ? ? E1 E2|? ? ? ? E1 E2|? ? ? ? ? E1 E2
      |? ? ? ? ? ? E1 E2|? ? ? ? ? E1 E2|? ? ? ? E1 E2|? ? ? ? ? ? ? E1 E2|? ? ? ? E1 E2|? ? ? ? ? E1 E2|? ? ? ? E1 E2|? ? ? ? E1 E2];
    subst; cbn in E1, E2; congruence.
Qed.

(** C37 without the hypotheses on names fails: a type called typeparam makes Matches panic. *)
Theorem C37_typeparam_name_refuted : ∃ t, type_ok x_u t ∧ ∀ fuel, matches fuel (tree t) (tree t) = PPanic.
Proof. exists (TNamed (TName 1 (Some "p") "typeparam") []). split; [type_ok|]. done. Qed.

(** Two generic types can make Matches run forever: func(E, E, E) and func( *E, E, E). *)
Definition loop_arg : sexpr := tree (TPointer (tp 0)).
Definition loop_state : bindings := Bindings [0%nat] [1%nat] [loop_arg; loop_arg].
Lemma uni_car_out n xa xd ya yd st : xa ≠ SSym "typeparam" → ya ≠ SSym "typeparam" → uni n xa ya st = POut → uni (S n) (SCons xa xd) (SCons ya yd) st = POut.
Proof. intros H1 H2 H. cbn [uni]. rewrite !tpi_other by done. cbn. by rewrite H. Qed.
Lemma uni_cdr_out n xa xd ya yd st st' : xa ≠ SSym "typeparam" → ya ≠ SSym "typeparam" → uni n xa ya st = PDone (true, st') →
  is_nil xd = false → is_nil yd = false → uni n xd yd st' = POut → uni (S n) (SCons xa xd) (SCons ya yd) st = POut.
Proof. intros H1 H2 H Hx Hy H3. cbn [uni]. rewrite !tpi_other by done. cbn -[uni]. rewrite H. cbn -[uni]. by rewrite Hx, Hy. Qed.
Lemma loop_step n : uni (S n) (type_param 0) (type_param 0) loop_state = uni n loop_arg loop_arg loop_state.
Proof. reflexivity. Qed.
Lemma matches_loop fuel : uni fuel loop_arg loop_arg loop_state = POut.
Proof.
  induction fuel as [fuel IH] using (well_founded_induction lt_wf).
  do 3 (destruct fuel as [|fuel]; [reflexivity|]).
  eapply uni_cdr_out; [done|done|reflexivity|done|done|]. eapply uni_car_out; [done|done|]. rewrite loop_step. apply IH. lia.
Qed.
Theorem C37_nontermination_refuted : ∃ t r, type_ok x_u t ∧ avoids t ∧ type_ok x_u r ∧ avoids r ∧ ∀ fuel, matches fuel (tree t) (tree r) = POut.
Proof.
  exists (TTuple [tp 0; tp 0; tp 0]), (TTuple [TPointer (tp 0); tp 0; tp 0]).
  split; [unfold tp; type_ok|]. split; [by apply Forall_nil|]. split; [unfold tp; type_ok|]. split; [by apply Forall_nil|].
  intros fuel. do 5 (destruct fuel as [|fuel]; [reflexivity|]).
  assert (E : uni (S (S (S (S (S fuel))))) (SCons (SSym "tuple") (slist [type_param 0; type_param 0; type_param 0])) (SCons (SSym "tuple") (slist [loop_arg; type_param 0; type_param 0])) (Bindings [0%nat] [1%nat] [SNil; SNil]) = POut).
  { eapply uni_cdr_out; [done|done|reflexivity|done|done|].
    eapply uni_cdr_out; [done|done|reflexivity|done|done|].
    eapply uni_cdr_out; [done|done|reflexivity|done|done|].
    apply uni_car_out; [done|done|]. 
    change (uni (S fuel) (type_param 0) (type_param 0) loop_state = POut). rewrite loop_step. apply matches_loop. }
  change (pbind (uni (S (S (S (S (S fuel))))) (SCons (SSym "tuple") (slist [type_param 0; type_param 0; type_param 0])) (SCons (SSym "tuple") (slist [loop_arg; type_param 0; type_param 0])) (Bindings [0%nat] [1%nat] [SNil; SNil])) (λ '(b, _), PDone b) = POut).
  by rewrite E.
Qed.
(** … or panic: func(E, E) against func([]F, E), where F is the second type parameter. *)
Theorem C37_index_panic_refuted : ∃ t r n, type_ok x_u t ∧ type_ok x_u r ∧ ∀ fuel, (n <= fuel)%nat → matches fuel (tree t) (tree r) = PPanic.
Proof.
  exists (TTuple [tp 0; tp 0]), (TTuple [TSlice (tp 1); tp 0]), 20%nat.
  split; [unfold tp; type_ok|]. split; [unfold tp; type_ok|]. intros fuel Hf. do 20 (destruct fuel as [|fuel]; [lia|]). reflexivity.
Qed.
(** An array whose length could not be computed (the type checker records a negative length)
    has a fingerprint that Parse rejects. *)
Theorem C37_negative_array_refuted : ∃ t fp, encode x_u t = Ok (fp, false) ∧ ∃ n, ∀ fuel, (n <= fuel)%nat → parse_fingerprint x_u fuel fp = PPanic.
Proof.
  exists (TArray (-1) (TBasic BInt false)), "(array -1 int)". split; [done|]. exists 5%nat. intros fuel Hf.
  do 5 (destruct fuel as [|fuel]; [lia|]). reflexivity.
Qed.
