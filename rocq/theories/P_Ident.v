(** identicalb decides type identity. *)
From Coq Require Import Ascii String.
From stdpp Require Import prelude strings gmap.
From Verif Require Import GoStr Scip GoTypes Quote Fingerprint SpecTypes P_Finger Impls.
Open Scope string_scope.
Open Scope list_scope.

Fixpoint ids (l l' : list ty) : bool :=
  match l, l' with [], [] => true | t :: l, r :: l' => (identicalb t r && ids l l')%bool | _, _ => false end.
Section Pairs.
  Context {A : Type} (eqb : A → A → bool).
  Fixpoint pairs (l l' : list (A * ty)) : bool :=
    match l, l' with
    | [], [] => true
    | (f, t) :: l, (g, r) :: l' => (eqb f g && identicalb t r && pairs l l')%bool
    | _, _ => false
    end.
End Pairs.
Lemma same_fieldb_spec f g : same_fieldb f g = true ↔ same_field f g.
Proof.
  unfold same_fieldb, same_field. rewrite !andb_true_iff, orb_true_iff, !String.eqb_eq, bool_decide_eq_true, eqb_true_iff.
  destruct (is_exported (fh_name f)); intuition congruence.
Qed.
Lemma ids_spec l : Forall (λ t, ∀ r, identicalb t r = true ↔ identical t r) l → ∀ l', ids l l' = true ↔ Forall2 identical l l'.
Proof.
  induction 1 as [|t l Ht _ IH]; intros [|r l']; cbn.
  - split; [constructor|done].
  - split; [done|by inversion 1].
  - split; [done|by inversion 1].
  - rewrite andb_true_iff, Ht, IH, Forall2_cons. done.
Qed.
Lemma pairs_spec {A} (eqb : A → A → bool) (R : A → A → Prop) (HR : ∀ a b, eqb a b = true ↔ R a b) l :
  Forall (λ m, ∀ r, identicalb m.2 r = true ↔ identical m.2 r) l →
  ∀ l', pairs eqb l l' = true ↔ Forall2 R (map fst l) (map fst l') ∧ Forall2 identical (map snd l) (map snd l').
Proof.
  induction 1 as [|[a t] l Ht _ IH]; intros [|[b r] l']; cbn.
  - split; [by repeat constructor|done].
  - split; [done|intros [X _]; by inversion X].
  - split; [done|intros [X _]; by inversion X].
  - cbn in Ht. rewrite !andb_true_iff, Ht, IH, !Forall2_cons, HR. tauto.
Qed.
Lemma Forall2_eq {A} (l l' : list A) : Forall2 eq l l' ↔ l = l'.
Proof. split; [|intros ->; induction l'; by constructor]. induction 1; congruence. Qed.
Lemma identical_unalias_r t r : identical t (unalias r) ↔ identical t r.
Proof.
  assert (E : unalias (unalias r) = unalias r) by (induction r; done).
  split; (intros H; inversion H; subst; rewrite ?E in *;
    [eapply id_basic|eapply id_named|eapply id_pointer|eapply id_slice|eapply id_array|eapply id_map|eapply id_chan|eapply id_tuple
    |eapply id_sig|eapply id_struct|eapply id_interface|eapply id_typeparam|eapply id_union]; rewrite ?E; eauto).
Qed.
Ltac invi H E1 E2 := inversion H as [? ? ? ? ? E1 E2|? ? ? ? ? E1 E2|? ? ? ? E1 E2|? ? ? ? E1 E2|? ? ? ? ? E1 E2
      |? ? ? ? ? ? E1 E2|? ? ? ? ? E1 E2|? ? ? ? E1 E2|? ? ? ? ? ? ? E1 E2|? ? ? ? E1 E2|? ? ? ? ? E1 E2|? ? ? ? E1 E2|? ? ? ? E1 E2];
      subst; cbn in E1; try discriminate E1; injection E1; intros; subst; rewrite E2.
Lemma identicalb_spec t : ∀ r, identicalb t r = true ↔ identical t r.
Proof.
  induction t as [k a|tn l IH|tn t IH|t IH|t IH|n t IH|k v IHk IHv|d t IH|l IH|ps rs v IHp IHr|fs IH|ms s IH|tn i|l IH] using ty_ind'; intros r.
  3: { cbn. rewrite IH. split; [|apply identical_alias_l]. intros H; inversion H; subst;
    [eapply id_basic|eapply id_named|eapply id_pointer|eapply id_slice|eapply id_array|eapply id_map|eapply id_chan|eapply id_tuple
    |eapply id_sig|eapply id_struct|eapply id_interface|eapply id_typeparam|eapply id_union]; eauto. }
  all: split.
  - cbn. destruct (unalias r) eqn:E; try done. rewrite bool_decide_eq_true. intros <-. by eapply id_basic.
  - intros H. cbn. invi H E1 E2. by apply bool_decide_eq_true.
  - cbn. fold (ids l). destruct (unalias r) eqn:E; try done. rewrite andb_true_iff, bool_decide_eq_true. intros [<- H].
    eapply id_named; [done|done|]. by apply ids_spec.
  - intros H. cbn. fold (ids l). invi H E1 E2. rewrite bool_decide_eq_true_2 by done. by apply ids_spec.
  - cbn. destruct (unalias r) eqn:E; try done. rewrite IH. intros H. by eapply id_pointer.
  - intros H. cbn. invi H E1 E2. by apply IH.
  - cbn. destruct (unalias r) eqn:E; try done. rewrite IH. intros H. by eapply id_slice.
  - intros H. cbn. invi H E1 E2. by apply IH.
  - cbn. destruct (unalias r) eqn:E; try done. rewrite andb_true_iff, Z.eqb_eq, IH. intros [<- H]. by eapply id_array.
  - intros H. cbn. invi H E1 E2. rewrite Z.eqb_refl. by apply IH.
  - cbn. destruct (unalias r) eqn:E; try done. rewrite andb_true_iff, IHk, IHv. intros [H1 H2]. by eapply id_map.
  - intros H. cbn. invi H E1 E2. rewrite andb_true_iff. split; [by apply IHk|by apply IHv].
  - cbn. destruct (unalias r) eqn:E; try done. rewrite andb_true_iff, Nat.eqb_eq, IH. intros [<- H]. by eapply id_chan.
  - intros H. cbn. invi H E1 E2. rewrite Nat.eqb_refl. by apply IH.
  - cbn. fold (ids l). destruct (unalias r) eqn:E; try done. intros H. eapply id_tuple; [done|done|]. by apply ids_spec.
  - intros H. cbn. fold (ids l). invi H E1 E2. by apply ids_spec.
  - cbn. fold (ids ps) (ids rs). destruct (unalias r) eqn:E; try done. rewrite !andb_true_iff, eqb_true_iff. intros [[H1 H2] <-].
    eapply id_sig; [done|done|by apply ids_spec|by apply ids_spec].
  - intros H. cbn. fold (ids ps) (ids rs). invi H E1 E2. rewrite !andb_true_iff, eqb_true_iff. split; [|done]. split; by apply ids_spec.
  - cbn. fold (pairs same_fieldb fs). destruct (unalias r) eqn:E; try done. intros H. apply (pairs_spec _ same_field same_fieldb_spec) in H as [H1 H2]; [|done].
    by eapply id_struct.
  - intros H. cbn. fold (pairs same_fieldb fs). invi H E1 E2. by apply (pairs_spec _ same_field same_fieldb_spec).
  - cbn. fold (pairs String.eqb ms). destruct (unalias r) eqn:E; try done. rewrite andb_true_iff, String.eqb_eq. intros [<- H].
    apply (pairs_spec _ eq String.eqb_eq) in H as [H1 H2]; [|done]. apply Forall2_eq in H1. by eapply id_interface.
  - intros H. cbn. fold (pairs String.eqb ms). invi H E1 E2. rewrite String.eqb_refl. apply (pairs_spec _ eq String.eqb_eq); [done|]. by rewrite Forall2_eq.
  - cbn. destruct (unalias r) eqn:E; try done. rewrite andb_true_iff, bool_decide_eq_true, Nat.eqb_eq. intros [<- <-]. by eapply id_typeparam.
  - intros H. cbn. invi H E1 E2. rewrite bool_decide_eq_true_2 by done. apply Nat.eqb_refl.
  - cbn. fold (pairs Bool.eqb l). destruct (unalias r) eqn:E; try done. intros H.
    apply (pairs_spec _ eq eqb_true_iff) in H as [H1 H2]; [|done]. apply Forall2_eq in H1. by eapply id_union.
  - intros H. cbn. fold (pairs Bool.eqb l). invi H E1 E2. apply (pairs_spec _ eq eqb_true_iff); [done|]. by rewrite Forall2_eq.
Qed.
