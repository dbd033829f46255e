(** scip.CanonicalizeRelationships: sorted, one relationship per symbol, independent of the order
    and of repeated application. *)
From Coq Require Import Ascii String.
From stdpp Require Import prelude strings sorting.
From Verif Require Import GoStr Scip P_Sort.
Open Scope string_scope.
Open Scope list_scope.

(** the union of the relationships to symbol s *)
Definition join (a b : option relationship) : option relationship :=
  match a, b with Some x, Some y => Some (rel_or x y) | Some x, None => Some x | None, y => y end.
Fixpoint rel_for (l : list relationship) (s : string) : option relationship :=
  match l with
  | [] => None
  | r :: l => join (if String.eqb (r_symbol r) s then Some r else None) (rel_for l s)
  end.
Lemma rel_or_assoc a b c : rel_or a (rel_or b c) = rel_or (rel_or a b) c.
Proof. unfold rel_or. cbn. by rewrite !orb_assoc. Qed.
Lemma join_assoc a b c : join a (join b c) = join (join a b) c.
Proof. destruct a, b, c; cbn; try done. by rewrite rel_or_assoc. Qed.
Lemma join_none_r a : join a None = a.
Proof. by destruct a. Qed.
Lemma rel_for_symbol l s r : rel_for l s = Some r → r_symbol r = s.
Proof.
  revert r. induction l as [|x l IH]; intros r; [done|]. cbn. destruct (String.eqb_spec (r_symbol x) s) as [E|E]; cbn; [|apply IH].
  destruct (rel_for l s) as [y|]; cbn; intros [= <-]; done.
Qed.
Lemma rel_for_app l m s : rel_for (l ++ m) s = join (rel_for l s) (rel_for m s).
Proof. induction l as [|x l IH]; [done|]. cbn. by rewrite IH, join_assoc. Qed.
Lemma rel_for_in l s : is_Some (rel_for l s) ↔ s ∈ map r_symbol l.
Proof.
  induction l as [|x l IH]; cbn; [split; [by intros []|by intros ?%elem_of_nil]|].
  rewrite elem_of_cons, <- IH. destruct (String.eqb_spec (r_symbol x) s) as [E|E]; cbn.
  - split; [by left|]. intros _. by destruct (rel_for l s).
  - split; [by right|]. intros [H|H]; [congruence|done].
Qed.
Lemma join_comm_sym a b : (∀ x y, a = Some x → b = Some y → r_symbol x = r_symbol y) → join a b = join b a.
Proof.
  intros H. destruct a as [x|], b as [y|]; try done. cbn. unfold rel_or. rewrite (H x y) by done.
  by rewrite (orb_comm (r_is_reference x)), (orb_comm (r_is_implementation x)), (orb_comm (r_is_type_definition x)), (orb_comm (r_is_definition x)).
Qed.
Lemma rel_for_perm l m s : l ≡ₚ m → rel_for l s = rel_for m s.
Proof.
  induction 1 as [|x l m _ IH|x y l|l m k _ IH1 _ IH2]; [done|cbn; by rewrite IH| |congruence].
  cbn. rewrite !join_assoc. f_equal. apply join_comm_sym. intros a b.
  destruct (String.eqb_spec (r_symbol y) s), (String.eqb_spec (r_symbol x) s); intros [= <-] [= <-]. congruence.
Qed.
Lemma rel_for_nodup l r : NoDup (map r_symbol l) → r ∈ l → rel_for l (r_symbol r) = Some r.
Proof.
  induction l as [|x l IH]; [by intros _ ?%elem_of_nil|]. cbn. intros Hn Hr. apply NoDup_cons in Hn as [Hx Hn].
  apply elem_of_cons in Hr as [->|Hr].
  - rewrite String.eqb_refl. destruct (rel_for l (r_symbol x)) eqn:E; [|done].
    destruct Hx. apply rel_for_in. by eexists.
  - destruct (String.eqb_spec (r_symbol x) (r_symbol r)) as [E|E]; [|by apply IH].
    destruct Hx. rewrite E. apply elem_of_list_fmap. by exists r.
Qed.
Lemma rel_for_elem l s r : rel_for l s = Some r → NoDup (map r_symbol l) → r ∈ l.
Proof.
  intros H Hn. assert (Hs : s ∈ map r_symbol l) by (apply rel_for_in; by eexists).
  apply elem_of_list_fmap in Hs as (x & -> & Hx). rewrite (rel_for_nodup l x) in H by done. by injection H as <-.
Qed.

(** flatten *)
Lemma flatten_add_symbols l r : map r_symbol (flatten_add l r) = if decide (r_symbol r ∈ map r_symbol l) then map r_symbol l else map r_symbol l ++ [r_symbol r].
Proof.
  induction l as [|x l IH]; cbn; [by rewrite decide_False by apply not_elem_of_nil|].
  destruct (String.eqb_spec (r_symbol x) (r_symbol r)) as [E|E].
  - rewrite decide_True by (rewrite E; by left). done.
  - cbn. rewrite IH. destruct (decide (r_symbol r ∈ map r_symbol l)) as [D|D].
    + by rewrite decide_True by by right.
    + rewrite decide_False; [done|]. intros [?|?]%elem_of_cons; congruence.
Qed.
Lemma flatten_add_for l r s : rel_for (flatten_add l r) s = join (rel_for l s) (rel_for [r] s).
Proof.
  induction l as [|x l IH]; cbn [flatten_add]; [done|].
  destruct (String.eqb_spec (r_symbol x) (r_symbol r)) as [E|E].
  - cbn. rewrite !join_none_r. destruct (String.eqb_spec (r_symbol x) s) as [E'|E'].
    + rewrite <- E, E', String.eqb_refl. rewrite <- join_assoc, (join_comm_sym (rel_for l s)); [by rewrite join_assoc|].
      intros a b Ha [= <-]. apply rel_for_symbol in Ha. congruence.
    + rewrite <- E. destruct (String.eqb_spec (r_symbol x) s); [congruence|]. cbn. by rewrite join_none_r.
  - cbn [rel_for]. rewrite IH. cbn. by rewrite join_assoc.
Qed.
Lemma flatten_spec acc l : NoDup (map r_symbol acc) →
  NoDup (map r_symbol (foldl flatten_add acc l)) ∧ ∀ s, rel_for (foldl flatten_add acc l) s = join (rel_for acc s) (rel_for l s).
Proof.
  revert acc. induction l as [|r l IH]; intros acc Hn; cbn [foldl]; [split; [done|]; intros s; by rewrite join_none_r|].
  destruct (IH (flatten_add acc r)) as [H1 H2].
  { rewrite flatten_add_symbols. destruct (decide _); [done|]. apply NoDup_app. split; [done|]. split; [|apply NoDup_singleton].
    intros x Hx. intros ->%elem_of_list_singleton. done. }
  split; [done|]. intros s. rewrite H2, flatten_add_for, <- join_assoc. f_equal. cbn. by rewrite join_none_r.
Qed.

(** canonicalization *)
Lemma canonicalize_nodup l : NoDup (map r_symbol (canonicalize_relationships l)).
Proof.
  unfold canonicalize_relationships. rewrite (merge_sort_Permutation rel_le). by apply (flatten_spec [] l), NoDup_nil_2.
Qed.
Lemma canonicalize_sorted l : StronglySorted str_le (map r_symbol (canonicalize_relationships l)).
Proof.
  unfold canonicalize_relationships. pose proof (StronglySorted_merge_sort rel_le (flatten_relationships l)) as H.
  induction H as [|r m _ IH Hr]; constructor; [done|]. apply Forall_fmap. exact Hr.
Qed.
Lemma canonicalize_for l s : rel_for (canonicalize_relationships l) s = rel_for l s.
Proof.
  unfold canonicalize_relationships. rewrite (rel_for_perm _ _ s (merge_sort_Permutation rel_le _)). unfold flatten_relationships.
  destruct (flatten_spec [] l) as [_ ->]; [by apply NoDup_nil_2|]. done.
Qed.
Lemma canonical_unique l m : NoDup (map r_symbol l) → NoDup (map r_symbol m) → StronglySorted str_le (map r_symbol l) → StronglySorted str_le (map r_symbol m) →
  (∀ s, rel_for l s = rel_for m s) → l = m.
Proof.
  intros N1 N2 S1 S2 H. assert (E : map r_symbol l = map r_symbol m).
  { apply (StronglySorted_unique str_le); [done|done|]. apply NoDup_Permutation; [done|done|]. intros s. by rewrite <- !rel_for_in, H. }
  assert (X : ∀ k, (∀ r, r ∈ k → rel_for l (r_symbol r) = Some r) → ∀ k', (∀ r, r ∈ k' → rel_for l (r_symbol r) = Some r) → map r_symbol k = map r_symbol k' → k = k').
  { clear. induction k as [|a k IH]; intros Hk [|b k'] Hk' E; try done. cbn in E. injection E as E1 E2. f_equal.
    - assert (Ha : rel_for l (r_symbol a) = Some a) by (apply Hk; by left). assert (Hb : rel_for l (r_symbol b) = Some b) by (apply Hk'; by left). congruence.
    - apply IH; [intros; apply Hk; by right|intros; apply Hk'; by right|done]. }
  apply X; [|intros r Hr; rewrite H|done]; intros; by apply rel_for_nodup.
Qed.
Lemma canonicalize_ext l m : (∀ s, rel_for l s = rel_for m s) → canonicalize_relationships l = canonicalize_relationships m.
Proof.
  intros H. apply canonical_unique; try apply canonicalize_nodup; try apply canonicalize_sorted. intros s. by rewrite !canonicalize_for.
Qed.
Lemma canonicalize_app l m : canonicalize_relationships (canonicalize_relationships l ++ m) = canonicalize_relationships (l ++ m).
Proof. apply canonicalize_ext. intros s. by rewrite !rel_for_app, canonicalize_for. Qed.
Lemma canonicalize_perm l m : l ≡ₚ m → canonicalize_relationships l = canonicalize_relationships m.
Proof. intros H. apply canonicalize_ext. intros s. by apply rel_for_perm. Qed.
Lemma canonicalize_idemp l : canonicalize_relationships (canonicalize_relationships l) = canonicalize_relationships l.
Proof. rewrite <- (List.app_nil_r (canonicalize_relationships l)) at 1. by rewrite canonicalize_app, List.app_nil_r. Qed.
