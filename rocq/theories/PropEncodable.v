(** C31: which types have a fingerprint. *)
From Coq Require Import Ascii String.
From stdpp Require Import prelude strings gmap.
From Verif Require Import GoStr GoTypes Quote Fingerprint SpecTypes PropFinger ExImpl.
Open Scope string_scope.
Open Scope list_scope.

(** [part t r]: r is written in t: t itself, what an alias stands for, type arguments, element types, parameters, results
    and field types; not the methods of interfaces *)
Inductive part : ty → ty → Prop :=
| part_self t : part t t
| part_alias tn t r : part t r → part (TAlias tn t) r
| part_arg tn l t r : t ∈ l → part t r → part (TNamed tn l) r
| part_pointer t r : part t r → part (TPointer t) r
| part_slice t r : part t r → part (TSlice t) r
| part_array n t r : part t r → part (TArray n t) r
| part_key k v r : part k r → part (TMap k v) r
| part_value k v r : part v r → part (TMap k v) r
| part_chan d t r : part t r → part (TChan d t) r
| part_tuple l t r : t ∈ l → part t r → part (TTuple l) r
| part_param ps rs v t r : t ∈ ps → part t r → part (TSig ps rs v) r
| part_result ps rs v t r : t ∈ rs → part t r → part (TSig ps rs v) r
| part_field fs f t r : (f, t) ∈ fs → part t r → part (TStruct fs) r.
(** types that do not occur in the signatures of methods of checked programs: types of untyped constants, unions, declared
    types without package (but error and comparable have none), fields without package (but exported ones) *)
Definition without_fingerprint (r : ty) : Prop :=
  match r with
  | TBasic k _ => is_untyped k = true
  | TUnion _ => True
  | TNamed tn _ => tn_pkg tn = None ∧ tn_name tn ≠ "error" ∧ tn_name tn ≠ "comparable"
  | TStruct fs => ∃ f t, (f, t) ∈ fs ∧ is_exported (fh_name f) = false ∧ fh_pkg f = None
  | _ => False
  end.

Lemma existsb_elem {A} (f : A → bool) l : existsb f l = true ↔ ∃ x, x ∈ l ∧ f x = true.
Proof. rewrite existsb_exists. split; intros (x & H1 & H2); exists x; (split; [by apply elem_of_list_In|done]). Qed.
Lemma panics_part t : encode_panics t = true ↔ ∃ r, part t r ∧ without_fingerprint r.
Proof.
  induction t as [k a|tn l IH|tn t IH|t IH|t IH|n t IH|k v IHk IHv|d t IH|l IH|ps rs v IHp IHr|fs IH|ms s IH|tn i|l IH] using ty_ind'; cbn [encode_panics].
  - split; [intros H; exists (TBasic k a); by split; [constructor|]|]. intros (r & Hp & Hr). inversion Hp; subst. exact Hr.
  - rewrite orb_true_iff, existsb_elem. rewrite Forall_forall in IH. split.
    + intros [H|(t & Ht & H)].
      * exists (TNamed tn l). split; [constructor|]. cbn. destruct (tn_pkg tn); [done|]. apply negb_true_iff, orb_false_iff in H as [H1 H2].
        split; [done|]. split; intros E; [rewrite E in H1|rewrite E in H2]; done.
      * apply (IH t Ht) in H as (r & Hp & Hr). exists r. split; [by eapply part_arg|done].
    + intros (r & Hp & Hr). inversion Hp; subst.
      * left. destruct Hr as (-> & H1 & H2). destruct (String.eqb_spec (tn_name tn) "error"), (String.eqb_spec (tn_name tn) "comparable"); done.
      * right. eexists. split; [eassumption|]. apply IH; [done|]. eauto.
  - rewrite IH. split; intros (r & Hp & Hr); [exists r; split; [by constructor|done]|]. inversion Hp; subst; [done|eauto].
  - rewrite IH. split; intros (r & Hp & Hr); [exists r; split; [by constructor|done]|]. inversion Hp; subst; [done|eauto].
  - rewrite IH. split; intros (r & Hp & Hr); [exists r; split; [by constructor|done]|]. inversion Hp; subst; [done|eauto].
  - rewrite IH. split; intros (r & Hp & Hr); [exists r; split; [by constructor|done]|]. inversion Hp; subst; [done|eauto].
  - rewrite orb_true_iff, IHk, IHv. split.
    + intros [(r & Hp & Hr)|(r & Hp & Hr)]; exists r; (split; [by constructor|done]).
    + intros (r & Hp & Hr). inversion Hp; subst; [done|left; eauto|right; eauto].
  - rewrite IH. split; intros (r & Hp & Hr); [exists r; split; [by constructor|done]|]. inversion Hp; subst; [done|eauto].
  - rewrite existsb_elem. rewrite Forall_forall in IH. split.
    + intros (t & Ht & H). apply (IH t Ht) in H as (r & Hp & Hr). exists r. split; [by eapply part_tuple|done].
    + intros (r & Hp & Hr). inversion Hp; subst; [done|]. eexists. split; [eassumption|]. apply IH; [done|]. eauto.
  - rewrite orb_true_iff, !existsb_elem. rewrite Forall_forall in IHp, IHr. split.
    + intros [(t & Ht & H)|(t & Ht & H)].
      * apply (IHp t Ht) in H as (r & Hp & Hr). exists r. split; [by eapply part_param|done].
      * apply (IHr t Ht) in H as (r & Hp & Hr). exists r. split; [by eapply part_result|done].
    + intros (r & Hp & Hr). inversion Hp; subst; [done|left|right]; (eexists; split; [eassumption|]).
      * apply IHp; [done|]. eauto.
      * apply IHr; [done|]. eauto.
  - rewrite existsb_elem. rewrite Forall_forall in IH. split.
    + intros ([f t] & Ht & H). cbn in H. apply orb_true_iff in H as [H|H].
      * exists (TStruct fs). split; [constructor|]. exists f, t. split; [done|]. apply andb_true_iff in H as [H1 H2]. apply negb_true_iff in H1.
        split; [done|]. by destruct (fh_pkg f).
      * apply (IH (f, t) Ht) in H as (r & Hp & Hr). exists r. split; [by eapply part_field|done].
    + intros (r & Hp & Hr). inversion Hp as [| | | | | | | | | | | |fs' f t r' Hf Hpr]; subst.
      * destruct Hr as (f & t & Hf & H1 & H2). exists (f, t). split; [done|]. cbn. by rewrite H1, H2.
      * exists (f, t). split; [done|]. cbn. apply orb_true_iff. right. apply (IH (f, t) Hf). eauto.
  - split; [done|]. intros (r & Hp & Hr). by inversion Hp; subst.
  - split; [done|]. intros (r & Hp & Hr). by inversion Hp; subst.
  - split; [intros _; exists (TUnion l); by split; [constructor|]|done].
Qed.

(** C31: Encode gives a fingerprint to exactly the types in which no type without one is written; otherwise it panics. *)
Theorem C31_encodable_iff : ∀ u t, (∃ fp, encode u t = Ok fp) ↔ ¬ ∃ r, part t r ∧ without_fingerprint r.
Proof.
  intros u t. rewrite <- panics_part. unfold encode. destruct (encode_panics t); split; try done.
  - by intros [fp ?].
  - intros _. by eexists.
Qed.
Print Assumptions C31_encodable_iff.
(** func(chan *T, ...) error, and one with the type of an untyped constant *)
Example C31_encodable_example : (∃ fp, encode x_u (TSig [TChan 0 (TPointer (TNamed (TName 1 (Some "ex.org/p") "T") []))] [TNamed (TName 2 None "error") []] false) = Ok fp) ∧
  (∀ fp, encode x_u (TSig [TSlice (TUnion [])] [] false) ≠ Ok fp).
Proof. split; [by eexists|done]. Qed.
