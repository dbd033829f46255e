(** The filters before types.Implements. *)
From Coq Require Import Ascii String.
From stdpp Require Import prelude strings gmap.
From Verif Require Import GoStr Scip GoTypes Ast Packages Symbols Lookup SpecSymbol SpecLookup Quote Fingerprint SpecTypes P_Finger PropFinger Impls P_Ident SpecImpl.
Open Scope string_scope.
Open Scope list_scope.

Section Filter.
  Context (env : tenv) (u : unicode) (crc : string → N) (mset : ty → list obj) (constraint_ok : ty → ty → bool) (objs : nat → option obj).
  Context (Hms : method_sets env mset objs).
  Notation intuitive := (intuitive_method_set env mset).

  Lemma same_id_eq t m m' : m ∈ mset t → m' ∈ mset t → obj_Id m = obj_Id m' → m = m'.
  Proof.
    intros H1 H2 E. pose proof (ms_ids _ _ _ Hms t) as Hn. apply elem_of_list_lookup in H1 as [i Hi]. apply elem_of_list_lookup in H2 as [j Hj].
    assert (i = j) as ->; [|congruence]. eapply (NoDup_lookup _ i j (obj_Id m) Hn).
    - by rewrite list_lookup_fmap, Hi.
    - by rewrite list_lookup_fmap, Hj, E.
  Qed.
  Lemma mset_lookup_in l m m' : mset_lookup l m = Some m' → m' ∈ l ∧ obj_Id m' = obj_Id m.
  Proof. intros H. apply List.find_some in H as [H1 H2]. apply String.eqb_eq in H2. by rewrite elem_of_list_In. Qed.
  Lemma intuitive_concrete t : named t → is_interface env t = false → intuitive t = mset (TPointer t).
  Proof.
    intros (tn & args & ->) Hi. set (t := TNamed tn args) in *. unfold intuitive_method_set. rewrite Hi. rewrite <- (map_id (mset (TPointer t))) at 2. apply map_ext_in. intros m Hm.
    destruct (mset_lookup (mset t) m) as [m'|] eqn:E; [|done]. apply mset_lookup_in in E as [H1 H2].
    apply (same_id_eq (TPointer t)); [by eapply ms_pointer|by rewrite elem_of_list_In|done].
  Qed.
  Lemma intuitive_interface t : is_interface env t = true → intuitive t = mset t.
  Proof. intros Hi. unfold intuitive_method_set. by rewrite Hi. Qed.
  Lemma intuitive_has t m : named t → m ∈ intuitive t ↔ has_method env mset t m.
  Proof.
    intros Hn. unfold has_method. destruct (is_interface env t) eqn:Hi.
    - rewrite intuitive_interface by done. split; [by left|]. intros [H|[? _]]; done.
    - rewrite intuitive_concrete by done. split; [by right|]. intros [H|[_ H]]; [|done]. destruct Hn as (tn & args & ->). by eapply ms_pointer.
  Qed.
  Lemma intuitive_ids t : NoDup (map obj_Id (intuitive t)).
  Proof.
    destruct (is_interface env t) eqn:Hi; [rewrite intuitive_interface by done; apply Hms|]. unfold intuitive_method_set. rewrite Hi, map_map.
    erewrite map_ext; [apply (ms_ids _ _ _ Hms (TPointer t))|]. intros m. cbn. destruct (mset_lookup (mset t) m) as [m'|] eqn:E; [|done].
    by apply mset_lookup_in in E as [_ ?].
  Qed.
  Lemma intuitive_object t m : m ∈ intuitive t → go_object objs m.
  Proof.
    unfold intuitive_method_set. destruct (is_interface env t); [apply (ms_object _ _ _ Hms)|]. intros (m' & -> & Hm)%elem_of_list_fmap.
    destruct (mset_lookup (mset t) m') as [m''|] eqn:E; [apply mset_lookup_in in E as [? _]|]; by eapply ms_object.
  Qed.
  Lemma intuitive_same_id t m m' : m ∈ intuitive t → m' ∈ intuitive t → obj_Id m = obj_Id m' → m = m'.
  Proof.
    intros H1 H2 E. pose proof (intuitive_ids t) as Hn. apply elem_of_list_lookup in H1 as [i Hi]. apply elem_of_list_lookup in H2 as [j Hj].
    assert (i = j) as ->; [|congruence]. eapply (NoDup_lookup _ i j (obj_Id m) Hn).
    - by rewrite list_lookup_fmap, Hi.
    - by rewrite list_lookup_fmap, Hj, E.
  Qed.

  (** the bits of a mask *)
  Lemma method_mask_bits l : ∀ mask0 mask, res_fold (λ mask m, let! e := encode u (o_type m) in
      Ok (N.lor mask (N.shiftl 1 (mask_bit (crc (obj_Id m +:+ e.1)))))) mask0 l = Ok mask →
    ∀ b, N.testbit mask b = true ↔ N.testbit mask0 b = true ∨
      ∃ m fp tr, m ∈ l ∧ encode u (o_type m) = Ok (fp, tr) ∧ b = mask_bit (crc (obj_Id m +:+ fp)).
  Proof.
    induction l as [|m l IH]; intros mask0 mask H b; cbn -[N.shiftl N.lor mask_bit] in H.
    - injection H as <-. split; [by left|]. intros [H|(m & fp & tr & Hm & _)]; [done|by apply elem_of_nil in Hm].
    - destruct (encode u (o_type m)) as [[fp tr]|msg] eqn:E; cbn -[N.shiftl N.lor mask_bit] in H; [|done].
      rewrite (IH _ _ H b), N.lor_spec, orb_true_iff, N.shiftl_1_l, N.pow2_bits_eqb, N.eqb_eq. split.
      + intros [[H1|H1]|(m' & fp' & tr' & Hm & E' & Hb)]; [by left|right; exists m, fp, tr; split; [by left|done]|].
        right. exists m', fp', tr'. split; [by right|done].
      + intros [H1|(m' & fp' & tr' & [->|Hm]%elem_of_cons & E' & Hb)]; [by left; left| |].
        * rewrite E in E'. injection E' as <- <-. left. right. done.
        * right. exists m', fp', tr'. done.
  Qed.
  Lemma method_mask_spec l mask : method_mask u crc l = Ok mask →
    ∀ b, N.testbit mask b = true ↔ ∃ m fp tr, m ∈ l ∧ encode u (o_type m) = Ok (fp, tr) ∧ b = mask_bit (crc (obj_Id m +:+ fp)).
  Proof.
    intros H b. rewrite (method_mask_bits l 0%N mask H b), N.bits_0. split; [intros [?|?]; done|by right].
  Qed.
  Lemma mask_encodes l mask m : method_mask u crc l = Ok mask → m ∈ l → ∃ fp tr, encode u (o_type m) = Ok (fp, tr).
  Proof.
    unfold method_mask. generalize 0%N as mask0. induction l as [|x l IH]; intros mask0 H Hm; [by apply elem_of_nil in Hm|].
    cbn in H. destruct (encode u (o_type x)) as [[fp tr]|msg] eqn:E; cbn -[N.shiftl N.lor mask_bit] in H; [|done].
    apply elem_of_cons in Hm as [->|Hm]; [eauto|by eapply IH].
  Qed.
  Lemma mask_subset l l' mask mask' : method_mask u crc l = Ok mask → method_mask u crc l' = Ok mask' →
    (∀ m, m ∈ l' → ∃ m', m' ∈ l ∧ obj_Id m' = obj_Id m ∧ identical (o_type m') (o_type m)) → N.land mask mask' = mask'.
  Proof.
    intros H H' Hsub. apply N.bits_inj. intros b. rewrite N.land_spec. destruct (N.testbit mask' b) eqn:E; [|apply andb_false_r].
    rewrite andb_true_r. apply (method_mask_spec _ _ H') in E as (m & fp & tr & Hm & Ee & Hb). apply (method_mask_spec _ _ H).
    destruct (Hsub m Hm) as (m' & Hm' & Hid & Hi). exists m', fp, tr. split; [done|]. rewrite (C30_identical_types u _ _ Hi), Hid. done.
  Qed.

  (** what the methods of an implementing type are *)
  Lemma satisfies_methods t i : named t → is_interface env t = false → satisfies env mset constraint_ok t i → named i →
    ∀ m, m ∈ intuitive i → ∃ m', m' ∈ intuitive t ∧ obj_Id m' = obj_Id m ∧ identical (o_type m') (o_type m).
  Proof.
    intros Hnt Ht (ms & s & Hu & Himp) (tn & args & ->) m Hm. cbn in Hu.
    rewrite intuitive_interface in Hm by (unfold is_interface; cbn; by rewrite Hu).
    assert (Hin : (obj_Id m, o_type m) ∈ ms).
    { rewrite <- (ms_interface _ _ _ Hms tn args ms s Hu). apply elem_of_list_fmap. by exists m. }
    rewrite intuitive_concrete by done.
    destruct Himp as [[H _]|[H _]]; destruct (H _ _ Hin) as (m' & Hm' & E & I); exists m'; split; try done. destruct Hnt as (tn' & args' & ->). by eapply ms_pointer.
  Qed.
  Lemma satisfies_count t i : named t → is_interface env t = false → satisfies env mset constraint_ok t i → named i →
    (length (intuitive i) <= length (intuitive t))%nat.
  Proof.
    intros Hnt Ht Hs Hn. rewrite <- (map_length obj_Id), <- (map_length obj_Id (intuitive t)). apply submseteq_length, NoDup_submseteq; [apply intuitive_ids|].
    intros id Hid. apply elem_of_list_fmap in Hid as (m & -> & Hm). destruct (satisfies_methods t i Hnt Ht Hs Hn m Hm) as (m' & Hm' & E & _).
    apply elem_of_list_fmap. by exists m'.
  Qed.
  Lemma implements_spec v ms s : implements mset constraint_ok v ms s = true ↔ implements_interface mset constraint_ok v ms s.
  Proof.
    unfold implements, implements_interface, has_methods. rewrite andb_true_iff, forallb_forall. split; intros [H1 H2]; (split; [|done]).
    - intros id t Hin. apply elem_of_list_In in Hin. apply H1 in Hin. apply existsb_exists in Hin as (m & Hm & E).
      apply andb_true_iff in E as [E1 E2]. apply String.eqb_eq in E1. apply identicalb_spec in E2. exists m. by rewrite elem_of_list_In.
    - intros [id t] Hin. apply elem_of_list_In in Hin. destruct (H1 id t Hin) as (m & Hm & E & I). apply existsb_exists. exists m.
      rewrite <- elem_of_list_In. split; [done|]. apply andb_true_iff. cbn. split; [by apply String.eqb_eq|by apply identicalb_spec].
  Qed.
  Lemma unexported_spec i : named i → has_unexported_methods (intuitive i) = true ↔ sealed env mset i.
  Proof.
    intros Hn. unfold has_unexported_methods, sealed. rewrite existsb_exists. split.
    - intros (m & Hm & E). exists m. rewrite <- (intuitive_has _ _ Hn), elem_of_list_In. split; [done|]. by apply negb_true_iff.
    - intros (m & Hm & E). exists m. rewrite <- elem_of_list_In, (intuitive_has _ _ Hn). split; [done|]. by rewrite E.
  Qed.
  (** the definitions the extractor builds for a type *)
  Definition describes (d : impldef) (t : ty) (pkg : string) : Prop :=
    d_named d = t ∧ d_pkg d = pkg ∧ method_mask u crc (intuitive t) = Ok (d_mask d) ∧ d_count d = length (intuitive t) ∧
    d_unexported d = has_unexported_methods (intuitive t).
  Lemma passes_spec d e t i p q : describes d t p → describes e i q → named t → is_interface env t = false → named i →
    passes env mset constraint_ok d e = true ↔ satisfies env mset constraint_ok t i ∧ (sealed env mset i → p = q).
  Proof.
    intros (D1 & D2 & D3 & D4 & D5) (E1 & E2 & E3 & E4 & E5) Hnt Ht Hn. unfold passes. rewrite D1, D2, D4, E1, E2, E4, E5. split.
    - destruct (underlying env i) eqn:Hu; try done. rewrite !andb_true_iff, orb_true_iff, !implements_spec. intros [[[H1 _] _] H4]. split.
      + by exists methods, typeset.
      + rewrite <- (unexported_spec _ Hn). intros Hx. rewrite Hx in H1. cbn in H1. apply negb_true_iff, negb_false_iff in H1. by apply String.eqb_eq.
    - intros [Hs Hsame]. pose proof Hs as (ms & s & Hu & Himp). rewrite Hu. rewrite !andb_true_iff, orb_true_iff, !implements_spec.
      split; [|done]. split; [split|].
      + destruct (has_unexported_methods (intuitive i)) eqn:Hx; [|done]. apply (unexported_spec _ Hn) in Hx. rewrite (Hsame Hx), String.eqb_refl. done.
      + apply negb_true_iff, Nat.ltb_ge. by apply satisfies_count.
      + apply N.eqb_eq. eapply mask_subset; [exact D3|exact E3|]. intros m Hm. by eapply satisfies_methods.
  Qed.
End Filter.
