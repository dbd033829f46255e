(** The extractor finds the candidates. *)
From Coq Require Import Ascii String.
From stdpp Require Import prelude strings gmap.
From Verif Require Import GoStr Scip GoTypes Ast Packages Symbols Lookup Loader SpecSymbol SpecLookup P_Symbols P_Lookup Quote Fingerprint
  SpecTypes Impls P_Rel SpecImpl P_Filter P_Mem.
Open Scope string_scope.
Open Scope list_scope.

Lemma res_fold_inv {A S} (J : list A → S → Prop) (Bad : Prop) (f : S → A → res S) l :
  (∀ l0 x l1 s, l = l0 ++ x :: l1 → J l0 s → match f s x with Ok s' => J (l0 ++ [x]) s' | Panic _ => Bad end) →
  ∀ s, J [] s → match res_fold f s l with Ok s' => J l s' | Panic _ => Bad end.
Proof.
  intros Hstep. assert (G : ∀ l1 l0 s, l = l0 ++ l1 → J l0 s → match res_fold f s l1 with Ok s' => J l s' | Panic _ => Bad end).
  { induction l1 as [|x l1 IH]; intros l0 s E H; cbn.
    - rewrite List.app_nil_r in E. by subst.
    - specialize (Hstep l0 x l1 s E H). destruct (f s x) as [s'|]; cbn; [|done]. apply (IH (l0 ++ [x])); [|done]. by rewrite <- List.app_assoc. }
  intros s H. by apply (G l []).
Qed.

Section Extract.
  Context (env : tenv) (u : unicode) (crc : string → N) (mset : ty → list obj) (constraint_ok : ty → ty → bool) (objs : nat → option obj).
  Context (Hms : method_sets env mset objs).
  Context (package_level : gpkg → obj → bool) (scope_objects : gpkg → list obj) (root version : string) (h : pheap) (g : global).
  Notation intuitive := (intuitive_method_set env mset).
  Notation caches_ok := (caches_ok env objs g root version).
  Notation resolves := (resolves env root version g).

  Lemma resolves_fun o r r' : go_object objs o → resolves o r → resolves o r' → r = r'.
  Proof. intros Ho H H'. apply (answer_resolves env objs g root version o _ Ho) in H. apply (answer_resolves env objs g root version o _ Ho) in H'. congruence. Qed.
  Lemma object_cell_entry o c : object_cell g o = Some c ↔ ∃ id, c = CTab id (o_pos o) ∧ entry_of g o id.
  Proof.
    unfold object_cell. destruct (o_pkg o) as [tp|] eqn:Hp; cbn.
    - destruct (get_info_by_path g (tp_path tp) (o_pos o)) as [i1|] eqn:G1.
      { split.
        - intros [= <-]. eexists. split; [done|]. eapply eo_own; [done|by apply get_info_recorded].
        - intros (id & -> & H). apply get_info_recorded in G1. destruct H as [tp' info H1 H2|tp' info H1 H2 H3|tp' info H1 H2 H3 H4]; assert (tp' = tp) as -> by congruence; [done|by apply H2 in G1|by apply H2 in G1]. }
      apply get_info_unrecorded in G1.
      destruct (get_info_by_path g (tp_path tp +:+ ".test") (o_pos o)) as [i2|] eqn:G2.
      { split.
        - intros [= <-]. eexists. split; [done|]. eapply eo_test; [done|done|by apply get_info_recorded].
        - intros (id & -> & H). apply get_info_recorded in G2. destruct H as [tp' info H1 H2|tp' info H1 H2 H3|tp' info H1 H2 H3 H4]; assert (tp' = tp) as -> by congruence; [by apply G1 in H2|done|by apply H3 in G2]. }
      apply get_info_unrecorded in G2.
      destruct (get_info_by_path g (tp_path tp +:+ " [" +:+ tp_path tp +:+ ".test]") (o_pos o)) as [i3|] eqn:G3.
      { split.
        - intros [= <-]. eexists. split; [done|]. eapply eo_variant; [done|done|done|by apply get_info_recorded].
        - intros (id & -> & H). apply get_info_recorded in G3. destruct H as [tp' info H1 H2|tp' info H1 H2 H3|tp' info H1 H2 H3 H4]; assert (tp' = tp) as -> by congruence; [by apply G1 in H2|by apply G2 in H3|done]. }
      apply get_info_unrecorded in G3. split; [done|]. intros (id & -> & H).
      destruct H as [tp' info H1 H2|tp' info H1 H2 H3|tp' info H1 H2 H3 H4]; assert (tp' = tp) as -> by congruence; [by apply G1 in H2|by apply G2 in H3|by apply G3 in H4].
    - split; [done|]. intros (id & -> & H). destruct H; congruence.
  Qed.

  (** *** the map of method symbols *)
  Definition method_entry (lo hi : nat) (m : obj) (c : cell) (s : string) : Prop :=
    ∃ info, resolves m (Found info) ∧ i_symbol info = s ∧
      (object_cell g m = Some c ∨ object_cell g m = None ∧ ∃ n, c = CNew n ∧ lo ≤ n < hi).
  Definition methods_are (lo hi : nat) (l : list obj) (ms : gmap string (cell * string)) : Prop :=
    (∀ name c s, ms !! name = Some (c, s) → ∃ m, m ∈ l ∧ obj_Id m = name ∧ method_entry lo hi m c s) ∧
    (∀ m info, m ∈ l → resolves m (Found info) → is_Some (ms !! obj_Id m)).
  Lemma method_entry_mono lo hi hi' m c s : hi ≤ hi' → method_entry lo hi m c s → method_entry lo hi' m c s.
  Proof. intros Hh (info & H1 & H2 & H3). exists info. split; [done|]. split; [done|]. destruct H3 as [H3|(H3 & n & -> & Hn)]; [by left|right]. split; [done|]. exists n. split; [done|lia]. Qed.
  Lemma methods_fold new k l : caches_ok k → (∀ m, m ∈ l → go_object objs m) →
    ∃ ms ext k', res_fold (method_symbol env g) (∅, (new, k)) l = Ok (ms, (new ++ ext, k')) ∧ caches_ok k' ∧
      methods_are (length new) (length (new ++ ext)) l ms.
  Proof.
    intros Hk Hl.
    pose proof (res_fold_inv (λ l0 (st : gmap string (cell * string) * (list syminfo * caches)),
      let '(ms, (new', k')) := st in ∃ ext, new' = new ++ ext ∧ caches_ok k' ∧ methods_are (length new) (length new') l0 ms) False (method_symbol env g) l) as Hf.
    cut (match res_fold (method_symbol env g) (∅, (new, k)) l with Ok (ms, (new', k')) => ∃ ext, new' = new ++ ext ∧ caches_ok k' ∧ methods_are (length new) (length new') l ms | Panic _ => False end).
    { destruct (res_fold _ _ _) as [[ms [new' k']]|]; [|done]. intros (ext & -> & H1 & H2). by exists ms, ext, k'. }
    assert (X := Hf). clear Hf. match type of X with ?P → _ => assert (HP : P) end.
    - intros l0 m l1 [ms [new' k']] -> (ext & -> & Hk' & Ha & Hb). unfold method_symbol.
      assert (Hm : go_object objs m) by (apply Hl; apply elem_of_app; right; by left).
      destruct (lookup_ok env objs g root version k' m Hk' Hm) as (r & k2 & E & Hk2 & Hans). rewrite E. cbn [res_bind fst snd].
      apply (answer_resolves env objs g root version m r Hm) in Hans.
      destruct r as [info| |].
      + assert (Hall : ∀ c hi, length (new ++ ext) ≤ hi → method_entry (length new) hi m c (i_symbol info) →
          methods_are (length new) hi (l0 ++ [m]) (<[obj_Id m := (c, i_symbol info)]> ms)).
        { intros c hi Hhi He. split.
          - intros name c' s'. destruct (decide (obj_Id m = name)) as [<-|Hne].
            + rewrite lookup_insert. intros [= <- <-]. exists m. split; [apply elem_of_app; right; by left|done].
            + rewrite lookup_insert_ne by done. intros H. destruct (Ha _ _ _ H) as (m' & H1 & H2 & H3). exists m'. split; [apply elem_of_app; by left|].
              split; [done|]. by eapply method_entry_mono.
          - intros m' info' Hin Hr. destruct (decide (obj_Id m = obj_Id m')) as [<-|Hne]; [by rewrite lookup_insert|].
            rewrite lookup_insert_ne by done. apply elem_of_app in Hin as [Hin|Hin]; [by eapply Hb|]. apply elem_of_list_singleton in Hin. by subst. }
        destruct (object_cell g m) as [c|] eqn:Ec.
        * exists ext. split; [done|]. split; [done|]. apply Hall; [lia|]. exists info. split; [done|]. split; [done|]. by left.
        * exists (ext ++ [info]). split; [by rewrite List.app_assoc|]. split; [done|]. apply Hall; [rewrite !app_length; cbn; lia|].
          exists info. split; [done|]. split; [done|]. right. split; [done|]. eexists. split; [done|]. rewrite !app_length. cbn. lia.
      + exists ext. split; [done|]. split; [done|]. split.
        * intros name c s H. destruct (Ha _ _ _ H) as (m' & H1 & H2). exists m'. split; [apply elem_of_app; by left|done].
        * intros m' info' Hin Hr. apply elem_of_app in Hin as [Hin|Hin]; [by eapply Hb|]. apply elem_of_list_singleton in Hin. subst m'.
          pose proof (resolves_fun m _ _ Hm Hr Hans). done.
      + exists ext. split; [done|]. split; [done|]. split.
        * intros name c s H. destruct (Ha _ _ _ H) as (m' & H1 & H2). exists m'. split; [apply elem_of_app; by left|done].
        * intros m' info' Hin Hr. apply elem_of_app in Hin as [Hin|Hin]; [by eapply Hb|]. apply elem_of_list_singleton in Hin. subst m'.
          pose proof (resolves_fun m _ _ Hm Hr Hans). done.
    - apply (X HP (∅, (new, k))). exists []. split; [by rewrite List.app_nil_r|]. split; [done|]. split.
      + intros name c s. by rewrite lookup_empty.
      + intros m info H. by apply elem_of_nil in H.
  Qed.

  Definition encodable (t : ty) : Prop := ∀ m, has_method env mset t m → ∃ e, encode u (o_type m) = Ok e.
  Lemma mask_total l : (∀ m, m ∈ l → ∃ e, encode u (o_type m) = Ok e) → ∃ mask, method_mask u crc l = Ok mask.
  Proof.
    unfold method_mask. generalize 0%N as a. induction l as [|m l IH]; intros a H; [by eexists|]. cbn.
    destruct (H m) as [e ->]; [by left|]. cbn. apply IH. intros m' Hm'. apply H. by right.
  Qed.

  (** *** the definition made for a candidate, with the new cells lo..hi-1 *)
  Definition is_new (c : cell) (lo hi : nat) : Prop := match c with CNew n => lo ≤ n < hi | _ => True end.
  Record def_of (new : list syminfo) (lo hi : nat) (c : cand) (d : impldef) : Prop := DefOf {
    do_sym : match p_info (c_pkg c) with
             | Some _ => d_sym d = CTab (p_path (c_pkg c)) (o_pos (c_obj c))
             | None => d_sym d = CNew lo ∧ lo < hi ∧ new !! lo = Some (bare_info (c_symbol c))
             end;
    do_symbol : d_symbol d = c_symbol c;
    do_describes : describes env u crc mset d (c_type c) (p_path (c_pkg c));
    do_methods : methods_are (match p_info (c_pkg c) with Some _ => lo | None => S lo end) hi (intuitive (c_type c)) (d_methods d);
    do_hi : hi ≤ length new }.
  Lemma def_of_grow new ext lo hi c d : def_of new lo hi c d → def_of (new ++ ext) lo hi c d.
  Proof.
    intros [H1 H2 H3 H4 H5]. split; [|done|done|done|rewrite app_length; lia]. destruct (p_info (c_pkg c)); [done|]. destruct H1 as (? & ? & H1). split; [done|]. split; [done|].
    by apply lookup_app_l_Some.
  Qed.

  (** the state after the candidates in C: each definition has its own range of cells *)
  Definition defs_for (C : list cand) (which : bool) (base : nat) (new : list syminfo) (D : defs) (R : string → nat * nat) : Prop :=
    (∀ s d, D !! s = Some d → ∃ c, c ∈ C ∧ c_symbol c = s ∧ is_interface env (c_type c) = which ∧
       base ≤ (R s).1 ∧ def_of new (R s).1 (R s).2 c d) ∧
    (∀ c, c ∈ C → is_interface env (c_type c) = which → is_Some (D !! c_symbol c)) ∧
    (∀ s s' d d', D !! s = Some d → D !! s' = Some d' → s ≠ s' → (R s).2 ≤ (R s').1 ∨ (R s').2 ≤ (R s).1).
  Definition found (C : list cand) (base : nat) (st : xstate) : Prop :=
    caches_ok (x_k st) ∧ base ≤ length (x_new st) ∧
    (∃ R, defs_for C true base (x_new st) (x_ifaces st) R) ∧ (∃ R, defs_for C false base (x_new st) (x_concretes st) R).

  Lemma defs_for_grow C which base new ext D R c : defs_for C which base new D R → is_interface env (c_type c) ≠ which →
    defs_for (C ++ [c]) which base (new ++ ext) D R.
  Proof.
    intros (H1 & H2 & H3) Hne. split; [|split; [|done]].
    - intros s d H. destruct (H1 s d H) as (c' & Hc & ? & ? & ? & ?). exists c'. split; [apply elem_of_app; by left|]. split; [done|]. split; [done|]. split; [done|]. by apply def_of_grow.
    - intros c' Hc Hi. apply elem_of_app in Hc as [Hc|Hc]; [by apply H2|]. apply elem_of_list_singleton in Hc. by subst.
  Qed.
  Lemma defs_for_insert C which base new ext D R c d lo hi : defs_for C which base new D R → base ≤ length new → is_interface env (c_type c) = which →
    lo = length new → def_of (new ++ ext) lo hi c d → lo ≤ hi →
    ∃ R', defs_for (C ++ [c]) which base (new ++ ext) (<[c_symbol c := d]> D) R'.
  Proof.
    intros (H1 & H2 & H3) Hb Hi -> Hd Hhi. exists (λ s, if String.eqb s (c_symbol c) then (length new, hi) else R s). split; [|split].
    - intros s d'. destruct (String.eqb_spec s (c_symbol c)) as [->|Hne].
      + rewrite lookup_insert. intros [= <-]. exists c. split; [apply elem_of_app; right; by left|]. done.
      + rewrite lookup_insert_ne by congruence. intros H. destruct (H1 s d' H) as (c' & Hc & ? & ? & ? & ?). exists c'. split; [apply elem_of_app; by left|].
        split; [done|]. split; [done|]. split; [done|]. by apply def_of_grow.
    - intros c' Hc Hw. destruct (decide (c_symbol c' = c_symbol c)) as [->|Hne]; [by rewrite lookup_insert|]. rewrite lookup_insert_ne by congruence.
      apply elem_of_app in Hc as [Hc|Hc]; [by apply H2|]. apply elem_of_list_singleton in Hc. by subst.
    - intros s s' d1 d2 E1 E2 Hne.
      assert (B : ∀ s d, D !! s = Some d → (R s).2 ≤ length new) by (intros s0 d0 H; destruct (H1 s0 d0 H) as (? & _ & _ & _ & _ & Hx); by apply (do_hi _ _ _ _ _ Hx)).
      destruct (String.eqb_spec s (c_symbol c)) as [->|N1], (String.eqb_spec s' (c_symbol c)) as [->|N2]; [done| | |].
      + right. rewrite lookup_insert_ne in E2 by congruence. cbn. by eapply B.
      + left. rewrite lookup_insert_ne in E1 by congruence. cbn. by eapply B.
      + rewrite lookup_insert_ne in E1 by congruence. rewrite lookup_insert_ne in E2 by congruence. by eapply H3.
  Qed.

  Definition some_method (t : ty) : Prop := ∃ m, has_method env mset t m.
  Lemma intuitive_nonempty t : named t → some_method t ↔ intuitive t ≠ [].
  Proof.
    intros Hn. split.
    - intros [m Hm] E. apply (intuitive_has env mset objs Hms _ _ Hn) in Hm. rewrite E in Hm. by apply elem_of_nil in Hm.
    - destruct (intuitive t) as [|m l] eqn:E; [done|]. intros _. exists m. apply (intuitive_has env mset objs Hms _ _ Hn). rewrite E. by left.
  Qed.

  (** one candidate (its new entry, if any, is the last one of [x_new]) *)
  Lemma classify_ok C base st new0 c sym : caches_ok (x_k st) → base ≤ length new0 →
    (∃ R, defs_for C true base new0 (x_ifaces st) R) → (∃ R, defs_for C false base new0 (x_concretes st) R) →
    match p_info (c_pkg c) with
    | Some _ => x_new st = new0 ∧ sym = CTab (p_path (c_pkg c)) (o_pos (c_obj c))
    | None => x_new st = new0 ++ [bare_info (c_symbol c)] ∧ sym = CNew (length new0)
    end →
    named (c_type c) → some_method (c_type c) →
    match classify env u crc mset g (c_type c) sym (c_symbol c) (p_path (c_pkg c)) st with
    | Ok st' => found (C ++ [c]) base st'
    | Panic _ => ¬ encodable (c_type c)
    end.
  Proof.
    intros Hk Hb [R1 Hi] [R2 Hc] Hsym Hnt Hm. unfold classify. apply (intuitive_nonempty _ Hnt) in Hm.
    destruct (intuitive (c_type c)) as [|m0 l0] eqn:El; [done|]. rewrite <- El. clear m0 l0 El Hm.
    destruct (methods_fold (x_new st) (x_k st) (intuitive (c_type c)) Hk) as (ms & ext & k' & E & Hk' & Hmeth).
    { intros m Hm. by eapply intuitive_object. }
    rewrite E. cbn [res_bind]. destruct (method_mask u crc (intuitive (c_type c))) as [mask|] eqn:Em; cbn [res_bind].
    2:{ intros Henc. destruct (mask_total (intuitive (c_type c))) as [mask X]; [|congruence]. intros m Hm. apply Henc. by apply (intuitive_has env mset objs Hms _ _ Hnt). }
    set (d := ImplDef sym (c_symbol c) (c_type c) ms mask (length (intuitive (c_type c))) (has_unexported_methods (intuitive (c_type c))) (p_path (c_pkg c))).
    assert (Hnew : ∃ ext', x_new st ++ ext = new0 ++ ext' ∧ def_of (new0 ++ ext') (length new0) (length (new0 ++ ext')) c d).
    { destruct (p_info (c_pkg c)) as [ti|] eqn:Ep; destruct Hsym as [Hn ->].
      - exists ext. rewrite Hn. split; [done|]. split; rewrite ?Ep; [done|done|done| |lia]. rewrite <- Hn. exact Hmeth.
      - exists ([bare_info (c_symbol c)] ++ ext). rewrite Hn. split; [by rewrite <- List.app_assoc|]. split; rewrite ?Ep; [|done|done| |lia].
        + split; [done|]. split; [rewrite app_length; cbn; lia|]. cbn [app]. by apply list_lookup_middle.
        + rewrite Hn in Hmeth. rewrite List.app_assoc. replace (S (length new0)) with (length (new0 ++ [bare_info (c_symbol c)])); [exact Hmeth|]. rewrite app_length. cbn. lia. }
    destruct Hnew as (ext' & En & Hd).
    destruct (is_interface env (c_type c)) eqn:Hif; (split; [exact Hk'|]); cbn [x_new x_ifaces x_concretes]; rewrite En; (split; [rewrite app_length; lia|]).
    - split.
      + eapply defs_for_insert; [exact Hi|done|done|done|exact Hd|rewrite app_length; lia].
      + exists R2. apply defs_for_grow; [done|congruence].
    - split.
      + exists R1. apply defs_for_grow; [done|congruence].
      + eapply defs_for_insert; [exact Hc|done|done|done|exact Hd|rewrite app_length; lia].
  Qed.

  (** *** candidates of an object, a package, a table of packages *)
  Inductive of_def (p : gpkg) (o : obj) : cand → Prop :=
  | OfDef tn args info : o_kind o = OTypeName → (p_types p = None ∨ package_level p o = true) → o_type o = TNamed tn args →
      recorded g (p_path p) (o_pos o) info → some_method (o_type o) → of_def p o (Cand p o (i_symbol info)).
  Inductive of_scope (p : gpkg) (o : obj) : cand → Prop :=
  | OfScope tn args : o_kind o = OTypeName → is_exported (o_name o) = true → o_type o = TNamed tn args →
      composed env root version p o ≠ "" → some_method (o_type o) → of_scope p o (Cand p o (composed env root version p o)).
  Inductive of_package (p : gpkg) (c : cand) : Prop :=
  | of_source ti i o : p_name p ≠ "builtin" → p_info p = Some ti → ti_defs ti i = Some o → of_def p o c → of_package p c
  | of_export tp o : p_name p ≠ "builtin" → p_info p = None → p_types p = Some tp → o ∈ scope_objects p → of_scope p o c → of_package p c.
  Notation candidate := (candidate env mset package_level scope_objects root version h g).
  Lemma candidate_package pkgs c : candidate pkgs c ↔ ∃ key q p, pkgs !! key = Some q ∧ h !! q = Some p ∧ of_package p c.
  Proof.
    split.
    - intros [key q p ti i o tn args info H1 H2 H3 H4 H5 H6 H7 H8 H9 H10|key q p tp o tn args H1 H2 H3 H4 H5 H6 H7 H8 H9 H10 H11]; exists key, q, p; (split; [done|]); (split; [done|]).
      + eapply of_source; [done|done|done|]. by eapply OfDef.
      + eapply of_export; [done|done|done|done|]. by eapply OfScope.
    - intros (key & q & p & H1 & H2 & [ti i o H3 H4 H5 [tn args info H6 H7 H8 H9 H10]|tp o H3 H4 H5 H6 [tn args H7 H8 H9 H10 H11]]).
      + by eapply cand_source.
      + by eapply cand_export.
  Qed.
  Lemma type_name_spec o : is_type_name o = true ↔ o_kind o = OTypeName.
  Proof. unfold is_type_name. by destruct (o_kind o). Qed.

  (** adding the candidates that satisfy P *)
  Definition adding (C : list cand) (base : nat) (P : cand → Prop) (st : xstate) : Prop :=
    ∃ C', found (C ++ C') base st ∧ ∀ c, c ∈ C' ↔ P c.
  Definition unencodable (P : cand → Prop) : Prop := ∃ c, P c ∧ ¬ encodable (c_type c).
  Lemma adding_none C base (P : cand → Prop) st : found C base st → (∀ c, ¬ P c) → adding C base P st.
  Proof. intros H HP. exists []. rewrite List.app_nil_r. split; [done|]. intros c. rewrite elem_of_nil. split; [done|]. apply HP. Qed.
  Lemma adding_one C base (P : cand → Prop) st c : found (C ++ [c]) base st → (∀ c', P c' ↔ c' = c) → adding C base P st.
  Proof. intros H HP. exists [c]. split; [done|]. intros c'. by rewrite elem_of_list_singleton, HP. Qed.
  Lemma adding_fold {A} (f : xstate → A → res xstate) (P : A → cand → Prop) C base l st :
    (∀ C st a, a ∈ l → found C base st → match f st a with Ok st' => adding C base (P a) st' | Panic _ => unencodable (P a) end) →
    found C base st → match res_fold f st l with Ok st' => adding C base (λ c, ∃ a, a ∈ l ∧ P a c) st' | Panic _ => unencodable (λ c, ∃ a, a ∈ l ∧ P a c) end.
  Proof.
    intros Hstep H. apply (res_fold_inv (λ l0, adding C base (λ c, ∃ a, a ∈ l0 ∧ P a c))).
    - intros l0 a l1 s -> (C' & Hf & Hc). assert (Ha : a ∈ l0 ++ a :: l1) by (apply elem_of_app; right; by left).
      specialize (Hstep (C ++ C') s a Ha Hf). destruct (f s a) as [s'|].
      + destruct Hstep as (C'' & Hf' & Hc'). exists (C' ++ C''). split; [by rewrite List.app_assoc|]. intros c. rewrite elem_of_app, Hc, Hc'. split.
        * intros [(a' & Hin & HP)|HP]; [exists a'; split; [apply elem_of_app; by left|done]|exists a; split; [apply elem_of_app; right; by left|done]].
        * intros (a' & Hin & HP). apply elem_of_app in Hin as [Hin|Hin]; [left; by exists a'|right]. apply elem_of_list_singleton in Hin. by subst.
      + destruct Hstep as (c & HP & He). exists c. split; [by exists a|done].
    - apply adding_none; [done|]. intros c (a & Hin & _). by apply elem_of_nil in Hin.
  Qed.
  Lemma adding_iff C base (P Q : cand → Prop) st : (∀ c, P c ↔ Q c) → adding C base P st → adding C base Q st.
  Proof. intros HPQ (C' & H & Hc). exists C'. split; [done|]. intros c. by rewrite Hc, HPQ. Qed.
  Lemma unencodable_iff (P Q : cand → Prop) : (∀ c, P c ↔ Q c) → unencodable P → unencodable Q.
  Proof. intros HPQ (c & H & He). exists c. by rewrite <- HPQ. Qed.

  Lemma classify_none t sym symbol pkg st : named t → ¬ some_method t → classify env u crc mset g t sym symbol pkg st = Ok st.
  Proof. intros Hn. rewrite (intuitive_nonempty _ Hn). intros H. unfold classify. destruct (intuitive t); [done|]. by destruct H. Qed.
  Lemma some_method_dec t : named t → some_method t ∨ ¬ some_method t.
  Proof. intros Hn. rewrite (intuitive_nonempty _ Hn). destruct (intuitive t); [right|left]; [by intros []|done]. Qed.

  Lemma extract_def_ok C base p ti gp tbl st o : p_info p = Some ti → g_symbols g !! p_path p = Some (gp, tbl) → found C base st →
    match extract_def env u crc mset package_level g p tbl st o with Ok st' => adding C base (of_def p o) st' | Panic _ => unencodable (of_def p o) end.
  Proof.
    intros Hi Hg Hf. unfold extract_def. destruct (is_type_name o) eqn:Ht; cbn [negb].
    2:{ apply adding_none; [done|]. intros c [tn args info H1 _ _ _ _]. apply type_name_spec in H1. congruence. }
    apply type_name_spec in Ht.
    destruct (match p_types p with Some _ => negb (package_level p o) | None => false end) eqn:Hp.
    { apply adding_none; [done|]. intros c [tn args info _ H1 _ _ _]. destruct (p_types p); [|done]. destruct H1 as [H1|H1]; [done|]. by rewrite H1 in Hp. }
    assert (Hlevel : p_types p = None ∨ package_level p o = true) by (destruct (p_types p); [right; by apply negb_false_iff|by left]). clear Hp.
    destruct (o_type o) eqn:Hty; try (apply adding_none; [done|]; intros c [tn' args' info _ _ H1 _ _]; congruence).
    destruct (pget tbl (o_pos o)) as [info|] eqn:Hpg.
    2:{ apply adding_none; [done|]. intros c [tn' args' info _ _ _ (p' & t' & H1 & H2) _]. rewrite Hg in H1. injection H1 as <- <-. unfold pget in Hpg. congruence. }
    assert (Hrec : recorded g (p_path p) (o_pos o) info) by (by exists gp, tbl).
    assert (Huniq : ∀ info', recorded g (p_path p) (o_pos o) info' → info' = info).
    { intros info' H. apply get_info_recorded in H, Hrec. congruence. }
    rewrite <- Hty. assert (Hnt : named (o_type o)) by (by eexists _, _). destruct (some_method_dec (o_type o) Hnt) as [Hs|Hs].
    2:{ rewrite classify_none by done. apply adding_none; [done|]. by intros c [tn' args' info' _ _ _ _ H1]. }
    destruct Hf as (Hk & Hb & H1 & H2).
    pose proof (classify_ok C base st (x_new st) (Cand p o (i_symbol info)) (CTab (p_path p) (o_pos o)) Hk Hb H1 H2) as Hcl. cbn [c_pkg c_obj c_symbol] in Hcl.
    rewrite Hi in Hcl. specialize (Hcl (conj eq_refl eq_refl) Hnt Hs). change (c_type (Cand p o (i_symbol info))) with (o_type o) in Hcl.
    destruct (classify _ _ _ _ _ _ _ _ _ _) as [st'|].
    - eapply adding_one; [exact Hcl|]. intros c. split.
      + intros [tn' args' info' _ _ _ Hr _]. by rewrite (Huniq _ Hr).
      + intros ->. by eapply OfDef.
    - exists (Cand p o (i_symbol info)). split; [by eapply OfDef|done].
  Qed.
  Lemma extract_object_ok C base p gt tp st o : p_info p = None → g_symbols g !! p_path p = Some (p, gt) → go_object objs o →
    o_pkg o = Some tp → tp_path tp = p_path p → found C base st →
    match extract_object env u crc mset g p st o with Ok st' => adding C base (of_scope p o) st' | Panic _ => unencodable (of_scope p o) end.
  Proof.
    intros Hi Hg Ho Hp Htp Hf. unfold extract_object. destruct (is_type_name o && is_exported (o_name o))%bool eqn:Ht; cbn [negb].
    2:{ apply adding_none; [done|]. intros c [tn args H1 H2 _ _ _]. apply type_name_spec in H1. by rewrite H1, H2 in Ht. }
    apply andb_true_iff in Ht as [Ht Hx]. apply type_name_spec in Ht.
    destruct (o_type o) eqn:Hty; try (apply adding_none; [done|]; intros c [tn' args' _ _ H1 _ _]; congruence).
    destruct Hf as (Hk & Hb & H1 & H2). rewrite <- Htp in Hg.
    pose proof (compose_any env objs g root version (x_k st) p o tp gt Hk Ho Hp Hg) as Hcomp.
    pose proof (compose_caches_ok env objs g root version (x_k st) p o tp gt Hk Ho Hp Hg) as Hk'.
    destruct (compose env (k_composer (x_k st)) (Some p) (Some o)) as [sym c'] eqn:Ec. cbn [fst snd] in Hcomp, Hk'.
    destruct (String.eqb_spec sym "") as [He|He].
    { apply adding_none; [split; [done|split; [done|split; done]]|]. intros c [tn' args' _ _ _ H3 _]. congruence. }
    rewrite <- Hty. assert (Hnt : named (o_type o)) by (by eexists _, _). destruct (some_method_dec (o_type o) Hnt) as [Hs|Hs].
    2:{ rewrite classify_none by done. apply adding_none; [|by intros c [tn' args' _ _ _ _ H3]].
        destruct H1 as [R1 H1]. destruct H2 as [R2 H2]. split; [done|]. cbn [x_new x_ifaces x_concretes]. split; [rewrite app_length; lia|]. split; [exists R1|exists R2].
        - destruct H1 as (X1 & X2 & X3). split; [|done]. intros s d H. destruct (X1 s d H) as (cc & ? & ? & ? & ? & ?). exists cc. do 4 (split; [done|]). by apply def_of_grow.
        - destruct H2 as (X1 & X2 & X3). split; [|done]. intros s d H. destruct (X1 s d H) as (cc & ? & ? & ? & ? & ?). exists cc. do 4 (split; [done|]). by apply def_of_grow. }
    pose proof (classify_ok C base (XState (x_ifaces st) (x_concretes st) (x_new st ++ [bare_info sym]) (Caches (k_skipped (x_k st)) c')) (x_new st)
      (Cand p o sym) (CNew (length (x_new st))) Hk' Hb H1 H2) as Hcl. cbn [c_pkg c_obj c_symbol x_new] in Hcl. rewrite Hi in Hcl.
    specialize (Hcl (conj eq_refl eq_refl) Hnt Hs). change (c_type (Cand p o sym)) with (o_type o) in Hcl. subst sym.
    destruct (classify _ _ _ _ _ _ _ _ _ _) as [st'|].
    - eapply adding_one; [exact Hcl|]. intros c. split.
      + by intros [tn' args' _ _ _ _ _].
      + intros ->. by eapply OfScope.
    - eexists. split; [by eapply OfScope|done].
  Qed.

  (** what the tables and the scopes must be for the packages without syntax *)
  Definition exports_ok (p : gpkg) : Prop :=
    p_info p = None → is_Some (p_types p) → (∃ t, g_symbols g !! p_path p = Some (p, t)) ∧
    ∀ o, o ∈ scope_objects p → go_object objs o ∧ ∃ tp, o_pkg o = Some tp ∧ tp_path tp = p_path p.
  (** the objects that Info.Defs yields *)
  Definition defs_order (o : orders) : Prop := ∀ q p ti ob, h !! q = Some p → p_info p = Some ti → ob ∈ or_defs o p ↔ ∃ i, ti_defs ti i = Some ob.
  Lemma extract_package_ok ord C base q p st : defs_order ord → h !! q = Some p → exports_ok p → found C base st →
    match extract_package env u crc mset package_level scope_objects ord g st p with
    | Ok st' => adding C base (of_package p) st' | Panic _ => unencodable (of_package p) end.
  Proof.
    intros Hd Hq Hx Hf. unfold extract_package. destruct (String.eqb_spec (p_name p) "builtin") as [Hb|Hb].
    { apply adding_none; [done|]. intros c []; done. }
    destruct (p_info p) as [ti|] eqn:Hi.
    - unfold extract_local, get_package. destruct (g_symbols g !! p_path p) as [[gp tbl]|] eqn:Hg; cbn [fmap option_fmap option_map snd].
      2:{ apply adding_none; [done|]. intros c [ti' i o _ _ _ [tn args info _ _ _ (p' & t' & H1 & _) _]|tp o H1 H2 H3 H4]; congruence. }
      pose proof (adding_fold (extract_def env u crc mset package_level g p tbl) (of_def p) C base (or_defs ord p) st) as H.
      assert (HP : ∀ c, (∃ o, o ∈ or_defs ord p ∧ of_def p o c) ↔ of_package p c).
      { intros c. split.
        - intros (o & Ho & Hc). apply (Hd q p ti o Hq Hi) in Ho as [i Ho]. by eapply of_source.
        - intros [ti' i o _ H1 H2 H3|tp o _ H1 _ _ _]; [|congruence]. exists o. split; [|done]. apply (Hd q p ti o Hq Hi). exists i. congruence. }
      match type of H with ?A → _ => assert (HA : A) by (intros C' st' o _ Hf'; by eapply extract_def_ok) end. specialize (H HA Hf).
      destruct (res_fold _ _ _); [exact (adding_iff _ _ _ _ _ HP H)|exact (unencodable_iff _ _ HP H)].
    - destruct (p_types p) as [tp|] eqn:Ht.
      2:{ apply adding_none; [done|]. intros c []; congruence. }
      destruct (Hx Hi) as [[t Hg] Hs]; [by eexists|]. unfold extract_remote.
      pose proof (adding_fold (extract_object env u crc mset g p) (of_scope p) C base (scope_objects p) st) as H.
      match type of H with ?A → _ => assert (HA : A) end.
      { intros C' st' o Ho Hf'. destruct (Hs o Ho) as (Hgo & tp' & Hp & Hpath). by eapply extract_object_ok. }
      specialize (H HA Hf).
      assert (HP : ∀ c, (∃ o, o ∈ scope_objects p ∧ of_scope p o c) ↔ of_package p c).
      { intros c. split.
        - intros (o & Ho & Hc). by eapply of_export.
        - intros [ti' i o _ H1 H2 H3|tp' o _ H1 H2 H3 H4]; [congruence|]. by exists o. }
      destruct (res_fold _ _ _); [exact (adding_iff _ _ _ _ _ HP H)|exact (unencodable_iff _ _ HP H)].
  Qed.
  Theorem extract_ok ord pkgs new k : defs_order ord → (∀ t, or_packages ord t ≡ₚ map fst (map_to_list t)) →
    (∀ key q p, pkgs !! key = Some q → h !! q = Some p → exports_ok p) → caches_ok k →
    match extract env u crc mset package_level scope_objects ord h g pkgs new k with
    | Ok st => ∃ C, found C (length new) st ∧ ∀ c, c ∈ C ↔ candidate pkgs c
    | Panic _ => ∃ c, candidate pkgs c ∧ ¬ encodable (c_type c) end.
  Proof.
    intros Hd Hord Hx Hk. unfold extract. set (ps := omap _ _).
    assert (Hps : ∀ p, p ∈ ps ↔ ∃ key q, pkgs !! key = Some q ∧ h !! q = Some p).
    { intros p. unfold ps. rewrite elem_of_list_omap. setoid_rewrite (Hord pkgs). split.
      - intros (key & Hin & E). destruct (pkgs !! key) as [q|] eqn:Eq; [|done]. by exists key, q.
      - intros (key & q & E1 & E2). exists key. rewrite E1. split; [|done]. apply elem_of_list_fmap. exists (key, q). split; [done|]. by apply elem_of_map_to_list. }
    pose proof (adding_fold (extract_package env u crc mset package_level scope_objects ord g) of_package [] (length new) ps (XState ∅ ∅ new k)) as H.
    match type of H with ?A → _ => assert (HA : A) end.
    { intros C st p Hp Hf. apply Hps in Hp as (key & q & E1 & E2). apply (extract_package_ok ord C (length new) q p st Hd E2); [|done]. by eapply Hx. }
    specialize (H HA). match type of H with ?A → _ => assert (HB : A) end.
    { split; [done|]. split; [done|]. split; exists (λ _, (0, 0)); (split; [intros s d; cbn; by rewrite lookup_empty|]); (split; [intros c Hc; by apply elem_of_nil in Hc|]); intros s s' d d'; cbn; by rewrite lookup_empty. }
    specialize (H HB).
    assert (HP : ∀ c, (∃ p, p ∈ ps ∧ of_package p c) ↔ candidate pkgs c).
    { intros c. rewrite candidate_package. split.
      - intros (p & Hp & Hc). apply Hps in Hp as (key & q & E1 & E2). by exists key, q, p.
      - intros (key & q & p & E1 & E2 & Hc). exists p. split; [|done]. apply Hps. by exists key, q. }
    destruct (res_fold _ _ _) as [st|].
    - destruct H as (C & Hf & Hc). exists C. split; [done|]. intros c. by rewrite Hc, HP.
    - destruct H as (c & Hc & He). exists c. by rewrite <- HP.
  Qed.
End Extract.
