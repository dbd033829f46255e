(** Every text of every message of a run is valid UTF-8 if the texts given by Go are. *)
From Coq Require Import Ascii String.
From stdpp Require Import prelude strings gmap sorting.
From Verif Require Import GoStr Scip GoTypes Packages Symbols Document Lookup Pass1 Pass2 Paths Loader Index Ast
  SpecSymbol SpecDecl SpecIndex P_Pass1 P_Fits Proto P_Valid Fingerprint Impls SpecImpl P_Rel SpecText.
Open Scope string_scope.
Open Scope list_scope.

Record info_texts (objstr : obj → string) (ti : tinfo) : Prop := InfoTexts {
  it_defs : ∀ x o, ti_defs ti x = Some o → object_text o ∧ utf8 (ti_sig ti o) ∧ utf8 (objstr o);
  it_uses : ∀ x o, ti_uses ti x = Some o → object_text o;
  it_cases : ∀ o, o ∈ ti_case_objs ti → object_text o ∧ utf8 (objstr o) }.
Lemma names_signatures objstr ti : info_names objstr ti → signatures_text ti → info_texts objstr ti.
Proof. intros [H1 H2 H3] H. split; [|done|done]. intros x o E. destruct (H1 x o E). split; [done|]. split; [by eapply H|done]. Qed.
(** *** symbols *)
Definition desc_text (d : descriptor) : Prop := utf8 (d_name d).
Lemma format_field_text s : utf8 s → utf8 (format_field s).
Proof. intros H. unfold format_field. apply utf8_escape; [done|]. by destruct (String.eqb s ""). Qed.
Lemma format_name_text s : utf8 s → utf8 (format_name s).
Proof.
  intros H. unfold format_name. destruct (str_forallb _ s); [done|]. apply utf8_low; [done|]. apply utf8_app; [by apply utf8_escape|done].
Qed.
Lemma format_descriptors_text l : Forall desc_text l → utf8 (format_descriptors l).
Proof.
  induction 1 as [|d l Hd Hl IH]; [done|]. unfold format_descriptors. cbn [foldr]. apply utf8_app; [|done].
  unfold format_descriptor. apply utf8_app; [by apply format_name_text|]. by destruct (d_suffix d).
Qed.
Lemma format_symbol_text s : utf8 (s_scheme s) → utf8 (sp_manager (s_package s)) → utf8 (sp_name (s_package s)) → utf8 (sp_version (s_package s)) →
  Forall desc_text (s_descriptors s) → utf8 (format_symbol s).
Proof.
  intros H1 H2 H3 H4 H5. unfold format_symbol. repeat (apply utf8_app; [by apply format_field_text|]; apply utf8_low; [done|]).
  by apply format_descriptors_text.
Qed.
Lemma from_descriptors_text p l s : module_text p → Forall desc_text l → from_descriptors p l = Ok s → utf8 s.
Proof.
  unfold from_descriptors. intros Hm Hl. destruct (p_module p) as [m|] eqn:E; [|done]. intros [= <-].
  destruct (Hm m E). by apply format_symbol_text.
Qed.

(** *** the first pass *)
Lemma source_child n c : c ∈ node_children n → source_text n → source_text c.
Proof. intros Hc H m Hm. apply H. by eapply subnodes_child. Qed.
Lemma source_self n : source_text n → node_text n.
Proof. intros H. apply H, subnodes_self. Qed.
Lemma source_ident n i : NIdent i ∈ node_children n → source_text n → utf8 (id_name i).
Proof. intros Hi H. apply (source_self (NIdent i)). by eapply source_child. Qed.

Definition ev_text (e : event) : Prop :=
  Forall desc_text (e_descs e) ∧ (∀ n, e_parent e = Some n → source_text n) ∧ utf8 (id_name (e_ident e)).
Definition cur_text (c : option node) : Prop := ∀ n, c = Some n → source_text n.

Ltac sc c := match goal with H : source_text ?n |- _ => apply (source_child n c); [child_mem|done] end.
Lemma ident_of_type_expr_text t i : source_text t → i ∈ ident_of_type_expr t → utf8 (id_name i).
Proof.
  induction t; cbn [ident_of_type_expr]; intros Hs; try (by intros ?%elem_of_nil).
  - intros ->%elem_of_list_singleton. by apply (source_self (NIdent _)).
  - intros H. apply IHt; [sc t|done].
  - intros H. apply IHt; [sc t|done].
  - intros H. apply IHt1; [sc t1|done].
  - intros H. apply IHt; [sc t|done].
  - intros ->%elem_of_list_singleton. eapply source_ident; [|exact Hs]. child_mem.
Qed.
Lemma snoc_text sc d : Forall desc_text sc → desc_text d → Forall desc_text (sc ++ [d]).
Proof. intros. apply Forall_app. split; [done|]. by constructor. Qed.
Lemma ev_text_intro sc cur i k pos : Forall desc_text sc → cur_text cur → utf8 (id_name i) → ev_text (Ev (sc ++ [Desc (id_name i) k]) cur i pos).
Proof. intros H1 H2 H3. split; [by apply snoc_text|]. by split. Qed.

Section Pass1Text.
Context (digest : string → string) (ti : tinfo) (fs : fset) (Hdig : ∀ s, utf8 (digest s)).
Notation tv := (Pass1.tv digest ti).
Notation vv := (Pass1.vv digest ti fs).

Lemma anon_key_text ptr : utf8 (anon_type_key digest ti ptr).
Proof. unfold anon_type_key. destruct (ti_canon ti ptr); [|done]. first [apply utf8_app; [done|apply Hdig]|destruct (String.eqb _ _); [done|]; apply utf8_app; [done|apply Hdig]]. Qed.

Lemma some_text n : source_text n → cur_text (Some n).
Proof. by intros H m [= <-]. Qed.

Lemma tv_text n : source_text n → ∀ m iface cur sc e, cur_text cur → Forall desc_text sc → e ∈ tv m iface cur sc n → ev_text e.
Proof.
  induction n using node_ind'; intros Hs md iface cur sc ev Hcur Hsc;
    destruct md; cbn [Pass1.tv]; try (by intros ?%elem_of_nil).
  - destruct ns as [|i0 ns].
    + destruct iface.
      * intros He. eapply IHn; eauto. sc n.
      * intros (i & -> & Hi)%elem_of_list_fmap. apply ev_text_intro; [done|by apply some_text|]. eapply ident_of_type_expr_text; [|done]. sc n.
    + rewrite elem_of_concat_map. intros (i & Hi & [->|He]%elem_of_cons).
      * apply ev_text_intro; [done|by apply some_text|]. eapply source_ident; [|exact Hs]. child_mem.
      * eapply IHn; eauto. sc n.
  - rewrite elem_of_concat_map. intros (x & Hx & He). eapply (proj1 (Forall_forall _ _) H); eauto. sc x.
  - intros He. eapply IHn; eauto. sc n.
  - destruct (String.eqb _ _); [by intros ?%elem_of_nil|]. intros He. eapply IHn; [sc n| | |exact He]; [done|]. apply snoc_text; [done|apply anon_key_text].
  - intros He. eapply IHn; eauto. sc n.
  - destruct (String.eqb _ _); [by intros ?%elem_of_nil|]. intros He. eapply IHn; [sc n| | |exact He]; [done|]. apply snoc_text; [done|apply anon_key_text].
  - rewrite elem_of_app. intros [He|He]; [eapply IHn1; eauto; sc n1|eapply IHn2; eauto; sc n2].
  - intros He. eapply IHn; eauto. sc n.
  - intros He. eapply IHn; eauto. sc n.
  - assert (Hi : utf8 (id_name n1)) by (eapply source_ident; [|exact Hs]; child_mem).
    intros [->|He]%elem_of_cons; [by apply ev_text_intro|]. eapply IHn2; [sc n3| | |exact He]; [done|]. by apply snoc_text.
  - rewrite elem_of_concat_map. intros (x & Hx & He). eapply (proj1 (Forall_forall _ _) H x Hx); [sc x| | |exact He]; [by apply some_text|done].
  - rewrite elem_of_concat_map. intros (x & Hx & He). eapply (proj1 (Forall_forall _ _) H x Hx); [sc x| | |exact He]; done.
Qed.

Definition st_text (st : vstate) : Prop := cur_text (v_cur st) ∧ Forall desc_text (v_scope st).
Definition good (r : vstate * list event) : Prop := st_text r.1 ∧ Forall ev_text r.2.
Lemma good_seq r k : good r → (∀ st, st_text st → good (k st)) → good (seq r k).
Proof.
  intros [H1 H2] Hk. split; [rewrite seq_st; by apply Hk|]. rewrite seq_evs. apply Forall_app. split; [done|]. by apply Hk.
Qed.
Lemma good_nil st : st_text st → good (st, []).
Proof. intros. split; [done|constructor]. Qed.
Lemma push_text st d : st_text st → desc_text d → st_text (v_push st d).
Proof. intros [H1 H2] Hd. split; [done|]. by apply snoc_text. Qed.
Lemma removelast_sub {A} (l : list A) x : x ∈ removelast l → x ∈ l.
Proof.
  induction l as [|a l IH]; [done|]. cbn. destruct l as [|b l]; [by intros ?%elem_of_nil|]. intros [->|H]%elem_of_cons; [by left|]. right. auto.
Qed.
Lemma pop_text st : st_text st → st_text (v_pop st).
Proof.
  intros [H1 H2]. split; [done|]. cbn. unfold scope_pop. apply Forall_forall. intros x Hx%removelast_sub. by apply (proj1 (Forall_forall _ _) H2).
Qed.
Lemma good_pop r : good r → good (let '(st', e) := r in (v_pop st', e)).
Proof. destruct r as [st e]. intros [H1 H2]. split; [by apply pop_text|done]. Qed.
Lemma spec_name_text ns : Forall (λ i, utf8 (id_name i)) ns → utf8 (spec_scope_name fs ns).
Proof.
  intros H. unfold spec_scope_name. destruct ns as [|i [|j l]]; [done|by inversion H|].
  apply utf8_app; [done|]. apply utf8_app; [apply utf8_ascii, show_Z_ascii|]. apply utf8_app; [done|apply utf8_ascii, show_Z_ascii].
Qed.

Lemma vvl_text l : Forall (λ x, source_text x → ∀ m st, st_text st → good (vv m x st)) l → (∀ x, x ∈ l → source_text x) →
  ∀ st, st_text st → good (vvl digest ti fs l st).
Proof.
  induction 1 as [|x l Hx Hl IH]; intros Hs st Hst; [by apply good_nil|]. cbn [vvl]. apply good_seq; [apply Hx; [apply Hs; by left|done]|].
  intros. apply IH; [|done]. intros y Hy. apply Hs. by right.
Qed.
Lemma vvnames_text n t l : source_text n → (∀ i, i ∈ l → utf8 (id_name i)) → (∀ m st, st_text st → good (vv m t st)) →
  ∀ st, st_text st → good (vvnames digest ti fs n t l st).
Proof.
  intros Hn. induction l as [|i l IH]; intros Hi Ht st Hst; [by apply good_nil|]. cbn [vvnames]. apply good_seq.
  - pose proof (Ht ANON st Hst) as [A B]. destruct (vv ANON t st) as [st' e]. split; [done|]. cbn. constructor; [|done].
    apply ev_text_intro; [apply Hst|by apply some_text|]. apply Hi. by left.
  - intros. apply IH; [|done|done]. intros j Hj. apply Hi. by right.
Qed.

Lemma vv_text n : source_text n → ∀ m st, st_text st → good (vv m n st).
Proof.
  induction n using node_ind'; intros Hs md st Hst; destruct md; cbn [Pass1.vv]; fold (vvl digest ti fs);
    try (by apply good_nil).
  - destruct ns as [|i0 ns0].
    + split; [done|]. cbn. apply Forall_forall. intros e (i & -> & Hi)%elem_of_list_fmap. apply ev_text_intro; [apply Hst|by apply some_text|].
      eapply ident_of_type_expr_text; [|done]. sc n.
    + change (good (vvnames digest ti fs (NField d c (i0 :: ns0) n) n (i0 :: ns0) st)). apply vvnames_text; [done| |apply IHn; sc n|done].
      intros i Hi. eapply source_ident; [|exact Hs]. child_mem.
  - apply vvl_text; [done| |done]. intros x Hx. sc x.
  - apply IHn; [sc n|done].
  - destruct (String.eqb _ _); [by apply good_nil|]. apply good_pop, IHn; [sc n|]. apply push_text; [done|apply anon_key_text].
  - apply IHn; [sc n|done].
  - destruct (String.eqb _ _); [by apply good_nil|]. apply good_pop, IHn; [sc n|]. apply push_text; [done|apply anon_key_text].
  - apply good_seq; [apply IHn1; [sc n1|done]|]. intros. apply good_seq; [apply IHn2; [sc n2|done]|]. intros. apply IHn3; [sc n3|done].
  - apply good_seq; [apply IHn1; [sc n1|done]|]. intros. apply IHn2; [sc n2|done].
  - apply good_seq; [apply IHn1; [sc n1|done]|]. intros. apply IHn2; [sc n2|done].
  - apply good_seq; [|intros; apply IHn; [sc n|done]]. destruct l as [x|]; [|by apply good_nil]. cbn in H. apply H; [sc x|done].
  - apply IHn; [sc n|done].
  - apply IHn; [sc n|done].
  - apply IHn; [sc n|done].
  - apply IHn; [sc n|done].
  - apply IHn; [sc n|done].
  - apply IHn; [sc n|done].
  - apply good_seq; [apply IHn1; [sc n1|done]|]. intros. apply IHn2; [sc n2|done].
  - apply good_seq; [apply IHn1; [sc n1|done]|]. intros. apply IHn2; [sc n2|done].
  - apply good_seq; [apply IHn; [sc n|done]|]. intros. apply vvl_text; [done| |done]. intros x Hx. sc x.
  - apply IHn; [sc n|done].
  - apply good_seq; [apply IHn1; [sc n1|done]|]. intros. apply IHn2; [sc n2|done].
  - apply vvl_text; [done| |done]. intros x Hx. sc x.
  - apply good_seq; [apply IHn1; [sc n2|done]|]. intros. apply IHn2; [sc n3|done].
  - (* ValueSpec *)
    assert (Hns : Forall (λ i, utf8 (id_name i)) ns).
    { apply Forall_forall. intros i Hi. eapply source_ident; [|exact Hs]. child_mem. }
    assert (Hvs : ∀ st, st_text st → good (vvl digest ti fs vs st)).
    { intros. apply vvl_text; [done| |done]. intros x Hx. sc x. }
    assert (H1 : Forall ev_text (map (λ i, Ev (v_scope st ++ [Desc (id_name i) Term]) (v_cur st) i (id_pos i)) ns)).
    { apply Forall_fmap, Forall_forall. intros i Hi. apply ev_text_intro; [apply Hst|apply Hst|]. by apply (proj1 (Forall_forall _ _) Hns). }
    destruct ns as [|i0 ns0]; [by apply good_nil|]. set (st1 := v_push st _).
    assert (Hst1 : st_text st1) by (apply push_text; [done|by apply spec_name_text]).
    set (r := match t with Some _ => _ | None => _ end). assert (Hr : good r).
    { subst r. destruct t as [t|]; [|by apply good_pop, Hvs]. destruct (vtype_action_of t).
      - by apply good_pop, Hvs.
      - apply good_seq; [cbn in H; apply H; [sc t|done]|]. intros. by apply good_pop, Hvs.
      - by apply good_nil. }
    destruct r as [st' e]. destruct Hr as [A B]. split; [done|]. apply Forall_app. by split.
  - destruct k; try (by apply good_nil); (apply vvl_text; [done|intros x Hx; sc x|]; split; [by apply some_text|apply Hst]).
  - apply good_seq; [destruct r as [x|]; [|by apply good_nil]; cbn in H; apply H; [sc x|done]|]. intros. apply good_seq; [apply IHn; [sc n0|done]|].
    intros. destruct b as [x|]; [|by apply good_nil]. cbn in H0. apply H0; [sc x|done].
  - apply vvl_text; [done| |done]. intros x Hx. sc x.
  - apply vvl_text; [done| |done]. intros x Hx. sc x.
Qed.
End Pass1Text.

Section Fv.
Lemma base_type_name_text x r : source_text x → base_type_name x = Some r → utf8 r.
Proof.
  induction x; cbn [base_type_name]; intros Hs; try done.
  - intros [= <-]. by apply (source_self (NIdent _)).
  - apply IHx. sc x.
  - apply IHx. sc x.
  - apply IHx1. sc x1.
  - apply IHx. sc x.
Qed.
Lemma receiver_name_text r s : (∀ x, r = Some x → source_text x) → receiver_type_name r = Some s → utf8 s.
Proof.
  unfold receiver_type_name. destruct r as [x|]; [|done]. intros H. specialize (H x eq_refl). destruct x; try done. destruct fields as [|f l]; [done|]. destruct f; try done.
  apply base_type_name_text. assert (source_text (NField doc cmt names f)) by sc (NField doc cmt names f). sc f.
Qed.
Lemma iface_events_text sc n e : source_text n → Forall desc_text sc → e ∈ iface_method_events sc n → ev_text e.
Proof.
  intros Hn Hsc. unfold iface_method_events. destruct n; try (by intros ?%elem_of_nil). rewrite elem_of_concat_map. intros (f & Hf & He).
  assert (Hs : source_text f) by sc f. destruct f; try (by apply elem_of_nil in He). apply elem_of_list_fmap in He as (i & -> & Hi).
  apply ev_text_intro; [done|by apply some_text|]. eapply source_ident; [|exact Hs]. child_mem.
Qed.
Lemma fvl_text sc l e : Forall (λ x, source_text x → ∀ sc e, Forall desc_text sc → e ∈ fv sc x → ev_text e) l → (∀ x, x ∈ l → source_text x) →
  Forall desc_text sc → e ∈ fvl sc l → ev_text e.
Proof. intros H Hs Hsc (x & Hx & He)%fvl_ev. eapply (proj1 (Forall_forall _ _) H); eauto. Qed.
Lemma fv_text n : source_text n → ∀ sc e, Forall desc_text sc → e ∈ fv sc n → ev_text e.
Proof.
  induction n using node_ind'; intros Hs scp ev Hsc; cbn [fv]; fold (fvl scp);
    rewrite ?elem_of_app; try (by intros ?%elem_of_nil);
    try (by intros He; eapply fvl_text; [eassumption|intros x Hx; sc x|exact Hsc|exact He]);
    try (by intros He; eapply IHn; [sc n|exact Hsc|exact He]);
    try (by intros [He|He]; [eapply IHn1; [sc n1|exact Hsc|exact He]|eapply IHn2; [sc n2|exact Hsc|exact He]]).
  - intros He. eapply iface_events_text; [|exact Hsc|exact He]. sc n.
  - intros He. eapply IHn3; [sc n3|exact Hsc|exact He].
  - intros [He|He]; [|eapply IHn; [sc n|exact Hsc|exact He]]. destruct l as [x|]; [|by apply elem_of_nil in He].
    cbn in H. eapply H; [sc x|exact Hsc|exact He].
  - intros [He|He]; [eapply IHn; [sc n|exact Hsc|exact He]|]. eapply fvl_text; [eassumption|intros x Hx; sc x|exact Hsc|exact He].
  - intros [He|He]; [eapply IHn1; [sc n2|exact Hsc|exact He]|eapply IHn2; [sc n3|exact Hsc|exact He]].
  - intros [He|He].
    + destruct t as [x|]; [|by apply elem_of_nil in He]. cbn in H. eapply H; [sc x|exact Hsc|exact He].
    + eapply fvl_text; [exact H0|intros x Hx; sc x|exact Hsc|exact He].
  - assert (Hi : utf8 (id_name n)) by (eapply source_ident; [|exact Hs]; child_mem).
    assert (Hsc1 : Forall desc_text (match receiver_type_name r with Some r0 => scp ++ [Desc r0 Type_] | None => scp end)).
    { destruct (receiver_type_name r) as [r0|] eqn:Er; [|done]. apply snoc_text; [done|]. eapply receiver_name_text; [|exact Er]. intros x ->. sc x. }
    intros [->|He]%elem_of_cons; [apply ev_text_intro; [done|by apply some_text|done]|].
    eapply IHn; [sc n0| |exact He]. apply Forall_app. split; [done|]. constructor; [done|]. by constructor.
Qed.
End Fv.

(** *** tables *)
Notation info_text i := (info_utf8 i = true).
Lemma info_spec i : info_text i ↔ utf8 (i_symbol i) ∧ Forall (λ s, utf8 s) (i_documentation i) ∧ Forall (λ r, utf8 (r_symbol r)) (i_relationships i) ∧
  utf8 (i_display_name i) ∧ (∀ t, i_signature i = Some t → utf8 t) ∧ utf8 (i_enclosing i).
Proof.
  assert (F : ∀ {A} (f : A → bool) l, forallb f l = true ↔ Forall (λ x, f x = true) l).
  { intros A f l. rewrite forallb_forall, Forall_forall. setoid_rewrite elem_of_list_In. done. }
  unfold info_utf8. rewrite !andb_true_iff, !F. destruct (i_signature i); split; try tauto.
  - intros (((((?&?)&?)&?)&?)&?). split_and!; try done. by intros ? [= <-].
  - intros (?&?&?&?&Hs&?). specialize (Hs _ eq_refl). tauto.
  - intros (((((?&?)&?)&?)&?)&?). split_and!; done.
Qed.
Lemma bare_text s : utf8 s → info_text (bare_info s).
Proof. intros H. apply info_spec. cbn. split_and!; try done; constructor. Qed.
Definition tbl_text (t : ptable) : Prop := ∀ pos i, t !! pos = Some i → info_text i.
Definition glob_text (g : global) : Prop :=
  (∀ id p t, g_symbols g !! id = Some (p, t) → module_text p ∧ tbl_text t) ∧ (∀ id s, g_pkgsyms g !! id = Some s → utf8 s).
Definition composer_text (c : composer) : Prop :=
  utf8 (c_default_path c) ∧ utf8 (c_default_version c) ∧ Forall (λ e : nat * string, utf8 e.2) (c_memo c).
Definition caches_text (k : caches) : Prop := composer_text (k_composer k).

Lemma pset_text t pos i : tbl_text t → info_text i → tbl_text (pset t pos i).
Proof.
  intros Ht Hi. unfold pset. assert (K : tbl_text (<[pos := i]> t)).
  { intros pos' i'. rewrite lookup_insert_Some. intros [[_ <-]|[_ E]]; [done|]. by eapply Ht. }
  destruct (t !! pos); [|done]. by destruct (String.eqb _ _).
Qed.

Lemma hover_node_text n : source_text n → utf8 (hover_node n).
Proof.
  intros H. pose proof (source_self n H) as Hn. destruct n; cbn [hover_node]; try done; cbn in Hn.
  - destruct Hn. apply utf8_trim_space, utf8_app; [done|]. by apply utf8_app.
  - by apply utf8_trim_space.
  - destruct Hn. apply utf8_trim_space, utf8_app; [done|]. by apply utf8_app.
  - by apply utf8_trim_space.
  - by apply utf8_trim_space.
  - destruct has_doc; [by apply utf8_trim_space|]. apply utf8_app; [done|]. eapply source_ident; [|exact H]. child_mem.
Qed.
Lemma hover_ident_text par i : cur_text par → utf8 (hover_ident par i).
Proof.
  intros H. unfold hover_ident. destruct par as [n|]; [|done]. specialize (H n eq_refl).
  destruct n; try (by apply hover_node_text). destruct (List.find _ specs) as [s|] eqn:E; [|by apply hover_node_text].
  apply List.find_some in E as [E _]. apply elem_of_list_In in E. assert (source_text s) by sc s. unfold hover_spec.
  destruct (String.eqb _ _); by apply hover_node_text.
Qed.
Lemma documentation_text par i : cur_text par → Forall (λ s, utf8 s) (documentation par i).
Proof.
  intros H. pose proof (hover_ident_text par i H) as Hh. unfold documentation. set (docs := if String.eqb _ _ then _ else _).
  assert (Hd : Forall (λ s, utf8 s) docs) by (subst docs; destruct (String.eqb _ _); by repeat constructor).
  destruct par as [n|]; [|done]. destruct n; try done. specialize (H _ eq_refl). pose proof (source_self _ H) as Hn. cbn in Hn. apply utf8_trim_space in Hn.
  destruct (String.eqb (trim_space doc) ""); [done|]. destruct docs as [|d0 l]; [by repeat constructor|]. destruct (String.eqb _ _); [done|].
  apply Forall_app. split; [done|]. by constructor.
Qed.

Section Tables.
Context (digest : string → string) (env : tenv) (fs : fset) (h : pheap) (objstr : obj → string) (mo : map_orders).
Context (Hdig : ∀ s, utf8 (digest s)).

Lemma file_events_text ti path f e : utf8 path → source_text f → e ∈ file_events digest ti fs path f → ev_text e.
Proof.
  intros Hp Hf. unfold file_events. assert (Hsc : Forall desc_text (new_scope path)) by by repeat constructor.
  rewrite elem_of_app. intros [He|He]; [by eapply (tv_text digest ti Hdig f Hf WALK false None)|].
  destruct f; try (by apply elem_of_nil in He). apply elem_of_concat_map in He as (d & Hd & He). assert (Hs : source_text d) by sc d.
  unfold decl_events in He. destruct d; try (by apply elem_of_nil in He).
  - destruct tok; try (by apply elem_of_nil in He);
    (pose proof (vv_text digest ti fs Hdig _ Hs WALK (VState None (new_scope path))) as [_ Hv]; [by split|]; by apply (proj1 (Forall_forall _ _) Hv)).
  - by eapply fv_text.
Qed.

Lemma apply_event_text ti p t e t' : info_texts objstr ti → module_text p → tbl_text t → ev_text e → apply_event ti env p t e = Ok t' → tbl_text t'.
Proof.
  intros Hti Hp Ht (H1 & H2 & H3). unfold apply_event. destruct (from_descriptors p (e_descs e)) as [s|] eqn:E; [|done]. cbn [res_bind]. intros [= <-].
  apply pset_text; [done|]. apply info_spec. unfold new_symbol_info. cbn. split_and!; try done.
  - by eapply from_descriptors_text.
  - by apply documentation_text.
  - intros t0. destruct (ti_defs ti (id_ptr (e_ident e))) as [o|] eqn:Eo; [|done]. destruct (String.eqb _ _); [done|]. intros [= <-]. destruct Hti as [Hd _ _]. by destruct (Hd _ _ Eo) as (_ & ? & _).
Qed.
Lemma package_table_text ti p t : info_texts objstr ti → package_text p → (∀ f, f ∈ p_syntax p → source_text f) → visit_package_table digest ti fs env p = Ok t → tbl_text t.
Proof.
  intros Hti (Hp & _ & Hm) Hs. unfold visit_package_table.
  assert (He : Forall ev_text (package_events digest ti fs p)).
  { apply Forall_forall. intros e. unfold package_events. rewrite elem_of_concat_map. intros (f & Hf & He). eapply file_events_text; eauto. }
  assert (H0 : tbl_text ∅) by (intros ? ? E; by rewrite lookup_empty in E). revert H0. generalize (∅ : ptable).
  induction He as [|e l He Hl IH]; intros t0 H0; cbn [res_fold]; [by intros [= <-]|].
  destruct (apply_event ti env p t0 e) as [t1|] eqn:E; [|done]. cbn [res_bind]. apply IH. by eapply apply_event_text.
Qed.

(** composed symbols *)
Lemma name_type_text r : receiver_text r → utf8 (name_type r).
Proof. induction r; cbn; try done; auto. Qed.
Lemma describe_text tp o : names_text o → o_pkg o = Some tp → Forall desc_text (describe env tp o).
Proof.
  intros (Hn & Hk & Hp) E. destruct (Hp tp E) as [Ht Hs]. unfold describe. destruct (o_kind o) as [path| | |[]|[[r|]|]| | |]; try (by repeat constructor).
  - unfold locate_owner. destruct (List.find _ _) as [e|] eqn:Ef; cbn; [|constructor]. apply List.find_some in Ef as [Ef _]. apply elem_of_list_In in Ef.
    pose proof (proj1 (Forall_forall _ _) Hs e Ef). by repeat constructor.
  - destruct (String.eqb _ _); [constructor|]. apply name_type_text in Hk. by repeat constructor.
Qed.
Lemma assoc_elem {A} n (l : list (nat * A)) s : assoc_nat n l = Some s → (n, s) ∈ l.
Proof. induction l as [|[k a] l IH]; [done|]. cbn. destruct (Nat.eqb_spec n k) as [->|]; [intros [= ->]; by left|]. intros H. right. auto. Qed.
Lemma pack_text c p : composer_text c → module_text p → utf8 (sp_manager (pack c (Some p))) ∧ utf8 (sp_name (pack c (Some p))) ∧ utf8 (sp_version (pack c (Some p))).
Proof. intros (H1 & H2 & _) Hm. cbn. destruct (p_module p) as [m|] eqn:E; [|done]. by destruct (Hm m E). Qed.
Lemma compose_text c p o s c' : composer_text c → module_text p → object_text o → compose env c (Some p) (Some o) = (s, c') → utf8 s ∧ composer_text c'.
Proof.
  intros Hc Hp [Ho Hor]. unfold compose. destruct (o_pkg o); [|by intros [= <- <-]].
  destruct (assoc_nat _ _) as [s0|] eqn:Ea; [intros [= <- <-]; split; [|done]; apply assoc_elem in Ea; by apply (proj1 (Forall_forall _ _) (proj2 (proj2 Hc)) _ Ea)|].
  destruct (o_pkg (origin o)) as [tp|] eqn:Et; [|by intros [= <- <-]]. pose proof (describe_text tp (origin o) Hor Et) as Hd.
  destruct (describe env tp (origin o)) as [|d l]; [by intros [= <- <-]|]. destruct (pack_text c p Hc Hp) as (P1 & P2 & P3).
  assert (U : utf8 (format_symbol (Sym "scip-go" (pack c (Some p)) (d :: l)))) by by apply format_symbol_text.
  intros [= <- <-]. split; [exact U|]. destruct Hc as (C1 & C2 & C3). split_and!; [done|done|]. cbn. by constructor.
Qed.
Lemma first_some_elem {A B} (f : A → option B) l b : first_some f l = Some b → ∃ a, a ∈ l ∧ f a = Some b.
Proof. induction l as [|a l IH]; [done|]. cbn. destruct (f a) eqn:E; [intros [= <-]; exists a; split; [by left|done]|]. intros (x & Hx & E')%IH. exists x. split; [by right|done]. Qed.
Lemma get_info_text g id pos i : glob_text g → get_info_by_path g id pos = Some i → info_text i.
Proof. intros [H _]. unfold get_info_by_path. destruct (g_symbols g !! id) as [[p t]|] eqn:E; [|done]. intros Hi. by eapply (proj2 (H _ _ _ E)). Qed.
Lemma lookup_in_package_text g c tp o r c' : glob_text g → composer_text c → object_text o → lookup_in_package env g c tp o = (r, c') →
  (∀ i, r = Found i → info_text i) ∧ composer_text c'.
Proof.
  intros Hg Hc Ho. unfold lookup_in_package. destruct (String.eqb _ _); [by intros [= <- <-]|].
  destruct (first_some _ _) as [i|] eqn:E; [intros [= <- <-]; split; [|done]; intros i' [= <-]; apply first_some_elem in E as (id & _ & E); by eapply get_info_text|].
  destruct (g_symbols g !! tp_path tp) as [[p t]|] eqn:Eg; [|by intros [= <- <-]]. destruct (compose env c (Some p) (Some o)) as [s c1] eqn:Ec.
  destruct (compose_text c p o s c1 Hc) as [Hs Hc1]; [by eapply (proj1 (proj1 Hg _ _ _ Eg))|done|done|].
  destruct (String.eqb s ""); intros [= <- <-]; [done|]. split; [|done]. intros i [= <-]. by apply bare_text.
Qed.
Lemma get_symbol_text g k o r k' : glob_text g → caches_text k → object_text o → get_symbol_of_object env g k o = Ok (r, k') →
  (∀ i, r = Found i → info_text i) ∧ caches_text k'.
Proof.
  intros Hg Hk Ho. unfold get_symbol_of_object. destruct (decide _); [by intros [= <- <-]|].
  assert (K : ∀ tp r k', (let '(r, c') := lookup_in_package env g (k_composer k) tp o in Ok (r, Caches (k_skipped k) c')) = Ok (r, k') →
     (∀ i, r = Found i → info_text i) ∧ caches_text k').
  { intros tp r0 k0. destruct (lookup_in_package env g (k_composer k) tp o) as [r1 c1] eqn:E. intros [= <- <-]. by eapply lookup_in_package_text. }
  destruct (o_kind o); try done; try (by intros [= <- <-]); destruct (o_pkg o) as [tp|]; try (by apply K); try done; try (by intros [= <- <-]).
  destruct (is_error_Error o); [by intros [= <- <-]|done].
Qed.
End Tables.
