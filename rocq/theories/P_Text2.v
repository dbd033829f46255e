(** Valid UTF-8, continued: the second pass, the search for implementations, the messages. *)
From Coq Require Import Ascii String.
From stdpp Require Import prelude strings gmap sorting.
From Verif Require Import GoStr Scip GoTypes Packages Symbols Document Lookup Pass1 Pass2 Paths Loader Index Ast
  SpecSymbol SpecDecl SpecIndex P_Pass1 P_Fits Proto P_Valid Fingerprint Impls SpecImpl P_Rel P_Mem SpecText P_Text.
Open Scope string_scope.
Open Scope list_scope.

Notation info_text i := (info_utf8 i = true).
Definition occ_text (o : occurrence) : Prop := utf8 (oc_symbol o).

Section File.
Context (env : tenv) (fs : fset) (h : pheap) (objstr : obj → string) (mo : map_orders).
Context (g : global) (pkg : gpkg) (ti : tinfo) (tbl : ptable) (imports : string → option gpkg).
Context (Hg : glob_text g) (Htbl : tbl_text tbl) (Hti : info_texts objstr ti).

Definition local_text (l : local) : Prop := utf8 (l_symbol l) ∧ object_text (l_obj l) ∧ utf8 (objstr (l_obj l)).
Definition fstate_text (st : fstate) : Prop :=
  Forall occ_text (f_occs st) ∧ (∀ pos l, f_locals st !! pos = Some l → local_text l) ∧ caches_text (f_caches st).
Definition visit_text (v : visit) : Prop := match v with VQual _ _ s => utf8 s | _ => True end.

Lemma visits_text n v : v ∈ visits g ti n → visit_text v.
Proof.
  revert v. induction n using node_ind'; intros v; cbn [visits];
    rewrite ?elem_of_app, ?elem_of_cons, ?elem_of_list_fmap; intros Hv;
    repeat match goal with
      | H : _ ∨ _ |- _ => destruct H as [H|H]
      | H : _ ∈ [] |- _ => by apply elem_of_nil in H
      | H : _ = VIdent _ |- _ => by rewrite H
      | H : _ = VFunc _ _ _ |- _ => by rewrite H
      | H : _ = VImport _ _ _ |- _ => by rewrite H
      | H : ∃ y, _ = VIdent y ∧ _ |- _ => destruct H as (? & -> & _); done
      | H : _ ∈ List.concat (map _ _) |- _ => apply elem_of_concat_map in H as (? & ? & H)
      | H : _ ∈ match ?o with Some _ => _ | None => _ end |- _ => destruct o
      | H : _ ∈ _ ++ _ |- _ => apply elem_of_app in H
      | H : _ ∈ _ :: _ |- _ => apply elem_of_cons in H
      | H : Forall _ ?l, H' : ?x ∈ ?l |- _ => by eapply (proj1 (Forall_forall _ _) H)
      | IH : ∀ v, v ∈ visits g ti ?n → _, H : _ ∈ visits g ti ?n |- _ => by apply IH
      end; try done.
  all: try (by cbn in *; auto).
  destruct p as [[i o] path]. destruct (get_pkg_symbol_by_id g path) as [sym|] eqn:E; [|by apply elem_of_nil in Hv].
  apply elem_of_cons in Hv as [->|Hv]; [by eapply (proj2 Hg)|]. by apply elem_of_list_singleton in Hv as ->.
Qed.

Lemma emit_text st o : fstate_text st → occ_text o → fstate_text (emit st o).
Proof. intros (H1 & H2 & H3) Ho. split; [|done]. cbn. apply Forall_app. split; [done|]. by constructor. Qed.
Lemma local_symbol_text n : utf8 ("local " +:+ show_nat n).
Proof. apply utf8_app; [done|]. apply utf8_ascii, show_nat_ascii. Qed.
Lemma create_text st pos o s st' : fstate_text st → object_text o → utf8 (objstr o) → create_local st pos o = Ok (s, st') → utf8 s ∧ fstate_text st'.
Proof.
  intros (H1 & H2 & H3) Ho Hs. unfold create_local. destruct (f_locals st !! pos); [done|]. intros [= <- <-]. pose proof (local_symbol_text (size (f_locals st))) as U.
  split; [exact U|]. split; [done|]. split; [|done]. intros pos' l. cbn [f_locals]. rewrite lookup_insert_Some. intros [[_ <-]|[_ E]]; [|by eapply H2]. split_and!; done.
Qed.
Lemma entry_text t pos i : tbl_text t → pget t pos = Some i → utf8 (i_symbol i).
Proof. intros Ht E. apply info_spec. by eapply Ht. Qed.
Lemma visit_def_text st i st' : fstate_text st → visit_def g fs pkg ti tbl st i = Ok st' → fstate_text st'.
Proof.
  intros H. unfold visit_def. destruct (ti_defs ti (id_ptr i)) as [def|] eqn:Ed; [|by intros [= <-]]. destruct (it_defs _ _ Hti _ _ Ed) as (O1 & O2 & O3).
  match goal with |- context [res_bind ?x _] => destruct x as [[s st1]|] eqn:E end; [|done]. cbn [res_bind]. intros [= <-].
  assert (utf8 s ∧ fstate_text st1) as [H1 H2]; [|by apply emit_text].
  unfold pget_symbol in E. destruct (pget tbl (o_pos def)) as [i0|] eqn:Ep; cbn [fmap option_fmap option_map] in E.
  { injection E as <- <-. split; [|done]. by eapply entry_text. }
  unfold get_symbol in E. destruct (get_info_by_path g (p_path pkg) (o_pos def)) as [i1|] eqn:Eg; cbn [fmap option_fmap option_map] in E.
  { injection E as <- <-. split; [|done]. apply info_spec. by eapply get_info_text. }
  by eapply create_text.
Qed.
Lemma visit_ref_text st i st' : fstate_text st → visit_ref env g fs ti st i = Ok st' → fstate_text st'.
Proof.
  intros H. unfold visit_ref. destruct (ti_uses ti (id_ptr i)) as [r|] eqn:Eu; [|by intros [= <-]]. pose proof (it_uses _ _ Hti _ _ Eu) as Ho.
  destruct (f_locals st !! o_pos r) as [l|] eqn:El; [intros [= <-]; apply emit_text; [done|]; by apply (proj1 (proj2 H) _ _ El)|].
  destruct (get_symbol_of_object env g (f_caches st) r) as [[lr k']|] eqn:Er; [|done]. cbn [res_bind].
  destruct (get_symbol_text env g (f_caches st) r lr k' Hg (proj2 (proj2 H)) Ho Er) as [Hl Hk].
  assert (H' : fstate_text (FState (f_locals st) (f_occs st) (f_func st) k')) by (split_and!; [apply H|apply H|exact Hk]).
  destruct lr as [info| |]; intros [= <-]; [|done|done]. apply emit_text; [done|]. apply info_spec. by apply Hl.
Qed.
Lemma imports_text ptr nm p : Forall occ_text (import_occurrences g fs ti imports ptr nm p).
Proof.
  unfold import_occurrences. destruct (ti_pkgname_of ti ptr) as [[? ? ? ? k ? ?]|]; [|constructor]. destruct k; try constructor.
  destruct (imports _) as [im|]; [|constructor]. destruct (get_pkg_symbol g im) as [s|] eqn:E; [|constructor]. pose proof (proj2 Hg _ _ E) as Hs.
  apply Forall_app. split; [|by constructor]. destruct nm as [i|]; [|constructor]. destruct (_ || _)%bool; by constructor.
Qed.
Lemma case_text pos o : case_at ti pos = Some o → object_text o ∧ utf8 (objstr o).
Proof. intros [H _]%List.find_some. by apply (it_cases _ _ Hti), elem_of_list_In. Qed.
Lemma step_text st v st' : fstate_text st → visit_text v → step env g fs pkg ti tbl imports st v = Ok st' → fstate_text st'.
Proof.
  intros H Hv. destruct v as [ptr nm p|x o s|nm p e|i]; cbn [step].
  - intros [= <-]. destruct H as (H1 & H2 & H3). split; [|done]. cbn. apply Forall_app. split; [done|apply imports_text].
  - intros [= <-]. by apply emit_text.
  - by intros [= <-].
  - destruct (String.eqb (id_name i) "_"); [by intros [= <-]|]. destruct (case_at ti (id_pos i)) as [o|] eqn:Ec.
    + destruct (case_text _ _ Ec). destruct (create_local st (o_pos o) o) as [[s st1]|] eqn:E; [|done]. cbn [res_bind]. intros [= <-].
      destruct (create_text _ _ _ _ _ H H0 H1 E). by apply emit_text.
    + destruct (visit_def g fs pkg ti tbl st i) as [st1|] eqn:E; [|done]. cbn [res_bind]. intros E2. eapply visit_ref_text; [|exact E2]. by eapply visit_def_text.
Qed.
Lemma visit_file_text po k f st : occ_text po → caches_text k → visit_file env g fs pkg ti tbl imports po k f = Ok st → fstate_text st.
Proof.
  intros Hp Hk. unfold visit_file. assert (fstate_text (FState ∅ [po] None k)) as Hs.
  { split; [by constructor|]. split; [|done]. intros pos l E. cbn in E. by rewrite lookup_empty in E. }
  revert Hs. generalize (FState ∅ [po] None k). assert (Hv : Forall visit_text (visits g ti f)) by (apply Forall_forall; apply visits_text).
  induction Hv as [|v l Hv Hl IH]; intros s Hs; cbn; [by intros [= <-]|].
  destruct (step _ _ _ _ _ _ _ s v) as [s'|] eqn:Es; [|done]. cbn. apply IH. by eapply step_text.
Qed.
Lemma local_info_text l : local_text l → info_text (local_info env ti objstr l).
Proof.
  intros (H1 & [(H2 & Hk & _) _] & H3). apply info_spec. unfold local_info. cbn. split_and!; try done; try constructor.
  intros t. destruct (case_at ti (o_pos (l_obj l))); [done|]. unfold signature_text.
  assert (U : utf8 (match o_kind (l_obj l) with OPkgName path => "import " +:+ o_name (l_obj l) +:+ " " +:+ path | _ => objstr (l_obj l) end)).
  { destruct (o_kind (l_obj l)); try done. apply utf8_app; [done|]. apply utf8_app; [done|]. by apply utf8_app. }
  destruct (String.eqb _ ""); [done|]. by intros [= <-].
Qed.
Lemma to_document_text relative file n st : utf8 relative → orders_ok mo → fstate_text st →
  doc_utf8 (to_document env fs ti objstr relative file (mo_table mo n tbl) (mo_locals mo n (f_locals st)) st) = true.
Proof.
  intros Hr [Ho1 Ho2] (H1 & H2 & H3). unfold doc_utf8, to_document. cbn [d_path d_occs d_symbols].
  assert (F : ∀ {A} (f : A → bool) l, (∀ x, x ∈ l → f x = true) → forallb f l = true).
  { intros A f l Hl. apply forallb_forall. intros x Hx. by apply Hl, elem_of_list_In. }
  rewrite Hr. cbn [andb]. apply andb_true_iff. split; [apply F; by apply Forall_forall|]. apply F. intros i. rewrite elem_of_app. intros [Hi|Hi].
  - apply elem_of_list_fmap in Hi as ([pos i'] & -> & Hi). unfold symbols_for_file in Hi. apply elem_of_list_filter in Hi as [_ Hi].
    rewrite (Ho1 n tbl) in Hi. apply elem_of_map_to_list in Hi. by eapply Htbl.
  - apply elem_of_list_fmap in Hi as ([pos l] & -> & Hi). rewrite (Ho2 n (f_locals st)) in Hi. apply elem_of_map_to_list in Hi.
    apply local_info_text. by eapply H2.
Qed.
End File.

(** *** the search for implementations *)
Lemma canonicalize_text l : Forall (λ r, utf8 (r_symbol r)) l → Forall (λ r, utf8 (r_symbol r)) (canonicalize_relationships l).
Proof.
  intros H. apply Forall_forall. intros r Hr. assert (Hs : r_symbol r ∈ map r_symbol l).
  { apply rel_for_in. rewrite <- canonicalize_for. apply rel_for_in, elem_of_list_fmap. by exists r. }
  apply elem_of_list_fmap in Hs as (r' & -> & Hr'). by apply (proj1 (Forall_forall _ _) H).
Qed.
Definition mem_text (m : mem) : Prop := glob_text (mm_g m) ∧ Forall (λ i, info_text i) (mm_new m).
Definition def_text (d : impldef) : Prop := utf8 (d_symbol d) ∧ ∀ n c s, d_methods d !! n = Some (c, s) → utf8 s.
Definition defs_text (d : defs) : Prop := ∀ k x, d !! k = Some x → def_text x.
Lemma with_rels_text f i : (∀ l, Forall (λ r, utf8 (r_symbol r)) l → Forall (λ r, utf8 (r_symbol r)) (f l)) → info_text i → info_text (with_rels f i).
Proof. rewrite !info_spec. intros Hf (H1 & H2 & H3 & H4 & H5 & H6). cbn. split_and!; try done. by apply Hf. Qed.
Lemma upd_text f m c : (∀ l, Forall (λ r, utf8 (r_symbol r)) l → Forall (λ r, utf8 (r_symbol r)) (f l)) → mem_text m → mem_text (upd_cell f m c).
Proof.
  intros Hf [[H1 H1'] H2]. destruct c as [id pos|n]; cbn [upd_cell].
  - split; [|done]. split; [|done]. cbn [mm_g g_symbols]. intros id' p t. rewrite lookup_alter_Some. intros [(-> & [p0 t0] & E & [= -> ->])|[_ E]]; [|by eapply H1].
    destruct (H1 _ _ _ E) as [Hm Ht]. split; [done|]. intros pos' i. rewrite lookup_alter_Some. intros [(-> & i0 & E0 & ->)|[_ E0]]; [|by eapply Ht].
    apply with_rels_text; [done|]. by eapply Ht.
  - split; [done|]. cbn [mm_new]. apply Forall_forall. intros i [k Hi]%elem_of_list_lookup.
    destruct (decide (k = n)) as [->|Hne]; [|rewrite list_lookup_alter_ne in Hi by done; exact (Forall_lookup_1 _ _ _ _ H2 Hi)].
    rewrite list_lookup_alter in Hi. destruct (mm_new m !! n) as [i0|] eqn:E; [|done]. injection Hi as <-. apply with_rels_text; [done|]. exact (Forall_lookup_1 _ _ _ _ H2 E).
Qed.
Lemma add_rel_text s m c : utf8 s → mem_text m → mem_text (add_rel s m c).
Proof. intros Hs. apply upd_text. intros l Hl. apply Forall_app. split; [done|]. by constructor. Qed.
Lemma canon_text m c : mem_text m → mem_text (canon m c).
Proof. apply upd_text, canonicalize_text. Qed.
Lemma foldl_text {A B} (P : A → Prop) (f : A → B → A) l a : (∀ a b, b ∈ l → P a → P (f a b)) → P a → P (foldl f a l).
Proof.
  revert a. induction l as [|b l IH]; intros a Hf Ha; [done|]. cbn. apply IH; [|by apply Hf; [left|]]. intros a' b' Hb. apply Hf. by right.
Qed.
Section Search.
Context (env : tenv) (u : unicode) (crc : string → N) (mset : ty → list obj) (constraint_ok : ty → ty → bool).
Context (package_level : gpkg → obj → bool) (scope_objects : gpkg → list obj) (h : pheap) (ord : orders) (Hord : search_orders ord).
Context (Hheap : ∀ q p, h !! q = Some p → package_text p).
Context (Hmset : ∀ t o, o ∈ mset t → object_text o) (Hscope : ∀ p o, o ∈ scope_objects p → object_text o).

Lemma find_text pass types ifaces m n : defs_text ifaces → mem_text m → mem_text (find_implementations env mset constraint_ok ord pass types ifaces m n).1.
Proof.
  intros Hi Hm. unfold find_implementations. apply (foldl_text (λ mc : mem * nat, mem_text mc.1)); [|done].
  intros [m0 n0] [key t] _ H0. cbn [fst snd]. apply foldl_text; [intros; by apply canon_text|]. apply canon_text. apply foldl_text; [|done].
  intros m1 [ikey i] Hin H1. destruct (passes _ _ _ t i); [|done]. apply (in_order _ _ _ _ (oo_ifaces ord Hord pass key ifaces)) in Hin.
  destruct (Hi _ _ Hin) as [D1 D2]. apply foldl_text; [|by apply add_rel_text].
  intros m2 [name [c s]] Hn H2. destruct (d_methods t !! name) as [[c' s']|]; [|done]. apply (in_order _ _ _ _ (oo_imethods ord Hord pass key ikey (d_methods i))) in Hn.
  apply add_rel_text; [|done]. by eapply D2.
Qed.
Lemma intuitive_text t o : o ∈ intuitive_method_set env mset t → object_text o.
Proof.
  unfold intuitive_method_set. destruct (is_interface env t); [apply Hmset|]. intros (m & -> & Hm)%elem_of_list_fmap. destruct (mset_lookup (mset t) m) as [m'|] eqn:E; [|by eapply Hmset].
  apply List.find_some in E as [E _]. apply elem_of_list_In in E. by eapply Hmset.
Qed.
Definition methods_text (ms : gmap string (cell * string)) : Prop := ∀ n c s, ms !! n = Some (c, s) → utf8 s.
Definition news_text (nk : list syminfo * caches) : Prop := Forall (λ i, info_text i) nk.1 ∧ caches_text nk.2.
Definition xtext (st : xstate) : Prop := defs_text (x_ifaces st) ∧ defs_text (x_concretes st) ∧ news_text (x_new st, x_k st).
Lemma res_fold_text {A B} (P : A → Prop) (f : A → B → res A) l : (∀ a b a', b ∈ l → P a → f a b = Ok a' → P a') → ∀ a a', P a → res_fold f a l = Ok a' → P a'.
Proof.
  induction l as [|b l IH]; intros Hf a a' Ha; cbn [res_fold]; [by intros [= <-]|]. destruct (f a b) as [a1|] eqn:E; [|done]. cbn [res_bind].
  apply IH; [|eapply Hf; [left|done|done]]. intros a2 b2 a3 Hb. apply Hf. by right.
Qed.
Section WithG.
Context (g : global) (Hg : glob_text g).
Lemma method_symbol_text acc o acc' : object_text o → methods_text acc.1 ∧ news_text acc.2 → method_symbol env g acc o = Ok acc' → methods_text acc'.1 ∧ news_text acc'.2.
Proof.
  intros Ho. destruct acc as [ms [new k]]. intros [H1 [H2 H3]]. unfold method_symbol. destruct (get_symbol_of_object env g k o) as [[r k']|] eqn:E; [|done].
  destruct (get_symbol_text env g k o r k' Hg H3 Ho E) as [Hr Hk]. cbn [res_bind fst snd]. intros [= <-].
  destruct r as [i| |]; [|by split_and!|by split_and!]. specialize (Hr i eq_refl). assert (Hs : utf8 (i_symbol i)) by by apply info_spec.
  assert (K : ∀ c, methods_text (<[obj_Id o := (c, i_symbol i)]> ms)).
  { intros c n c' s. rewrite lookup_insert_Some. intros [[_ [= <- <-]]|[_ E']]; [done|]. by eapply H1. }
  destruct (object_cell g o); (split; [apply K|]; split; [|exact Hk]; cbn [fst snd]); [done|]. apply Forall_app. split; [done|]. by constructor.
Qed.
Lemma classify_text named c s pkg st st' : utf8 s → xtext st → classify env u crc mset g named c s pkg st = Ok st' → xtext st'.
Proof.
  intros Hs (H1 & H2 & H3). unfold classify. destruct (intuitive_method_set env mset named) as [|m0 l0] eqn:Em; [by intros [= <-]|]. rewrite <- Em.
  destruct (res_fold (method_symbol env g) _ _) as [[ms [new k]]|] eqn:E; [|done]. cbn [res_bind].
  destruct (method_mask u crc _) as [mask|]; [|done]. cbn [res_bind]. intros [= <-].
  assert (methods_text ms ∧ news_text (new, k)) as [K1 K2].
  { refine (res_fold_text (λ acc : gmap string (cell * string) * (list syminfo * caches), methods_text acc.1 ∧ news_text acc.2) _ _ _ _ _ _ E).
    - intros a b a' Hb Ha Ea. eapply method_symbol_text; [|exact Ha|exact Ea]. by eapply intuitive_text.
    - split; [|done]. intros ? ? ? E'. cbn in E'. by rewrite lookup_empty in E'. }
  assert (X : ∀ d, defs_text d → defs_text (<[s := ImplDef c s named ms mask (length (intuitive_method_set env mset named)) (has_unexported_methods (intuitive_method_set env mset named)) pkg]> d)).
  { intros d Hd k' x. rewrite lookup_insert_Some. intros [[_ <-]|[_ E']]; [|by eapply Hd]. by split. }
  destruct (is_interface env named); (split; [|split]); try done; by apply X.
Qed.
Lemma extract_def_text p tbl st o st' : tbl_text tbl → xtext st → extract_def env u crc mset package_level g p tbl st o = Ok st' → xtext st'.
Proof.
  intros Ht Hx. unfold extract_def. destruct (negb _); [by intros [= <-]|]. destruct (match p_types p with Some _ => _ | None => _ end); [by intros [= <-]|].
  destruct (o_type o); try (by intros [= <-]). destruct (pget tbl (o_pos o)) as [i|] eqn:E; [|by intros [= <-]]. apply classify_text; [|done]. by eapply entry_text.
Qed.
Lemma extract_object_text p st o st' : module_text p → object_text o → xtext st → extract_object env u crc mset g p st o = Ok st' → xtext st'.
Proof.
  intros Hp Ho (H1 & H2 & H3 & H4). unfold extract_object. destruct (negb _); [by intros [= <-]|]. destruct (o_type o); try (by intros [= <-]).
  destruct (compose env _ _ _) as [s c] eqn:E. destruct (compose_text env (k_composer (x_k st)) p o s c H4 Hp Ho E) as [Hs Hc].
  destruct (String.eqb s ""); [intros [= <-]; exact (conj H1 (conj H2 (conj H3 Hc)))|]. apply classify_text; [done|]. split; [done|]. split; [done|]. split; [|done].
  cbn [fst x_new]. apply Forall_app. split; [done|]. constructor; [|constructor]. by apply bare_text.
Qed.
Lemma extract_package_text st p st' : package_text p → xtext st → extract_package env u crc mset package_level scope_objects ord g st p = Ok st' → xtext st'.
Proof.
  intros (_ & _ & Hp) Hx. unfold extract_package. destruct (String.eqb _ _); [by intros [= <-]|]. destruct (p_info p).
  - unfold extract_local. destruct (get_package g p) as [tbl|] eqn:E; [|by intros [= <-]].
    assert (Ht : tbl_text tbl). { unfold get_package in E. destruct (g_symbols g !! p_path p) as [[p0 t0]|] eqn:E0; [|done]. injection E as <-. by eapply (proj1 Hg). }
    apply (res_fold_text xtext); [|done]. intros a b a' _. by apply extract_def_text.
  - destruct (p_types p); [|by intros [= <-]]. unfold extract_remote. apply (res_fold_text xtext); [|done]. intros a b a' Hb. apply extract_object_text; [done|]. by eapply Hscope.
Qed.
Lemma extract_text pkgs new k st : news_text (new, k) → extract env u crc mset package_level scope_objects ord h g pkgs new k = Ok st → xtext st.
Proof.
  intros Hn. unfold extract. apply (res_fold_text xtext).
  - intros a p a' Hp. apply extract_package_text. apply elem_of_list_omap in Hp as (key & _ & E). destruct (pkgs !! key); [|done]. by eapply Hheap.
  - assert (D : defs_text ∅) by (intros k' x E; cbn in E; by rewrite lookup_empty in E). by split_and!.
Qed.
End WithG.
Lemma gained_text m l : mem_text m → Forall (λ i, info_text i) (gained m l).
Proof.
  intros [[H1 _] H2]. apply Forall_forall. intros i (kt & _ & E)%elem_of_list_omap. destruct (cell_info m (d_sym kt.2)) as [i'|] eqn:Ei; [|done].
  assert (i' = i) as -> by (destruct (i_relationships i'); congruence). destruct (d_sym kt.2) as [id pos|n]; cbn in Ei.
  - unfold get_info_by_path in Ei. destruct (g_symbols (mm_g m) !! id) as [[p t]|] eqn:Eg; [|done]. by eapply (proj2 (H1 _ _ _ Eg)).
  - by eapply (Forall_lookup_1 _ _ _ _ H2).
Qed.
Lemma impl_text proj all g k g' k' exts : glob_text g → caches_text k →
  impl_phase env u crc mset constraint_ok package_level scope_objects ord h proj all g k = Ok (Some (g', k', exts)) →
  glob_text g' ∧ caches_text k' ∧ Forall (λ i, info_text i) exts.
Proof.
  intros Hg Hk. unfold impl_phase, add_implementation_relationships.
  destruct (extract _ _ _ _ _ _ _ _ _ proj _ _) as [l|] eqn:El; [|done]. cbn [res_bind].
  destruct (extract _ _ _ _ _ _ _ _ _ (remote_packages all proj) _ _) as [r|] eqn:Er; [|done]. cbn [res_bind].
  pose proof (extract_text g Hg _ _ _ _ (conj (List.Forall_nil _) Hk : news_text ([], k)) El) as (L1 & L2 & L3).
  pose proof (extract_text g Hg _ _ _ _ L3 Er) as (R1 & R2 & R3 & R4).
  set (m0 := Mem g (x_new r)). assert (M0 : mem_text m0) by (split; done).
  pose proof (find_text 0 (x_concretes l) (x_ifaces l) m0 0 L1 M0) as M1. destruct (find_implementations _ _ _ _ 0 _ _ _ _) as [m1 n1].
  pose proof (find_text 1 (x_concretes l) (x_ifaces r) m1 n1 R1 M1) as M2. destruct (find_implementations _ _ _ _ 1 _ _ _ _) as [m2 n2].
  pose proof (find_text 2 (x_concretes r) (x_ifaces l) m2 n2 L1 M2) as M3. destruct (find_implementations _ _ _ _ 2 _ _ _ _) as [m3 n3].
  cbn [res_bind fst snd]. intros [= <- <- <-]. split; [apply M3|]. split; [done|]. by apply gained_text.
Qed.
End Search.
