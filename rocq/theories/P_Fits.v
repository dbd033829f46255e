(** The messages of a run contain 32-bit integers only, so that nothing is lost in the output. *)
From Coq Require Import Ascii String.
From stdpp Require Import prelude strings gmap.
From Verif Require Import GoStr Scip GoTypes Ast Packages Symbols Document Lookup Pass1 Pass2 Loader Index SpecIndex
  Proto P_Proto PropProto.
Open Scope string_scope.
Open Scope list_scope.
Local Open Scope Z_scope.

Lemma int32_fits x : is_int32 (int32 x).
Proof. unfold is_int32, int32. pose proof (Z.mod_pos_bound (x + 2 ^ 31) (2 ^ 32)). lia. Qed.
Lemma scip_range_fits s e o : Forall is_int32 (scip_range s e o).
Proof.
  unfold scip_range, add32, sub32. repeat match goal with |- context [if ?b then _ else _] => destruct b end;
  repeat apply List.Forall_cons; try apply List.Forall_nil; apply int32_fits.
Qed.
Lemma range_from_name_fits p n b : Forall is_int32 (range_from_name p n b).
Proof. unfold range_from_name, add32. repeat apply List.Forall_cons; try apply List.Forall_nil; apply int32_fits. Qed.
Lemma definition_ok s r e d : Forall is_int32 r → Forall is_int32 e → occ_ok (new_definition s r e d).
Proof. intros. split; [done|]. split; [done|]. vm_compute. reflexivity. Qed.
Lemma reference_ok s r d : Forall is_int32 r → occ_ok (new_reference s r d).
Proof. intros. split; [done|]. split; [constructor|]. vm_compute. reflexivity. Qed.

Section Fits.
Context (digest : string → string) (env : tenv) (fs : fset) (h : pheap) (objstr : obj → string) (mo : map_orders).

Section File.
Context (g : global) (pkg : gpkg) (ti : tinfo) (tbl : ptable) (imports : string → option gpkg).
Notation good st := (Forall occ_ok (f_occs st)).
Lemma emit_ok st o : good st → occ_ok o → good (emit st o).
Proof. intros H1 H2. cbn. apply Forall_app. split; [done|]. by constructor. Qed.
Lemma create_local_occs st pos o s st' : create_local st pos o = Ok (s, st') → f_occs st' = f_occs st.
Proof. unfold create_local. destruct (f_locals st !! pos); [done|]. by intros [= _ <-]. Qed.
Lemma enclosing_ok st i : Forall is_int32 (enclosing_range fs ti st i).
Proof. unfold enclosing_range. destruct (f_func st) as [[[nm p] e]|]; [|constructor]. destruct (Nat.eqb _ _); [apply scip_range_fits|constructor]. Qed.
Lemma visit_def_ok st i st' : good st → visit_def g fs pkg ti tbl st i = Ok st' → good st'.
Proof.
  intros H. unfold visit_def. destruct (ti_defs ti (id_ptr i)) as [def|]; [|by intros [= <-]].
  match goal with |- context [res_bind ?x _] => destruct x as [[s st1]|] eqn:E end; [|done]. cbn [res_bind]. intros [= <-].
  assert (good st1) as H1.
  { destruct (pget_symbol tbl (o_pos def)); [by injection E as _ <-|]. destruct (get_symbol g pkg (o_pos def)); [by injection E as _ <-|].
    by rewrite (create_local_occs _ _ _ _ _ E). }
  apply emit_ok; [done|]. apply definition_ok; [apply scip_range_fits|apply enclosing_ok].
Qed.
Lemma visit_ref_ok st i st' : good st → visit_ref env g fs ti st i = Ok st' → good st'.
Proof.
  intros H. unfold visit_ref. destruct (ti_uses ti (id_ptr i)) as [r|]; [|by intros [= <-]].
  destruct (f_locals st !! o_pos r); [intros [= <-]; apply emit_ok; [done|apply reference_ok, scip_range_fits]|].
  destruct (get_symbol_of_object env g (f_caches st) r) as [[lr k']|]; [|done]. cbn [res_bind].
  destruct lr; intros [= <-]; [apply emit_ok; [done|apply reference_ok, scip_range_fits]|done|done].
Qed.
Lemma import_ok ptr nm p : Forall occ_ok (import_occurrences g fs ti imports ptr nm p).
Proof.
  unfold import_occurrences. destruct (ti_pkgname_of ti ptr) as [[? ? ? ? k ? ?]|]; [|constructor]. destruct k; try constructor.
  destruct (imports _) as [im|]; [|constructor]. destruct (get_pkg_symbol g im) as [s|]; [|constructor].
  apply Forall_app. split; [|constructor; [apply reference_ok, range_from_name_fits|constructor]].
  destruct nm as [i|]; [|constructor]. destruct (_ || _)%bool; [constructor|]. constructor; [apply reference_ok, range_from_name_fits|constructor].
Qed.
Lemma step_ok st v st' : good st → step env g fs pkg ti tbl imports st v = Ok st' → good st'.
Proof.
  intros H. destruct v as [ptr nm p|x o s|nm p e|i]; cbn [step].
  - intros [= <-]. cbn. apply Forall_app. split; [done|apply import_ok].
  - intros [= <-]. apply emit_ok; [done|apply reference_ok, scip_range_fits].
  - by intros [= <-].
  - destruct (String.eqb (id_name i) "_"); [by intros [= <-]|]. destruct (case_at ti (id_pos i)) as [o|].
    + destruct (create_local st (o_pos o) o) as [[s st1]|] eqn:E; [|done]. cbn [res_bind]. intros [= <-].
      apply emit_ok; [by rewrite (create_local_occs _ _ _ _ _ E)|]. apply definition_ok; [apply scip_range_fits|constructor].
    + destruct (visit_def g fs pkg ti tbl st i) as [st1|] eqn:E; [|done]. cbn [res_bind]. intros E2. eapply visit_ref_ok; [|exact E2]. by eapply visit_def_ok.
Qed.
Lemma visit_file_ok po k f st : occ_ok po → visit_file env g fs pkg ti tbl imports po k f = Ok st → good st.
Proof.
  intros H. unfold visit_file. assert (good (FState ∅ [po] None k)) as Hg by (cbn; by constructor). revert Hg.
  generalize (FState ∅ [po] None k). induction (visits g ti f) as [|v l IH]; intros s Hg; cbn; [by intros [= <-]|].
  destruct (step _ _ _ _ _ _ _ s v) as [s'|] eqn:Es; [|done]. cbn. apply IH. by eapply step_ok.
Qed.
End File.

Definition docs_fit (docs : docmap) : Prop := ∀ n d o, docs !! n = Some d → sd_occ d = Some o → occ_ok o.
Lemma index_file_ok g n k p f d doc k' : (∀ o, sd_occ d = Some o → occ_ok o) →
  index_file env fs h objstr mo g n k p f d = Ok (doc, k') → message_ok (MDoc doc).
Proof.
  intros Hd. unfold index_file. destruct (p_info p) as [ti|]; [|done]. destruct (sd_occ d) as [po|] eqn:Eo; [|done].
  destruct (file_name fs f) as [nm|]; [|done]. cbn [res_bind].
  destruct (visit_file _ _ _ _ _ _ _ _ _ _) as [st|] eqn:E; [|done]. cbn [res_bind]. intros [= <- _].
  cbn. eapply visit_file_ok; [|exact E]. by apply Hd.
Qed.
Lemma write_documents_fit w g docs items : docs_fit docs → ∀ sofar n k,
  Forall message_ok sofar → Forall message_ok (write_documents env fs h objstr mo w g docs sofar n k items).1.1.
Proof.
  intros Hd. induction items as [|[p f] items IH]; intros sofar n k Hs; [done|]. cbn [write_documents].
  destruct (file_name fs f) as [name|]; [|done]. destruct (docs !! name) as [d|] eqn:Ed; [|by apply IH].
  destruct (index_file _ _ _ _ _ _ _ _ _ _ _) as [[doc k']|] eqn:Ei; [|done].
  destruct (w sofar (MDoc doc)); [done|]. apply IH. apply Forall_app. split; [done|]. constructor; [|constructor].
  eapply index_file_ok; [|exact Ei]. intros o. by apply Hd with (n := name).
Qed.
Lemma write_all_fit w exts : ∀ sofar, Forall message_ok sofar → Forall message_ok (write_all w sofar (map MExt exts)).1.
Proof.
  induction exts as [|i exts IH]; intros sofar H; [done|]. cbn [write_all map]. destruct (w sofar (MExt i)); [done|].
  apply IH. apply Forall_app. split; [done|]. by constructor.
Qed.

Lemma add_documents_fit root l : ∀ docs docs', docs_fit docs → res_fold (add_document fs root) docs l = Ok docs' → docs_fit docs'.
Proof.
  induction l as [|f l IH]; intros docs docs' H; cbn; [by intros [= <-]|]. unfold add_document at 1. destruct (file_name fs f) as [n|]; [|done]. cbn [res_bind].
  apply IH. intros n' d o. rewrite lookup_insert_Some. intros [[_ <-]|[_ E]]; [done|]. by eapply H.
Qed.
Lemma occurrence_fits g p f : occ_ok (package_occurrence fs g p f).
Proof. unfold package_occurrence. apply (definition_ok _ _ [] false); [apply range_from_name_fits|constructor]. Qed.
Lemma set_occurrences_fit g p l : ∀ docs docs', docs_fit docs → res_fold (set_package_occurrence fs g p) docs l = Ok docs' → docs_fit docs'.
Proof.
  induction l as [|f l IH]; intros docs docs' H; cbn; [by intros [= <-]|]. unfold set_package_occurrence at 1. destruct (file_name fs f) as [n|]; [|done]. cbn [res_bind].
  destruct (docs !! n) as [d0|]; [|done]. cbn [res_bind]. apply IH. intros n' d o. rewrite lookup_insert_Some. intros [[_ <-]|[_ E]]; [|by eapply H].
  intros [= <-]. apply occurrence_fits.
Qed.
Lemma visit_project_fit root st p st' : docs_fit st.1 → visit_project_package digest env fs root st p = Ok st' → docs_fit st'.1.
Proof.
  intros H. unfold visit_project_package, visit_package_syntax. destruct (p_syntax p) as [|first rest] eqn:Es.
  { cbn [res_bind]. by intros [= <-]. }
  destruct (p_info p) as [ti|]; [|done]. destruct (visit_package_table _ _ _ _ _) as [tbl|]; [|done]. cbn [res_bind].
  destruct (res_fold (add_document fs root) st.1 _) as [docs|] eqn:E1; [|done]. cbn [res_bind fst snd].
  destruct (file_name fs first) as [n|]; [|done]. cbn [res_bind]. destruct (docs !! n); [|done].
  destruct (res_fold (set_package_occurrence _ _ _) docs _) as [docs'|] eqn:E2; [|done]. cbn [res_bind]. intros [= <-]. cbn.
  eapply set_occurrences_fit; [|exact E2]. by eapply add_documents_fit.
Qed.
Lemma pass1_fit root proj all po ao docs g : index_visit_packages digest env fs h root proj all po ao = Ok (docs, g) → docs_fit docs.
Proof.
  unfold index_visit_packages. destruct (set_pkg_symbols _ _ _ _) as [g0|]; [|done]. cbn [res_bind].
  assert (docs_fit ((∅ : docmap), g0).1) as H. { intros n d o E. cbn in E. by rewrite lookup_empty in E. } revert H.
  generalize ((∅ : docmap), g0). induction (packages_of h proj po) as [|p l IH]; intros st H; cbn; [by intros [= ->]|].
  destruct (visit_project_package _ _ _ _ st p) as [st'|] eqn:E; [|done]. cbn. apply IH. by eapply visit_project_fit.
Qed.

(** whatever the project, the options, the search and the writer *)
Theorem messages_fit w impl impl_error root version skip meta ld po ao po2 :
  Forall message_ok (Index.index digest env fs h objstr mo w impl impl_error root version skip meta ld po ao po2).1.
Proof.
  unfold index. destruct (w [] (MMeta meta)); [constructor|].
  assert (Hm : Forall message_ok [MMeta meta]) by by constructor.
  destruct ld as [err|all proj]; [done|]. destruct (index_visit_packages _ _ _ _ _ _ _ _ _) as [[docs g]|] eqn:E1; [|done].
  destruct (if skip then _ else _) as [[[[g' k] exts]|]|]; [|done|done].
  pose proof (write_documents_fit w g' docs (items_of (packages_of h proj po2)) (pass1_fit _ _ _ _ _ _ _ E1) [MMeta meta] 0 k Hm) as Hw.
  destruct (write_documents _ _ _ _ _ _ _ _ _ _ _ _) as [[msgs o] k'] eqn:E2. cbn [fst] in Hw.
  destruct o as [[e'|]|]; [done| |done].
  pose proof (write_all_fit w exts msgs Hw) as Ha. destruct (write_all w msgs (map MExt exts)) as [msgs' e']. done.
Qed.
End Fits.
Print Assumptions messages_fit.
