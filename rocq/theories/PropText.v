(** C66: scip-go fails only for reasons outside it: every message can be encoded, so that a run that
    could load the project and write its output succeeds. *)
From Coq Require Import Ascii String.
From stdpp Require Import prelude strings gmap sorting.
From Verif Require Import GoStr Scip GoTypes Packages Symbols Document Lookup Pass1 Pass2 Paths Env
  Loader Index Ast SpecSymbol SpecDecl SpecLookup SpecOcc SpecIndex
  P_Symbols P_Pass1 P_Link P_Lookup P_Pass2 P_Occ P_Scope P_Index P_Doc PropSymbols PropDecl PropOcc PropIndex PropLoader P_Loader P_Load
  Output Proto P_Proto PropProto P_Fits Cli PropCli Options PropPaths PropOptions Url PropUrl
  Fingerprint SpecTypes P_Finger PropFinger Impls SpecImpl P_Mem P_Impl PropImpl PropDet PropCross PropNav PropMember Program PropEnd
  P_Valid P_Rel Quote SpecText SpecSig P_Text P_Text2 P_Text3 P_SigText Signature PropHover.
Open Scope string_scope.
Open Scope list_scope.

(** *** Specification *)
(** The texts that reach scip-go from outside are valid UTF-8: the command line, the paths and names of packages,
    modules and files, the sources and the names of objects. *)
Record go_text (S : surroundings) (o : run_opts) (P : project) : Prop := GoText {
  gt_root : utf8 (io_module_root (ro_index o));
  gt_version : utf8 (io_module_version (ro_index o));
  gt_arguments : Forall (λ a, utf8 a) (io_arguments (ro_index o));
  gt_tool : utf8 (su_tool S);
  gt_digest : ∀ s, utf8 (su_digest S s);
  gt_files : ∀ pos n, fs_file (pr_fs P) pos = Some n → utf8 n;
  gt_packages : ∀ q p, pr_heap P !! q = Some p → package_text p;
  gt_sources : ∀ q p f, pr_heap P !! q = Some p → f ∈ p_syntax p → source_text f;
  gt_objects : ∀ q p ti, pr_heap P !! q = Some p → p_info p = Some ti → info_names (su_objstr S) ti;
  gt_methods : ∀ t m, m ∈ su_mset S t → object_text m;
  gt_scopes : ∀ p m, m ∈ su_scope S p → object_text m }.

(** The signature texts that scip-go makes of the declarations are valid UTF-8. *)
Definition go_signatures (P : project) : Prop := ∀ q p ti, pr_heap P !! q = Some p → p_info p = Some ti → signatures_text ti.

(** The signatures are those that Signature.v makes (C62) of what go/types knows of the objects, [view]: its names are
    identifiers, its constants are printed in valid UTF-8, and go/format keeps UTF-8 valid.  Nothing is said of tags. *)
Definition printed (S : surroundings) (P : project) (view : obj → hobj) : Prop := ∃ gofmt, gofmt_text gofmt ∧
  ∀ q p ti x ob, pr_heap P !! q = Some p → p_info p = Some ti → ti_defs ti x = Some ob →
    ti_sig ti ob = type_string_for_object (quote (su_unicode S)) unquote gofmt (view ob) ∧ object_plain (view ob).
(** The struct tags in the types of the fields that the project declares are valid UTF-8. *)
Definition tags_text (P : project) (view : obj → hobj) : Prop :=
  ∀ q p ti x ob tag, pr_heap P !! q = Some p → p_info p = Some ti → ti_defs ti x = Some ob → tag ∈ field_tags (view ob) → utf8 tag.

(** *** Proofs *)
(** C66: the signature texts are valid just when those tags are; the text of a local declaration is always valid. *)
Theorem C66_signature_texts : ∀ u gofmt o, gofmt_text gofmt → object_plain o →
  (utf8 (type_string_for_object (quote u) unquote gofmt o) ↔ ∀ tag, tag ∈ field_tags o → utf8 tag) ∧ utf8 (local_signature (quote u) o).
Proof. intros u gofmt o Hg Ho. destruct (signature_utf8 u gofmt o Hg Ho) as [H1 H2]. by rewrite H1, Forall_forall. Qed.
Print Assumptions C66_signature_texts.
Theorem C66_signatures : ∀ S P view, printed S P view → (go_signatures P ↔ tags_text P view).
Proof.
  intros S P view (gofmt & Hg & H). split.
  - intros X q p ti x ob tag Hq Hp Hx. destruct (H q p ti x ob Hq Hp Hx) as [E Ho]. apply (C66_signature_texts (su_unicode S) gofmt _ Hg Ho).
    rewrite <- E. exact (X q p ti Hq Hp x ob Hx).
  - intros X q p ti Hq Hp x ob Hx. destruct (H q p ti x ob Hq Hp Hx) as [E Ho]. rewrite E. apply (C66_signature_texts (su_unicode S) gofmt _ Hg Ho).
    intros tag. exact (X q p ti x ob tag Hq Hp Hx).
Qed.
Print Assumptions C66_signatures.

Lemma url_char_low c : url_char c → (byte_val c <? 128)%Z = true.
Proof.
  intros [H|H].
  - destruct c as [[] [] [] [] [] [] [] []]; first [reflexivity|discriminate H].
  - repeat destruct H as [<-|H]; first [reflexivity|done].
Qed.
Lemma url_text p : utf8 (file_url p).
Proof.
  apply utf8_ascii. unfold file_url, escaped_path. apply ascii_app; [done|]. apply ascii_app; [by destruct (String.eqb p "")|].
  destruct (String.eqb p "*"); [done|]. destruct (path_escape_ok p) as [_ H]. unfold ascii_text. revert H. generalize (path_escape p). intros s.
  induction s as [|c s IH]; [done|]. cbn [list_ascii_of_string str_forallb]. intros [[Hc _] Hs]%List.Forall_cons_iff. by rewrite (url_char_low c Hc), IH.
Qed.

(** C66: every message of a run can be encoded: an error that Index returns once the project is loaded comes from
    the writer, at a message that can be encoded. *)
Theorem C66_every_message_encodes_partial : ∀ S f o P w msgs oc, loaded_by S f o P → go_text S o P → go_signatures P →
  program_run S o (pr_heap P) (LoadOk (pr_all P) (pr_proj P)) w = (msgs, oc) →
  Forall (λ m, is_Some (marshal m)) msgs ∧
  ∀ e, oc = Returned (Some e) → ∃ m, is_Some (marshal m) ∧ w msgs m = Some e.
Proof.
  intros S f o P w msgs oc HP T TS E. rewrite (run_is S f o P HP) in E. destruct HP as (h0 & roots & Ho & _ & _ & G).
  destruct (gg_iteration _ _ _ _ _ G) as (I1 & [I2 _] & I3 & I4 & I5). destruct T as [T1 T2 T3 T4 T5 T6 T7 T8 T9 T10 T11].
  set (search := impl_phase _ _ _ _ _ _ _ _ _ _ _) in E. unfold the_run in E.
  assert (Hm : meta_utf8 (index_metadata (su_tool S) (ro_index o)) = true).
  { unfold meta_utf8, index_metadata. cbn [md_root md_tool md_version md_args]. rewrite url_text, T4. cbn [andb].
    change (valid_utf8 "scip-go") with true. cbn [andb]. apply forallb_forall. intros x Hx. apply elem_of_list_In in Hx. by apply (proj1 (Forall_forall _ _) T3). }
  assert (Hs : ∀ g k g' k' exts, glob_text g → caches_text k → search g k = Ok (Some (g', k', exts)) → glob_text g' ∧ caches_text k' ∧ Forall (λ i, info_utf8 i = true) exts).
  { intros g k g' k' exts Hg Hk. unfold search. apply (impl_text _ _ _ _ _ _ _ _ _ I2 T7 T10 T11); done. }
  destruct (index_text (su_digest S) (pr_env P) (pr_fs P) (pr_heap P) (su_objstr S) (it_maps (su_iteration S)) (io_module_root (ro_index o)) T5 T1 T6
     (λ q p Hq, conj (T7 q p Hq) (conj (λ f, T8 q p f Hq) (λ ti Hi, names_signatures _ _ (T9 q p ti Hq Hi) (TS q p ti Hq Hi))))
     w search "" (io_module_version (ro_index o)) (io_skip_impls (ro_index o)) _ _ _ _ _ msgs oc I1 T2 Hm Hs E) as [A1 A2].
  split; [done|]. intros e He. destruct (A2 e He) as [X|[(g & k & X)|X]]; [done| |done].
  exfalso. revert X. unfold search, impl_phase. by destruct (add_implementation_relationships _ _ _ _ _ _ _ _ _ _ _ _ _).
Qed.
Print Assumptions C66_every_message_encodes_partial.

(** C66: if the options can be computed, the packages can be loaded, their texts are valid, the search for
    implementations cannot crash (C64) and the system reports no error, the command exits with code 0.  Missing: the
    signature texts need not be valid even if everything else is (C66_tag_refuted, ExTag.v). *)
Theorem C66_succeeds_partial : ∀ S f output t, go_works S f →
  (∃ o, make_options (su_machine S) f = Ok (Some o)) →
  (∀ o h e, make_options (su_machine S) f = Ok (Some o) → ¬ loads (ro_index o) (su_world S) (su_builtin S) (su_packages S o) h (LoadFailed e)) →
  (∀ o P, loaded_by S f o P → go_text S o P ∧ go_signatures P) →
  (∀ o P deps g c m, loaded_by S f o P → io_skip_impls (ro_index o) = false → dependencies (pr_all P) (pr_proj P) deps →
    initial_tables (pr_heap P) (pr_all P) (pr_proj P) g →
    candidate (su_env S) (su_mset S) (su_package_level S) (su_scope S) (io_module_root (ro_index o)) (io_module_version (ro_index o)) (pr_heap P) g (pr_proj P) c ∨
    candidate (su_env S) (su_mset S) (su_package_level S) (su_scope S) (io_module_root (ro_index o)) (io_module_version (ro_index o)) (pr_heap P) g deps c →
    has_method (su_env S) (su_mset S) (c_type c) m → type_ok (su_unicode S) (o_type m)) →
  (output = "-" ∨ ∃ q, regular_output t output q) → sy_create (su_sys S) = None → (∀ n, sy_write (su_sys S) n = None) →
  ∀ t' out code e, scip_go S f output t (t', out, Exit code e) → code = 0 ∧ e = None.
Proof.
  intros S f output t Hg [o Ho] Hload Htext Hty Hout Hc Hw t' out code e Hr.
  assert (Hcode : code = 0 ∨ code = 1).
  { refine (C64_no_crash S f output t Hg _ Hty t' out code e Hr). intros m Em. congruence. }
  apply scip_go_cases in Hr as [(m & Em & _)|[(e' & En & _)|(o' & h & ld & Eo & Hl & E1)]]; [congruence|congruence|].
  assert (o' = o) as -> by congruence.
  assert (K : ∀ msgs err, program_run S o h ld (cli_writer (sy_write (su_sys S))) = (msgs, Returned err) → err = None).
  { intros msgs err Er. destruct err as [err|]; [|done]. exfalso.
    destruct Hl as [e0 h Ha|h0 roots m h Ha Hp|h0 roots h all proj Ha Hlo].
    - destruct (Hload o h e0 Ho). by apply loads_error.
    - eapply (Hload o h); [exact Ho|]. by eapply loads_panic.
    - destruct (Hg o h0 roots h all proj Ho Ha Hlo) as (P & <- & <- & <- & G). assert (HP : loaded_by S f o P) by (by exists h0, roots).
      destruct (Htext o P HP) as [T1 T2]. destruct (C66_every_message_encodes_partial S f o P _ _ _ HP T1 T2 Er) as [_ A]. destruct (A _ eq_refl) as (m & [b Hb] & Em).
      unfold cli_writer in Em. rewrite Hb, Hw in Em. done. }
  revert E1. unfold index_cmd. destruct (String.eqb_spec output "-") as [->|Hnd].
  - destruct (program_run _ _ _ _ _) as [msgs [[e1|]|e1]] eqn:Er; intros [= <- <- <- <-]; [by discriminate (K msgs (Some e1) eq_refl)|done|]. destruct Hcode; done.
  - destruct Hout as [Hout|[q Hq]]; [done|]. rewrite Hc, (create_regular _ _ _ Hq).
    destruct (program_run _ _ _ _ _) as [msgs [[e1|]|e1]] eqn:Er; intros [= <- <- <- <-]; [by discriminate (K msgs (Some e1) eq_refl)|done|]. destruct Hcode; done.
Qed.
Print Assumptions C66_succeeds_partial.

(** the signature text of a declaration of P is not valid UTF-8 *)
Definition invalid_signature (P : project) : Prop := ∃ p f ti i k par def,
  p ∈ pr_pkgs P ∧ f ∈ p_syntax p ∧ p_info p = Some ti ∧ wf_pkg_pos p ∧
  file_declares f i k par ∧ (is_value_key k = true → common_before p i ∧ no_group_before p i) ∧
  distinct_ptrs p ∧ (0 < id_pos i)%Z ∧ ti_defs ti (id_ptr i) = Some def ∧ valid_utf8 (ti_sig ti def) = false.
Lemma documents_elem d msgs : d ∈ documents msgs → MDoc d ∈ msgs.
Proof. unfold documents. intros (m & Hm & E)%elem_of_list_omap. destruct m; try done. by injection E as ->. Qed.
(** C66: then every run fails. *)
Theorem C66_invalid_signature_fails : ∀ S f output t, go_works S f → (∀ o P, loaded_by S f o P → invalid_signature P) →
  ∀ t' out code e, scip_go S f output t (t', out, Exit code e) → code ≠ 0.
Proof.
  intros S f output t Hg Hinv t' out code e Hr.
  apply scip_go_cases in Hr as [(m & Em & [= _ _ -> _])|[(e' & En & [= _ _ -> _])|(o & h & ld & Eo & Hl & E1)]]; [done|done|].
  assert (K : ∀ msgs, program_run S o h ld (cli_writer (sy_write (su_sys S))) ≠ (msgs, Returned None)).
  { intros msgs Er. destruct Hl as [e0 h Ha|h0 roots m h Ha Hp|h0 roots h all proj Ha Hlo].
    - unfold program_run, Index.index in Er. by destruct (cli_writer _ [] _).
    - unfold program_run, Index.index in Er. by destruct (cli_writer _ [] _).
    - destruct (Hg o h0 roots h all proj Eo Ha Hlo) as (P & <- & <- & <- & G). assert (HP : loaded_by S f o P) by (by exists h0, roots).
      destruct (Hinv o P HP) as (p & f' & ti & i & k & par & def & H1 & H2 & H3 & H4 & H5 & H6 & H7 & H8 & H9 & H10).
      pose proof (run_indexed S f o P HP _ _ Er) as Hx. apply indexed_with_indexed in Hx.
      destruct (C61_declared_hover_partial P msgs p f' ti i k par def Hx H1 H2 H3 H4 H5 H6 H7 H8 H9) as (m & d & info & _ & (n & _ & Hd) & Hinfo & _ & _ & _ & Hsig & _).
      rewrite (run_is S f o P HP) in Er.
      match type of Er with the_run ?a1 ?a2 ?a3 ?a4 ?a5 ?a6 ?a7 ?a8 ?a9 ?b1 ?b2 ?b3 ?b4 ?b5 ?b6 ?b7 ?w = _ =>
        pose proof (run_accepts a1 a2 a3 a4 a5 a6 a7 a8 a9 b1 b2 b3 b4 b5 b6 b7 w) as Ha' end.
      rewrite Er in Ha'. cbn [fst] in Ha'. apply accepted_marshal in Ha'.
      apply elem_of_list_lookup_2, documents_elem, elem_of_list_lookup in Hd as [j Hj].
      destruct (Forall2_lookup_l _ _ _ _ _ Ha' Hj) as (b & _ & Hb). cbn [marshal] in Hb. destruct (doc_utf8 d) eqn:Hu; [|done].
      unfold doc_utf8 in Hu. apply andb_prop in Hu as [_ Hu]. apply elem_of_list_In in Hinfo. pose proof (proj1 (forallb_forall _ _) Hu info Hinfo) as Hi. cbn beta in Hi.
      apply info_spec in Hi as (_ & _ & _ & _ & Hs & _). rewrite Hsig in Hs. unfold shown in Hs. destruct (String.eqb_spec (ti_sig ti def) "") as [E|_]; [by rewrite E in H10|].
      specialize (Hs _ eq_refl). congruence. }
  revert E1. unfold index_cmd. destruct (String.eqb output "-").
  - destruct (program_run _ _ _ _ _) as [msgs [[e1|]|e1]]; intros [= _ _ <- _]; [done|by destruct (K msgs)|done].
  - destruct (os_create _ _ _) as [e1|[q u]]; [by intros [= _ _ <- _]|].
    destruct (program_run _ _ _ _ _) as [msgs [[e1|]|e1]]; intros [= _ _ <- _]; [done|by destruct (K msgs)|done].
Qed.
Print Assumptions C66_invalid_signature_fails.
