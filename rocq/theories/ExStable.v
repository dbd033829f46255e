(** C74: examples. *)
From Coq Require Import Ascii String.
From stdpp Require Import prelude strings gmap sorting.
From Verif Require Import GoStr Scip GoTypes Packages Symbols Document Lookup Pass1 Pass2 Paths
  Loader Index Ast SpecSymbol SpecDecl SpecPrecise SpecLookup SpecOcc SpecIndex
  P_Symbols P_Pass1 P_Link P_Lookup P_Pass2 P_Occ P_Scope P_Index PropDecl PropOcc PropIndex PropDet PropAnon PropCross ExDecl ExOcc ExIndex ExCross PropNav PropLocal ExLocal PropMember ExMember PropReach ExReach PropPrecise ExPrecise PropUnique PropBehind ExBehind PropStable.
Open Scope string_scope.
Open Scope list_scope.

(** The projects of ExReach and ExBehind are two states of one: s is a slice variable in p.go in one, a variable of a named
    type in q.go in the other; the type T of the first is gone in the second. *)
Lemma bh_clean : clean_modules BH_.
Proof.
  intros k q p m Hk%x_in Hh Hm. cbn in Hh. enum Hk; injection Hk as <- <-; vm_compute in Hh; injection Hh as <-; vm_compute in Hm; injection Hm as <-; by vm_compute.
Qed.
Lemma bh_grammatical p : p ∈ [bh_p] → pkg_grammatical p.
Proof.
  intros Hp f Hf. apply elem_of_list_singleton in Hp as ->.
  enum Hf; subst f; (split; [by eexists _, _, _, _, _|]); intros n Hn; enum Hn; subst n; cbn [node_grammar]; try exact I; try (intros d Hd; enum Hd; subst d; cbn; by auto);
    try (eexists; split; [reflexivity|]; intros x Hx; enum Hx; subst x; eexists _, _, _, _; split; [reflexivity|discriminate]).
Qed.
Lemma rc_declares_s : declaration RC_ rc_p rc_file1 (mk 8 "s" 114) (KeyValue "s").
Proof.
  split; [left|left| |apply rc_wf|intros _; apply common_before_all, rc_common|done|done|].
  - exists rc_ds. split; [|exact I]. eexists _, _, _, _, _, rc_ds. split; [reflexivity|]. split; [right; right; left|].
    eapply (dd_value _ VAR _ _ _ _ _ _ _ (mk 8 "s" 114)); [by left|left|left].
  - exists rc_ti, rc_os. split; [done|]. split; [done|]. split; [done|]. intros o Ho. by apply elem_of_nil in Ho.
Qed.
Lemma bh_declares_s : declaration BH_ bh_p bh_file2 (mk 13 "s" 314) (KeyValue "s").
Proof.
  split; [left|right; left| |apply bh_wf|intros _; apply common_before_all, bh_common|done|done|].
  - exists bh_ds. split; [|exact I]. eexists _, _, _, _, _, bh_ds. split; [reflexivity|]. split; [left|].
    eapply (dd_value _ VAR _ _ _ _ _ _ _ (mk 13 "s" 314)); [by left|left|left].
  - exists bh_ti, bh_os. split; [done|]. split; [done|]. split; [done|]. intros o Ho. by apply elem_of_nil in Ho.
Qed.
Example C74_ex : ∃ s, defines RC_ rc_msgs rc_p rc_file1 (mk 8 "s" 114) s ∧ defines BH_ bh_msgs bh_p bh_file2 (mk 13 "s" 314) s.
Proof.
  apply (C74_stable RC_ rc_msgs rc_p rc_file1 _ BH_ bh_msgs bh_p bh_file2 _ (KeyValue "s")); [| |apply rc_declares_s|apply bh_declares_s|done|done].
  - eapply indexed_with_indexed, rc_indexed.
  - eapply indexed_with_indexed, bh_indexed.
Qed.
Lemma rc_declares_T : declaration RC_ rc_p rc_file1 (mk 1 "T" 17) (KeyType "T").
Proof.
  split; [left|left| |apply rc_wf|discriminate|done|done|].
  - exists rc_dT. split; [|exact I]. eexists _, _, _, _, _, rc_dT. split; [reflexivity|]. split; [left|].
    eapply (dd_type _ _ _ _ (mk 1 "T" 17)). left.
  - exists rc_ti, rc_oT. split; [done|]. split; [done|]. split; [done|]. intros o Ho. by apply elem_of_nil in Ho.
Qed.
(** T is gone *)
Example C74_removed_ex : ∃ s, defines RC_ rc_msgs rc_p rc_file1 (mk 1 "T" 17) s ∧
  ∀ p2 f2 d o, p2 ∈ [bh_p] → f2 ∈ p_syntax p2 → document_of [bh_p] (documents bh_msgs) p2 f2 d →
    o ∈ d_occs d → is_def o → oc_symbol o ≠ s.
Proof.
  eapply (C74_removed RC_ rc_msgs rc_p rc_file1 _ (KeyType "T") BH_ bh_msgs bh_p); [| |apply rc_declares_T|apply bh_clean|exact bh_grammatical|left|done|done|].
  - eapply indexed_with_indexed, rc_indexed.
  - eapply indexed_with_indexed, bh_indexed.
  - intros pos (j & [(pr & f & Hf & p & hd & dd & nm & decls & decl & E & Hdecl & Hd)|(f & p & doc & specs & sd & T & tps & t & _ & _ & _ & _ & E)] & <-); [|discriminate E].
    enum Hf; subst f; injection E as _ _ _ _ <-; enum Hdecl; subst decl; inversion Hd; subst;
      match goal with H : NTypeSpec _ _ _ _ ∈ _ |- _ => enum H; simplify_eq end.
Qed.

(** C74: ... The members of anonymous types in the values of a spec with several variables do not keep their symbols: they
    change when the declaration moves to another line. *)
(** the project of ExReach, with a blank before the first declaration of each file replaced by a newline *)
Definition rl_fs : fset :=
  FSet (λ p, Position (match rc_name p with Some n => n | None => "" end) 2 (p mod 201)) rc_name.
Definition RL_ : project := Project p_env rc_objs rl_fs rc_h rc_all rc_all [rc_p].
Lemma rl_typed f : f ∈ [rc_file1; rc_file2] → typed_file rl_fs rc_ti (imports_of rc_h rc_p) rc_objs f ∧ defs_at_idents rc_ti f.
Proof.
  intros Hf. split.
  - split.
    2:{ intros ptr o Hu Hk. apply tab_in in Hu. cbn in Hu. repeat (destruct Hu as [Hu|Hu]; [injection Hu as <- <-; split; [reflexivity|reflexivity|reflexivity|first [by split|by constructor; [left|]]|done]|]). done. }
    2:{ intros o path Ho. enum Ho; subst o; done. }
    split.
    + enum Hf; subst f; by eexists _, _, _, _, _.
    + intros decl m c Hd Hm Hc.
      assert (H : forallb (λ f, forallb (λ decl, forallb (λ m, forallb (λ c, match c with NFuncDecl _ _ _ _ _ _ _ | NFile _ _ _ _ _ => false | _ => true end)
        (node_children m)) (subnodes decl)) (file_decls f)) [rc_file1; rc_file2] = true) by reflexivity.
      rewrite forallb_forall in H. specialize (H _ (proj1 (elem_of_list_In _ _) Hf)).
      rewrite forallb_forall in H. specialize (H _ (proj1 (elem_of_list_In _ _) Hd)).
      rewrite forallb_forall in H. specialize (H _ (proj1 (elem_of_list_In _ _) Hm)).
      rewrite forallb_forall in H. specialize (H _ (proj1 (elem_of_list_In _ _) Hc)). by destruct c.
    + intros decl Hd. enum Hf; subst f; enum Hd; by subst.
    + enum Hf; subst f; vm_compute; repeat (apply NoDup_cons; split; [intros H; enum H|]); constructor.
    + intros par i o path Hi Hu Hk. exfalso. apply tab_in in Hu. cbn in Hu.
      repeat (destruct Hu as [Hu|Hu]; [injection Hu as E' <-; discriminate|]). done.
    + intros ptr o path [H|H] Hk; apply tab_in in H; cbn in H;
        repeat (destruct H as [H|H]; [injection H as _ <-; try discriminate; done|]); done.
    + intros i Hi. rewrite <- elem_of_node_idents in Hi. enum Hf; subst f; enum Hi; subst i; fits.
    + intros d p e r nm t b H. enum Hf; subst f; enum H.
    + intros ptr nm p l path imp Hin Himp. enum Hf; subst f; enum Hin.
  - split.
    + intros i d Hi Hd. rewrite <- elem_of_node_idents in Hi. enum Hf; subst f; enum Hi; subst i; vm_compute in Hd; try discriminate; injection Hd as <-; reflexivity.
    + enum Hf; subst f; vm_compute; repeat (apply NoDup_cons; split; [intros H; enum H|]); constructor.
Qed.
Lemma rl_indexable : indexable rc_objs rl_fs rc_h rc_all rc_all [rc_p].
Proof.
  split.
  - split; [|split].
    + intros k q H%x_in. enum H; injection H as <- <-; eexists _, _; by split_and!.
    + intros k q H%x_in. enum H; injection H as <- <-; eexists _, _; by split_and!.
    + intros k q p H%x_in Hh. enum H; injection H as <- <-; vm_compute in Hh; injection Hh as <-;
        eexists _, _; split; reflexivity || split; reflexivity.
  - split.
    + split; [|split].
      * intros k. cbn [map p_path rc_p]. split.
        -- intros ->%elem_of_list_singleton. by eexists.
        -- intros [q H%x_in]. enum H; injection H as <- <-; left.
      * apply NoDup_singleton.
      * cbn. repeat constructor.
    + intros p Hp. enum Hp; subst p; eexists; by split.
  - split.
    + intros p f Hp Hf. apply elem_of_list_singleton in Hp as ->. destruct (rl_typed f Hf) as [H1 H2].
      exists rc_ti. cbn [p_syntax rc_p] in Hf. enum Hf; subst f; eexists; repeat (split; [done|]); reflexivity.
    + intros i j p f q f' name Hi Hj Hf Hf'.
      assert (NoDup (map (λ e : gpkg * node, rc_name (file_package_pos e.2)) (files_in_order [rc_p]))) as Hnd.
      { vm_compute. repeat (apply NoDup_cons; split; [intros H; enum H|]). constructor. }
      eapply (NoDup_lookup _ i j (Some name) Hnd); rewrite list_lookup_fmap.
      * rewrite Hi. cbn. by f_equal.
      * rewrite Hj. cbn. by f_equal.
  - intros p f name i Hp Hf Hfn Hi. rewrite <- elem_of_node_idents in Hi.
    apply elem_of_list_singleton in Hp as ->. unfold file_of in Hfn. cbn [p_syntax rc_p] in Hf.
    enum Hf; subst f; vm_compute in Hfn; injection Hfn as <-; enum Hi; subst i; reflexivity.
Qed.
Definition rl_run : list message * Index.outcome :=
  Index.index p_digest p_env rl_fs rc_h (λ o, o_name o) x_mo (λ _ _, None) x_impl "" "/src" "v1.0.0" false x_meta
    (LoadOk rc_all rc_all) ["ex.org/p"] ["ex.org/p"] ["ex.org/p"].
Definition rl_msgs : list message := rl_run.1.
Lemma rl_success : rl_run = (rl_msgs, Returned None).
Proof. vm_compute. reflexivity. Qed.
Lemma rl_indexed : indexed_with p_digest RL_ rl_msgs.
Proof.
  eexists (λ o, o_name o), x_mo, "/src", "v1.0.0", x_impl, "", ["ex.org/p"], ["ex.org/p"], ["ex.org/p"], false, x_meta, (λ _ _, None).
  split; [apply rl_indexable|]. split; [apply x_mo_ok|].
  split; [unfold key_order; vm_compute; repeat constructor|]. split; [unfold key_order; vm_compute; repeat constructor|].
  split; [unfold key_order; vm_compute; repeat constructor|]. split; [|exact rl_success].
  intros g g' k' exts _. unfold x_impl. intros [= <- <- <-]. split; [apply same_tables_refl|apply fresh_ok].
Qed.


Definition rl_dsc : list descriptor := [Desc "inline-2-31" Scip.Meta].
Lemma rl_reach : reaches rl_fs rc_spec rl_dsc rc_fields.
Proof.
  eapply (rc_value rl_fs "" "" [mk 2 "a" 31; mk 3 "b" 33] None _ rc_lit); [left|exact (fu_many rl_fs (mk 2 "a" 31) (mk 3 "b" 33) [])|].
  eapply (rc_part rl_fs rc_lit (NStructType 51 36 (NFieldList rc_fields))); [done|left|].
  eapply (rc_part rl_fs _ (NFieldList rc_fields)); [done|left|]. constructor.
Qed.
Lemma rl_value1 lits i : member rc_fields lits i → value_member rl_fs rc_file1 rl_dsc lits i.
Proof.
  intros H. eexists _, _, _, _, _, _, _, _, _, _, _, _, _, _, rc_fields. split; [reflexivity|]. split; [right; left|].
  split; [by left|]. split; [left|]. split; [apply rl_reach|exact H].
Qed.
Theorem C74_inline_refuted : ∃ digest P msgs P' msgs' p f ds ds' lits i,
  indexed_with digest P msgs ∧ indexed_with digest P' msgs' ∧ p ∈ pr_pkgs P ∧ p ∈ pr_pkgs P' ∧ f ∈ p_syntax p ∧
  (** the two states differ in the positions of the text only *)
  (pr_env P', pr_objs P', pr_heap P', pr_all P', pr_proj P', pr_pkgs P') = (pr_env P, pr_objs P, pr_heap P, pr_all P, pr_proj P, pr_pkgs P) ∧
  value_member (pr_fs P) f ds lits i ∧ value_member (pr_fs P') f ds' lits i ∧
  ∃ s s', describes P msgs p f s ∧ defines P msgs p f i s ∧ describes P' msgs' p f s' ∧ defines P' msgs' p f i s' ∧ s ≠ s'.
Proof.
  exists p_digest, RC_, rc_msgs, RL_, rl_msgs, rc_p, rc_file1, rc_dsc, rl_dsc, [52], rc_X.
  split; [apply rc_indexed|]. split; [apply rl_indexed|]. split; [left|]. split; [left|]. split; [left|]. split; [reflexivity|].
  split; [apply rc_value1, rc_member_X|]. split; [apply rl_value1, rc_member_X|].
  exists rc_sX, (anon_symbol p_digest (p_path rc_p) a_mod rl_dsc ["struct{X int}"] "X").
  destruct (proj1 C63_value_example) as (H1 & H2 & _). split; [exact H1|]. split; [exact H2|].
  destruct (C63_value_members_partial p_digest RL_ rl_msgs rc_p rc_file1 rc_ti rl_dsc [52] ["struct{X int}"] rc_X (Some rc_fld) rc_oX) as (m & E & H).
  - apply rl_indexed.
  - left.
  - left.
  - done.
  - apply rc_wf.
  - apply rc_common.
  - apply rl_value1, rc_member_X.
  - constructor; [done|constructor].
  - done.
  - rewrite elem_of_list_In. vm_compute. tauto.
  - exact (rc_visible rc_fld rc_X rc_oX ltac:(done) ltac:(done) ltac:(by left) ltac:(by do 4 eexists)).
  - intros c Hc. by apply elem_of_nil in Hc.
  - done.
  - done.
  - injection E as <-. destruct H as (H3 & H4 & _). split; [exact H3|]. split; [exact H4|]. vm_compute. discriminate.
Qed.
Print Assumptions C74_inline_refuted.

(** C74_members: the hypotheses hold of the field X of the nested struct in ExMember (taken as both states). *)
Lemma mb_member_X : file_member (pr_fs M_) mb_file1 [Desc "v" Scip.Meta] [52] mb_X mb_fld.
Proof.
  eexists _, _, _, _, _, mb_dv, mb_fields. split; [done|]. split; [right; left|]. split; [apply mb_owner|].
  eapply (nest_in _ "" "" [mk 3 "A" 45] mb_inner mb_inner 52); [left|done|eapply lt_here; constructor|constructor|].
  apply nest_here; left.
Qed.
Example C74_members_ex : ∃ s, defines M_ mb_msgs mb_p mb_file1 mb_X s ∧ defines M_ mb_msgs mb_p mb_file1 mb_X s.
Proof.
  assert (S : no_switch mb_ti mb_X) by (intros c Hc; by apply elem_of_nil in Hc).
  apply (C74_members p_digest M_ mb_msgs mb_p mb_file1 mb_ti [Desc "v" Scip.Meta] [52] ["struct{X int}"] mb_X mb_fld mb_oX
    M_ mb_msgs mb_p mb_file1 mb_ti [52] mb_X mb_fld mb_oX);
    first [exact mb_indexed|exact mb_wf|exact mb_common|exact mb_member_X|exact S|left|idtac]; first [constructor; [done|constructor]|done].
Qed.
