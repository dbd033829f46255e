(** The theorems of PropFind.v on the project of ExDet.v: T implements I, and so does *fmt.Buf. *)
From Coq Require Import Ascii String.
From stdpp Require Import prelude strings gmap sorting.
From Verif Require Import GoStr Scip GoTypes Ast Packages Symbols Document Lookup Pass1 Pass2 Paths Loader Index
  SpecSymbol SpecDecl SpecLookup SpecOcc SpecIndex P_Symbols P_Pass1 P_Link P_Lookup P_Pass2 P_Occ P_Index PropIndex
  Quote Fingerprint SpecTypes P_Finger PropFinger Impls P_Rel P_Ident SpecImpl P_Filter P_Mem P_Extract P_Impl PropImpl PropDet
  PropCross PropPrecise PropFind ExDecl ExOcc ExIndex ExImpl ExDet.
Open Scope string_scope.
Open Scope list_scope.

Definition Y_ : project := Project y_env y_objs x_fs y_h y_all y_proj [y_p].
Definition Y_F : type_info := TypeInfo y_mset w_cok w_level y_scope.
Lemma y_search : search_indexed Y_ Y_F (y_run y_it).1.
Proof.
  exists p_digest, x_u, w_crc, (λ o, o_name o), "/src", "v1", y_it, "", x_meta, (λ _ _, None).
  split; [exact y_indexable|]. split; [exact y_analysable|]. split; [exact (proj1 y_iterations)|].
  assert (E : (y_run y_it).2 = Returned None) by (vm_compute; reflexivity). rewrite <- E. apply (y_success y_it).
Qed.
Lemma y_wf_pos : wf_pkg_pos y_p.
Proof. apply wf_pkgb_ok. vm_compute. reflexivity. Qed.
Lemma y_declares i k par : file_declares y_file i k par → match par with NField _ _ [] _ => False | _ => True end → is_value_key k = false →
  (0 < id_pos i)%Z → id_name i ≠ "_" → (∃ def, ti_defs y_ti (id_ptr i) = Some def) → ti_uses y_ti (id_ptr i) = None → declaration Y_ y_p y_file i k.
Proof.
  intros Hd Hpar Hv Hpos Hn [def Hdef] Hu. split; try done.
  - left.
  - left.
  - by exists par.
  - apply y_wf_pos.
  - rewrite Hv. done.
  - exists y_ti, def. split_and!; try done. intros o Ho. by apply elem_of_nil in Ho.
Qed.
Ltac declares_in d c := eexists _, _, _, _, _, d; split; [reflexivity|]; split; [rewrite elem_of_list_In; vm_compute; tauto|]; eapply c.
Lemma y_type_I : project_type Y_ Y_F y_p y_file (mk 1 "I" 17) y_I.
Proof.
  split; try done; [|by exists y_ti|by eexists _, _|by right].
  apply (y_declares _ _ y_dI); [|done|done|done|done|by exists y_I|done]. declares_in y_dI dd_type. left.
Qed.
Lemma y_type_T : project_type Y_ Y_F y_p y_file (mk 4 "T" 46) y_T.
Proof.
  split; try done; [|by exists y_ti|by eexists _, _|by right].
  apply (y_declares _ _ y_dT); [|done|done|done|done|by exists y_T|done]. declares_in y_dT dd_type. left.
Qed.

Lemma y_types p f i o : project_type Y_ Y_F p f i o → p = y_p ∧ f = y_file ∧ (i = mk 1 "I" 17 ∧ o = y_I ∨ i = mk 4 "T" 46 ∧ o = y_T).
Proof.
  intros [Hd (ti & Hti & Ho) Hk _ _ _]. pose proof (dc_pkg _ _ _ _ _ Hd) as Hp. cbn [Y_ pr_pkgs] in Hp. apply elem_of_list_singleton in Hp as ->.
  pose proof (dc_file _ _ _ _ _ Hd) as Hf. cbn [y_p p_syntax] in Hf. apply elem_of_list_singleton in Hf as ->. split; [done|]. split; [done|].
  destruct (dc_parent _ _ _ _ _ Hd) as (par & (p0 & h & d & nm & decls & decl & E & Hdecl & Hdd) & _). injection E as <- <- <- <- <-.
  injection Hti as <-. enum Hdecl; subst decl; inversion Hdd; subst; match goal with H : NTypeSpec _ _ _ _ ∈ _ |- _ => enum H; simplify_eq end; vm_compute in Ho; injection Ho as <-; [by left|by right].
Qed.
Lemma y_deps p o : dependency_type Y_ Y_F p o → p = w_pkg_fmt ∧ o = y_Buf.
Proof.
  intros [(q & Hq & Hh & Hn) _ _ _ Hs _ _ _]. cbn [Y_ pr_all pr_heap pr_proj Y_F tf_scope] in *. destruct (y_all_in _ _ Hq) as [[Ep ->]|[Ep ->]].
  - rewrite Ep in Hn. discriminate Hn.
  - injection Hh as <-. split; [done|]. by apply elem_of_list_singleton in Hs.
Qed.
Definition y_ms : list obj := [y_I_N; y_T_N; y_Buf_N].
Lemma y_only_methods t m : m ∈ y_mset t → m ∈ y_ms.
Proof.
  assert (H1 : ∀ n, y_mset_of n ⊆ y_ms).
  { intros n. do 4 (destruct n as [|n]; [apply list_subseteq_nil || (intros x Hx; enum Hx; subst x; apply elem_of_list_In; vm_compute; tauto)|]). apply list_subseteq_nil. }
  assert (H2 : ∀ n, y_pmset_of n ⊆ y_ms).
  { intros n. do 4 (destruct n as [|n]; [apply list_subseteq_nil || (intros x Hx; enum Hx; subst x; apply elem_of_list_In; vm_compute; tauto)|]). apply list_subseteq_nil. }
  destruct t; cbn [y_mset]; try (by intros ?%elem_of_nil); [apply H1|]. destruct t; try (by intros ?%elem_of_nil). apply H2.
Qed.
Lemma y_scopes : scopes_ok Y_ Y_F.
Proof.
  split.
  - intros p ti k o Hp Hti Ho Hk _ _ _. cbn [Y_ pr_pkgs] in Hp. apply elem_of_list_singleton in Hp as ->. injection Hti as <-.
    cbn [y_ti ti_defs] in Ho. apply tab_in in Ho. cbn [In y_defs] in Ho. repeat destruct Ho as [[= <- <-]|Ho]; try done.
    + eexists _, _. split; [|exact y_type_I]. done.
    + eexists _, _. split; [|exact y_type_T]. done.
  - intros p f i o f' i' o' H H' E. destruct (y_types _ _ _ _ H) as (_ & _ & [[-> ->]|[-> ->]]), (y_types _ _ _ _ H') as (_ & _ & [[-> ->]|[-> ->]]); done.
  - intros p o H. by destruct (y_deps _ _ H) as [_ ->].
  - intros p o o' H H' _. destruct (y_deps _ _ H) as [_ ->]. by destruct (y_deps _ _ H') as [_ ->].
  - intros t m p f i o Hm Hp. cbn [Y_F tf_mset] in Hm. apply y_only_methods in Hm.
    destruct (y_types _ _ _ _ Hp) as (_ & _ & [[-> _]|[-> _]]); enum Hm; subst m; try done.
  - intros k q p m Hk Hq Hm. destruct (y_all_in _ _ Hk) as [[-> ->]|[-> ->]]; injection Hq as <-; injection Hm as <-; split; reflexivity.
Qed.

Lemma y_unsealed : ¬ sealed (pr_env Y_) (tf_mset Y_F) (o_type y_I).
Proof. intros (m & [Hm|[_ Hm]] & He); enum Hm; subst m; vm_compute in He; discriminate He. Qed.
Lemma y_sat v m : m ∈ y_mset v → obj_Id m = "N" → o_type m = w_void → implements_interface y_mset w_cok v [("N", w_void)] "".
Proof.
  intros Hm Hid Ht. split; [|done]. intros id t Hin. apply elem_of_list_singleton in Hin as [= -> ->].
  exists m. split; [done|]. split; [done|]. rewrite Ht. eapply id_sig; [done|done|constructor|constructor].
Qed.
Lemma y_T_implements : implementation Y_ Y_F y_p y_T y_p y_I.
Proof.
  split; [done|]. split; [done|]. split; [exists y_I_N; left; left|]. split; [|done].
  exists [("N", w_void)], "". split; [done|]. left. apply (y_sat _ y_T_N); [left|done|done].
Qed.
Lemma y_Buf_implements : implementation Y_ Y_F w_pkg_fmt y_Buf y_p y_I.
Proof.
  split; [done|]. split; [done|]. split; [exists y_I_N; left; left|]. split; [|intros H; by destruct y_unsealed].
  exists [("N", w_void)], "". split; [done|]. right. apply (y_sat _ y_Buf_N); [left|done|done].
Qed.
Lemma y_method_T : project_method Y_ Y_F y_p y_file (mk 7 "N" 69) (KeyMethod "T" "N") y_T_N.
Proof.
  split; [|by exists y_ti|by eexists|by exists w_p|by exists (o_type y_T); left].
  apply (y_declares _ _ y_dN); [|done|done|done|done|by exists y_T_N|done].
  eexists _, _, _, _, _, y_dN. split; [reflexivity|]. split; [rewrite elem_of_list_In; vm_compute; tauto|].
  unfold y_dN. change (KeyMethod "T" "N") with (KeyMethod (id_name (mk 6 "T" 66)) (id_name (mk 7 "N" 69))). apply dd_method. constructor.
Qed.
Lemma y_method_I : project_method Y_ Y_F y_p y_file (mk 3 "N" 31) (KeyMember "I" "N") y_I_N.
Proof.
  split; [|by exists y_ti|by eexists|by exists w_p|by exists (o_type y_I); left].
  apply (y_declares _ _ (NField "" "" [mk 3 "N" 31] (NFuncType 32 empty_fields empty_fields empty_fields))); [|done|done|done|done|by exists y_I_N|done].
  eexists _, _, _, _, _, y_dI. split; [reflexivity|]. split; [left|].
  eapply (dd_imethod _ _ _ _ (mk 1 "I" 17)); left.
Qed.

(** T has a relationship to I and T.N one to I.N; they lead to the definitions *)
Example C77_example :
  let p k := key_symbol "ex.org/p" w_mod k in
  (∃ info, described_by Y_ (y_run y_it).1 y_p y_file (p (KeyType "T")) info ∧ implementation_relationship (p (KeyType "I")) ∈ i_relationships info) ∧
  (∃ info, described_by Y_ (y_run y_it).1 y_p y_file (p (KeyMethod "T" "N")) info ∧ implementation_relationship (p (KeyMember "I" "N")) ∈ i_relationships info) ∧
  (∃ info, info ∈ externals (y_run y_it).1 ∧ i_symbol info = key_symbol "fmt" fmt_mod (KeyType "Buf")) ∧
  ∃ i, defines Y_ (y_run y_it).1 y_p y_file i (p (KeyType "I")).
Proof.
  cbv zeta. split; [|split; [|split]].
  - destruct (C77_implementations Y_ Y_F _ _ _ _ _ y_search y_scopes y_type_T) as (m & info & Hm & Hd & Hr). injection Hm as <-.
    exists info. split; [exact Hd|]. apply Hr. exists y_p, y_I, (key_symbol "ex.org/p" w_mod (KeyType "I")). split; [reflexivity|]. split; [|exact y_T_implements].
    exact (st_project Y_ Y_F y_p y_file (mk 1 "I" 17) y_I w_mod y_type_I eq_refl).
  - destruct (C77_methods Y_ Y_F _ _ _ _ _ _ y_search y_scopes y_method_T) as (m & info & Hm & Hd & Hr & _). injection Hm as <-.
    exists info. split; [exact Hd|].
    apply (Hr y_p y_T _ y_p y_I _ y_p y_file (mk 3 "N" 31) (KeyMember "I" "N") y_I_N w_mod (st_project Y_ Y_F y_p y_file _ y_T w_mod y_type_T eq_refl) (st_project Y_ Y_F y_p y_file _ y_I w_mod y_type_I eq_refl)).
    + left. exists y_file, (mk 4 "T" 46). exact y_type_T.
    + split; [exact y_T_implements|]. split; [left; left|]. split; [left; left|]. reflexivity.
    + exact y_method_I.
    + reflexivity.
  - apply (proj2 (proj2 (C77_external Y_ Y_F _ y_search y_scopes)) w_pkg_fmt y_Buf fmt_mod y_p y_file (mk 1 "I" 17) y_I); [|reflexivity|exact y_type_I|exact y_Buf_implements].
    split; try done; [by exists 3|left|by eexists _, _].
  - destruct (C77_leads_to_definition Y_ Y_F _ _ _ _ _ y_search y_scopes y_type_I) as (m & info & Hm & _ & Hdef & _). injection Hm as <-.
    exists (mk 1 "I" 17). exact Hdef.
Qed.
