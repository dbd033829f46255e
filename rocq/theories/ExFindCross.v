(** Two repositories for C78.  The first is the project Y_ (ExDet.v), module ex.org; the second is the module
    other.net, whose package other.net/p has the same text, and which requires ex.org v1:
      type I interface { N() }
      type T struct { }
      func (T) N() { } *)
From Coq Require Import Ascii String.
From stdpp Require Import prelude strings gmap sorting.
From Verif Require Import GoStr Scip GoTypes Ast Packages Symbols Document Lookup Pass1 Pass2 Paths Regex Semver SpecSemver P_Semver Loader Index
  SpecSymbol SpecDecl SpecLookup SpecOcc SpecIndex P_Symbols P_Pass1 P_Link P_Lookup P_Pass2 P_Occ P_Paths PropPaths P_Index PropIndex PropModule
  Quote Fingerprint SpecTypes P_Finger PropFinger Impls P_Rel P_Ident SpecImpl P_Filter P_Mem P_Extract P_Impl PropImpl PropDet
  PropCross SpecPrecise PropPrecise PropFind PropFindCross ExDecl ExOcc ExIndex ExImpl ExDet ExFind.
Open Scope string_scope.
Open Scope list_scope.

Definition v_tp : tpkg := TPkg "other.net/p" [].
Definition v_I := w_type 1 "I" v_tp 17.
Definition v_T := w_type 2 "T" v_tp 46.
(** I and T of ex.org/p, as export data describes them *)
Definition d_I := w_type 3 "I" w_p 9017.
Definition d_T := w_type 7 "T" w_p 9046.
Definition v_I_N := w_meth 4 "N" v_tp 31 (o_type v_I) w_void.
Definition v_T_N := w_meth 5 "N" v_tp 69 (o_type v_T) w_void.
Definition d_I_N := w_meth 6 "N" w_p 9031 (o_type d_I) w_void.
Definition d_T_N := w_meth 8 "N" w_p 9069 (o_type d_T) w_void.
Definition v_objects : list obj := [v_I; v_T; d_I; d_T; v_I_N; v_T_N; d_I_N; d_T_N].
Definition v_objs (i : nat) : option obj := List.find (λ o, Nat.eqb (o_id o) i) v_objects.
Definition v_defs : list (nat * obj) := [(1, v_I); (3, v_I_N); (4, v_T); (7, v_T_N)].
Definition v_ti : tinfo := TInfo (tab v_defs) (tab [(6, v_T)]) (λ _, None) [] (λ _, None) (λ _, "sig").
Definition v_mod : gmodule := GMod "other.net" "v2" "/src" "" None.
Definition v_dep_mod : gmodule := GMod "ex.org" "v1" "/go/pkg/mod/ex.org@v1" "" None.
Definition v_p : gpkg := GPkg 1 "other.net/p" "p" (Some v_mod) [] [y_file] (Some v_tp) (Some v_ti).
Definition v_dep : gpkg := GPkg 3 "ex.org/p" "p" (Some v_dep_mod) [] [] (Some w_p) None.
Definition v_h : pheap := {[1 := v_p; 3 := v_dep]}.
Definition v_all : ptab := {["other.net/p" := 1; "ex.org/p" := 3]}.
Definition v_proj : ptab := {["other.net/p" := 1]}.
Definition v_env : tenv := λ tn _, if Nat.eqb (tn_id tn) 1 || Nat.eqb (tn_id tn) 3 then TInterface [("N", w_void)] "" else TStruct [].
Definition v_mset_of (id : nat) : list obj := match id with 1 => [v_I_N] | 2 => [v_T_N] | 3 => [d_I_N] | 7 => [d_T_N] | _ => [] end.
Definition v_pmset_of (id : nat) : list obj := match id with 2 => [v_T_N] | 7 => [d_T_N] | _ => [] end.
Definition v_mset (t : ty) : list obj :=
  match t with TNamed tn _ => v_mset_of (tn_id tn) | TPointer (TNamed tn _) => v_pmset_of (tn_id tn) | _ => [] end.
Definition v_scope (p : gpkg) : list obj := if String.eqb (p_path p) "ex.org/p" then [d_I; d_T] else [].

Lemma v_object o : o ∈ v_objects → go_object v_objs o.
Proof. intros H. enum H; subst o; (split; [reflexivity|reflexivity|reflexivity|split; discriminate|intros p; discriminate]). Qed.
Lemma v_mset_cases t m : m ∈ v_mset t → m ∈ v_objects.
Proof.
  assert (H1 : ∀ n, v_mset_of n ⊆ v_objects).
  { intros n. do 8 (destruct n as [|n]; [apply list_subseteq_nil || (intros x Hx; enum Hx; subst x; apply elem_of_list_In; vm_compute; tauto)|]). apply list_subseteq_nil. }
  assert (H2 : ∀ n, v_pmset_of n ⊆ v_objects).
  { intros n. do 8 (destruct n as [|n]; [apply list_subseteq_nil || (intros x Hx; enum Hx; subst x; apply elem_of_list_In; vm_compute; tauto)|]). apply list_subseteq_nil. }
  destruct t; cbn [v_mset]; try (by intros ?%elem_of_nil); [apply H1|]. destruct t; try (by intros ?%elem_of_nil). apply H2.
Qed.
Lemma v_methods : method_sets v_env v_mset v_objs.
Proof.
  split.
  - intros t. destruct t; try constructor; cbn [v_mset].
    + destruct tn as [n ? ?]; cbn [tn_id]. do 8 (destruct n as [|n]; [vm_compute; repeat constructor; set_solver|]). constructor.
    + destruct t; try constructor. destruct tn as [n ? ?]; cbn [tn_id]. do 8 (destruct n as [|n]; [vm_compute; repeat constructor; set_solver|]). constructor.
  - intros [n ? ?] args m. unfold is_interface. cbn [underlying v_env tn_id v_mset]. intros Hi.
    do 8 (destruct n as [|n]; [try discriminate Hi; (intros ?%elem_of_nil; done) || (intros Hm; apply elem_of_list_singleton in Hm; subst m; apply elem_of_list_In; vm_compute; tauto)|]).
    by intros ?%elem_of_nil.
  - intros [n ? ?] args ms s. cbn [v_env tn_id v_mset]. intros Hi.
    do 8 (destruct n as [|n]; [try discriminate Hi; injection Hi as <- <-; reflexivity|]). discriminate Hi.
  - intros t m Hm. by apply v_object, (v_mset_cases t).
Qed.
Lemma v_proj_in k q : v_proj !! k = Some q → k = "other.net/p" ∧ q = 1.
Proof. unfold v_proj. rewrite lookup_singleton_Some. intros [<- <-]; tauto. Qed.
Lemma v_all_in k q : v_all !! k = Some q → k = "other.net/p" ∧ q = 1 ∨ k = "ex.org/p" ∧ q = 3.
Proof. unfold v_all. rewrite !lookup_insert_Some, lookup_singleton_Some. intros [[<- <-]|[_ [<- <-]]]; tauto. Qed.
Lemma v_analysable : analysable v_env v_mset v_objs v_scope v_h v_all v_proj.
Proof.
  split.
  - apply v_methods.
  - intros k q H. destruct (v_all_in _ _ H) as [[-> ->]|[-> ->]]; eexists _, _; split; [reflexivity|done|reflexivity|done].
  - intros k q H. destruct (v_proj_in _ _ H) as [-> ->]; eexists _, _, _; (split; [reflexivity|done]).
  - intros k q p o H Hn Hp Ho. destruct (v_all_in _ _ H) as [[-> ->]|[-> ->]]; [done|]. injection Hp as <-.
    enum Ho; subst o; (split; [apply v_object, elem_of_list_In; vm_compute; tauto|by eexists]).
Qed.

Lemma v_wf : wf_file x_fs v_ti (imports_of v_h v_p) y_file.
Proof.
  split.
  - by eexists _, _, _, _, _.
  - intros decl m c Hd Hm Hc.
    assert (H : forallb (λ decl, forallb (λ m, forallb (λ c, match c with NFuncDecl _ _ _ _ _ _ _ | NFile _ _ _ _ _ => false | _ => true end)
       (node_children m)) (subnodes decl)) (file_decls y_file) = true) by reflexivity.
    rewrite forallb_forall in H. specialize (H _ (proj1 (elem_of_list_In _ _) Hd)).
    rewrite forallb_forall in H. specialize (H _ (proj1 (elem_of_list_In _ _) Hm)).
    rewrite forallb_forall in H. specialize (H _ (proj1 (elem_of_list_In _ _) Hc)). by destruct c.
  - intros decl Hd. enum Hd; by subst.
  - vm_compute. repeat (apply NoDup_cons; split; [intros H; enum H|]). constructor.
  - intros par i o path Hi Hu Hk. exfalso. apply tab_in in Hu. cbn in Hu.
    repeat (destruct Hu as [Hu|Hu]; [injection Hu as E' <-; discriminate|]). done.
  - intros ptr o path [H|H] Hk; apply tab_in in H; cbn in H;
      repeat (destruct H as [H|H]; [injection H as _ <-; try discriminate; done|]); done.
  - intros i Hi. rewrite <- elem_of_node_idents in Hi. enum Hi; subst i; fits.
  - intros d p e r nm t b H. enum H. injection H as <- <- <- <- <- <- <-. fits.
  - intros ptr nm p l path imp Hin Himp. enum Hin.
Qed.
Lemma v_typed : typed_file x_fs v_ti (imports_of v_h v_p) v_objs y_file.
Proof.
  split; [apply v_wf| |intros o path H; by apply elem_of_nil in H].
  intros ptr o Hu Hk. apply tab_in in Hu. cbn in Hu. destruct Hu as [[= <- <-]|[]]. apply v_object. right. by left.
Qed.
Lemma v_defs_at : defs_at_idents v_ti y_file.
Proof.
  split.
  - intros i d Hi Hd. rewrite <- elem_of_node_idents in Hi. enum Hi; subst i; vm_compute in Hd; try discriminate; injection Hd as <-; reflexivity.
  - vm_compute. repeat (apply NoDup_cons; split; [intros H; enum H|]). constructor.
Qed.
Lemma v_indexable : indexable v_objs x_fs v_h v_all v_proj [v_p].
Proof.
  split.
  - split; [|split].
    + intros k q H. destruct (v_all_in _ _ H) as [[-> ->]|[-> ->]]; eexists _, _; by split_and!.
    + intros k q H. destruct (v_proj_in _ _ H) as [-> ->]; eexists _, _; by split_and!.
    + intros k q p H Hh. destruct (v_proj_in _ _ H) as [-> ->]. injection Hh as <-. by eexists _, _.
  - split.
    + split; [|split].
      * intros k. cbn [map p_path v_p]. split; [intros ->%elem_of_list_singleton; by eexists|].
        intros [q H]. destruct (v_proj_in _ _ H) as [-> _]. left.
      * apply NoDup_singleton.
      * repeat constructor.
    + intros p ->%elem_of_list_singleton. by eexists.
  - split.
    + intros p f ->%elem_of_list_singleton ->%elem_of_list_singleton. exists v_ti, "/src/p.go".
      split; [done|]. split; [apply v_typed|]. split; [apply v_defs_at|done].
    + intros i j p f q f' name Hi Hj _ _. apply lookup_lt_Some in Hi, Hj. cbn in Hi, Hj. lia.
  - intros p f name i ->%elem_of_list_singleton ->%elem_of_list_singleton Hfn Hi. rewrite <- elem_of_node_idents in Hi.
    unfold file_of in Hfn. vm_compute in Hfn. injection Hfn as <-. enum Hi; subst i; reflexivity.
Qed.

Definition v_o : orders :=
  Orders (λ t, map fst (map_to_list t)) (λ p, match p_info p with Some _ => map snd v_defs | None => [] end)
    (λ _ d, map_to_list d) (λ _ _ d, map_to_list d) (λ _ _ _ d, map_to_list d) (λ _ _ d, map_to_list d) (λ d, map_to_list d).
Definition v_it : iteration := Iteration x_mo v_o ["other.net/p"] ["other.net/p"; "ex.org/p"] ["other.net/p"].
Lemma v_heap q p : v_h !! q = Some p → p = v_p ∨ p = v_dep.
Proof. unfold v_h. rewrite !lookup_insert_Some, lookup_singleton_Some. naive_solver. Qed.
Lemma v_iteration : iteration_ok v_h v_all v_proj v_it.
Proof.
  assert (X : ∀ q p ti ob, v_h !! q = Some p → p_info p = Some ti → ob ∈ or_defs v_o p ↔ ∃ i, ti_defs ti i = Some ob).
  { intros q p ti ob Hq Hp. destruct (v_heap _ _ Hq) as [->| ->]; [|done]; injection Hp as <-; cbn [v_ti ti_defs]; split.
    - intros H. enum H; subst ob; [by exists 1|by exists 3|by exists 4|by exists 7].
    - intros [i H]. apply tab_in in H. apply elem_of_list_In, (List.in_map snd _ _ H). }
  assert (K : ["other.net/p"; "ex.org/p"] ≡ₚ map fst (map_to_list v_all)).
  { apply NoDup_Permutation; [|apply NoDup_fst_map_to_list|].
    - repeat (apply NoDup_cons; split; [intros H; enum H|]). constructor.
    - intros k. rewrite !elem_of_list_In. vm_compute. tauto. }
  assert (K1 : key_order v_proj ["other.net/p"]) by (unfold key_order; vm_compute; repeat constructor).
  split; [split; intros; try done; apply reverse_Permutation|]. split; [|split; [exact K1|split; [exact K|exact K1]]].
  split; [split; intros; done|]. intros q p ti ob Hq Hp. by eapply X.
Qed.
Definition v_run (it : iteration) : list message * Index.outcome :=
  Index.index p_digest v_env x_fs v_h (λ o, o_name o) (it_maps it) (λ _ _, None)
    (impl_phase v_env x_u w_crc v_mset w_cok w_level v_scope (it_search it) v_h v_proj v_all) "" "/src" "v2" false x_meta
    (LoadOk v_all v_proj) (it_proj it) (it_all it) (it_proj2 it).
Lemma v_success it : v_run it = ((v_run it).1, (v_run it).2).
Proof. by destruct (v_run it). Qed.
Definition V_ : project := Project v_env v_objs x_fs v_h v_all v_proj [v_p].
Definition V_F : type_info := TypeInfo v_mset w_cok w_level v_scope.
Lemma v_search : search_indexed V_ V_F (v_run v_it).1.
Proof.
  exists p_digest, x_u, w_crc, (λ o, o_name o), "/src", "v2", v_it, "", x_meta, (λ _ _, None).
  split; [exact v_indexable|]. split; [exact v_analysable|]. split; [exact v_iteration|].
  assert (E : (v_run v_it).2 = Returned None) by (vm_compute; reflexivity). rewrite <- E. apply (v_success v_it).
Qed.
Lemma v_wf_pos : wf_pkg_pos v_p.
Proof. apply wf_pkgb_ok. vm_compute. reflexivity. Qed.
Lemma v_declares i k par : file_declares y_file i k par → match par with NField _ _ [] _ => False | _ => True end → is_value_key k = false →
  (0 < id_pos i)%Z → id_name i ≠ "_" → (∃ def, ti_defs v_ti (id_ptr i) = Some def) → ti_uses v_ti (id_ptr i) = None → declaration V_ v_p y_file i k.
Proof.
  intros Hd Hpar Hv Hpos Hn [def Hdef] Hu. split; try done.
  - left.
  - left.
  - by exists par.
  - apply v_wf_pos.
  - rewrite Hv. done.
  - exists v_ti, def. split_and!; try done. intros o Ho. by apply elem_of_nil in Ho.
Qed.
Ltac declares_in d c := eexists _, _, _, _, _, d; split; [reflexivity|]; split; [rewrite elem_of_list_In; vm_compute; tauto|]; eapply c.
Lemma v_type_I : project_type V_ V_F v_p y_file (mk 1 "I" 17) v_I.
Proof.
  split; try done; [|by exists v_ti|by eexists _, _|by right].
  apply (v_declares _ _ y_dI); [|done|done|done|done|by exists v_I|done]. declares_in y_dI dd_type. left.
Qed.
Lemma v_type_T : project_type V_ V_F v_p y_file (mk 4 "T" 46) v_T.
Proof.
  split; try done; [|by exists v_ti|by eexists _, _|by right].
  apply (v_declares _ _ y_dT); [|done|done|done|done|by exists v_T|done]. declares_in y_dT dd_type. left.
Qed.

Lemma v_types p f i o : project_type V_ V_F p f i o → p = v_p ∧ f = y_file ∧ (i = mk 1 "I" 17 ∧ o = v_I ∨ i = mk 4 "T" 46 ∧ o = v_T).
Proof.
  intros [Hd (ti & Hti & Ho) Hk _ _ _]. pose proof (dc_pkg _ _ _ _ _ Hd) as Hp. cbn [V_ pr_pkgs] in Hp. apply elem_of_list_singleton in Hp as ->.
  pose proof (dc_file _ _ _ _ _ Hd) as Hf. cbn [v_p p_syntax] in Hf. apply elem_of_list_singleton in Hf as ->. split; [done|]. split; [done|].
  destruct (dc_parent _ _ _ _ _ Hd) as (par & (p0 & h & d & nm & decls & decl & E & Hdecl & Hdd) & _). injection E as <- <- <- <- <-.
  injection Hti as <-. enum Hdecl; subst decl; inversion Hdd; subst; match goal with H : NTypeSpec _ _ _ _ ∈ _ |- _ => enum H; simplify_eq end; vm_compute in Ho; injection Ho as <-; [by left|by right].
Qed.
Lemma v_deps p o : dependency_type V_ V_F p o → p = v_dep ∧ (o = d_I ∨ o = d_T).
Proof.
  intros [(q & Hq & Hh & Hn) _ _ _ Hs _ _ _]. cbn [V_ pr_all pr_heap pr_proj V_F tf_scope] in *. destruct (v_all_in _ _ Hq) as [[Ep ->]|[Ep ->]].
  - rewrite Ep in Hn. discriminate Hn.
  - injection Hh as <-. split; [done|]. enum Hs; subst o; tauto.
Qed.
Definition v_ms : list obj := [v_I_N; v_T_N; d_I_N; d_T_N].
Lemma v_only_methods t m : m ∈ v_mset t → m ∈ v_ms.
Proof.
  assert (H1 : ∀ n, v_mset_of n ⊆ v_ms).
  { intros n. do 8 (destruct n as [|n]; [apply list_subseteq_nil || (intros x Hx; enum Hx; subst x; apply elem_of_list_In; vm_compute; tauto)|]). apply list_subseteq_nil. }
  assert (H2 : ∀ n, v_pmset_of n ⊆ v_ms).
  { intros n. do 8 (destruct n as [|n]; [apply list_subseteq_nil || (intros x Hx; enum Hx; subst x; apply elem_of_list_In; vm_compute; tauto)|]). apply list_subseteq_nil. }
  destruct t; cbn [v_mset]; try (by intros ?%elem_of_nil); [apply H1|]. destruct t; try (by intros ?%elem_of_nil). apply H2.
Qed.
Lemma v_scopes : scopes_ok V_ V_F.
Proof.
  split.
  - intros p ti k o Hp Hti Ho Hk _ _ _. cbn [V_ pr_pkgs] in Hp. apply elem_of_list_singleton in Hp as ->. injection Hti as <-.
    cbn [v_ti ti_defs] in Ho. apply tab_in in Ho. cbn [In v_defs] in Ho. repeat destruct Ho as [[= <- <-]|Ho]; try done.
    + eexists _, _. split; [|exact v_type_I]. done.
    + eexists _, _. split; [|exact v_type_T]. done.
  - intros p f i o f' i' o' H H' E. destruct (v_types _ _ _ _ H) as (_ & _ & [[-> ->]|[-> ->]]), (v_types _ _ _ _ H') as (_ & _ & [[-> ->]|[-> ->]]); done.
  - intros p o H. by destruct (v_deps _ _ H) as [_ [->| ->]].
  - intros p o o' H H' E. destruct (v_deps _ _ H) as [_ [->| ->]], (v_deps _ _ H') as [_ [->| ->]]; done.
  - intros t m p f i o Hm Hp. cbn [V_F tf_mset] in Hm. apply v_only_methods in Hm.
    destruct (v_types _ _ _ _ Hp) as (_ & _ & [[-> _]|[-> _]]); enum Hm; subst m; try done.
  - intros k q p m Hk Hq Hm. destruct (v_all_in _ _ Hk) as [[-> ->]|[-> ->]]; injection Hq as <-; injection Hm as <-; split; reflexivity.
Qed.

Lemma v_unsealed : ¬ sealed (pr_env V_) (tf_mset V_F) (o_type v_I).
Proof. intros (m & [Hm|[_ Hm]] & He); enum Hm; subst m; vm_compute in He; discriminate He. Qed.
Lemma v_sat v m : m ∈ v_mset v → obj_Id m = "N" → o_type m = w_void → implements_interface v_mset w_cok v [("N", w_void)] "".
Proof.
  intros Hm Hid Ht. split; [|done]. intros id t Hin. apply elem_of_list_singleton in Hin as [= -> ->].
  exists m. split; [done|]. split; [done|]. rewrite Ht. eapply id_sig; [done|done|constructor|constructor].
Qed.
Lemma v_T_implements : implementation V_ V_F v_p v_T v_dep d_I.
Proof.
  split; [done|]. split; [done|]. split; [exists d_I_N; left; left|]. split.
  - exists [("N", w_void)], "". split; [done|]. left. apply (v_sat _ v_T_N); [left|done|done].
  - intros (m & [Hm|[_ Hm]] & He); enum Hm; subst m; vm_compute in He; discriminate He.
Qed.
Lemma d_T_implements : implementation V_ V_F v_dep d_T v_p v_I.
Proof.
  split; [done|]. split; [done|]. split; [exists v_I_N; left; left|]. split; [|intros H; by destruct v_unsealed].
  exists [("N", w_void)], "". split; [done|]. left. apply (v_sat _ d_T_N); [left|done|done].
Qed.
Lemma v_dep_type o : o = d_I ∨ o = d_T → dependency_type V_ V_F v_dep o.
Proof. intros [->| ->]; (split; try done; [by exists 3|rewrite elem_of_list_In; vm_compute; tauto|by eexists _, _]). Qed.
Lemma v_method_T : project_method V_ V_F v_p y_file (mk 7 "N" 69) (KeyMethod "T" "N") v_T_N.
Proof.
  split; [|by exists v_ti|by eexists|by exists v_tp|by exists (o_type v_T); left].
  apply (v_declares _ _ y_dN); [|done|done|done|done|by exists v_T_N|done].
  eexists _, _, _, _, _, y_dN. split; [reflexivity|]. split; [rewrite elem_of_list_In; vm_compute; tauto|].
  unfold y_dN. change (KeyMethod "T" "N") with (KeyMethod (id_name (mk 6 "T" 66)) (id_name (mk 7 "N" 69))). apply dd_method. constructor.
Qed.
Lemma v_method_I : project_method V_ V_F v_p y_file (mk 3 "N" 31) (KeyMember "I" "N") v_I_N.
Proof.
  split; [|by exists v_ti|by eexists|by exists v_tp|by exists (o_type v_I); left].
  apply (v_declares _ _ (NField "" "" [mk 3 "N" 31] (NFuncType 32 empty_fields empty_fields empty_fields))); [|done|done|done|done|by exists v_I_N|done].
  eexists _, _, _, _, _, y_dI. split; [reflexivity|]. split; [left|].
  eapply (dd_imethod _ _ _ _ (mk 1 "I" 17)); left.
Qed.


Definition y_raw : gpkg := GPkg 1 "ex.org/p" "p" (Some (GMod "ex.org" "" "/src" "" None)) [] [y_file] (Some w_p) (Some y_ti).
Definition v_world : world := World (λ _, GoModUnreadable) (λ _, None).
Lemma v_same : same_package y_p v_dep.
Proof.
  assert (H : Forall PropPaths.name_ok ["src"]) by (repeat constructor; done).
  exists (IOpts "/src" "v1" "ex.org" "go1.25" false false false []), v_world, y_raw, (GMod "ex.org" "" "/src" "" None).
  exists (IOpts "/home/b" "v2" "other.net" "go1.25" false false false []), v_world, v_dep, v_dep_mod.
  split; [|split; [vm_compute; reflexivity|]; split; [by repeat split|]; split; [vm_compute; reflexivity|]; split; [done|]; split; [done|]].
  - split; [by repeat split|]. do 4 (split; [done|]). split; [right; by exists ["src"]|]. split; [right; by exists ["src"]|].
    exists ["src"], ["src"]. repeat (split; [done|]). left. by exists [].
  - apply N_keep; [done| |].
    + rewrite <- is_pseudo_iff. vm_compute. done.
    + rewrite <- has_build_iff. vm_compute. tauto.
Qed.

(** T of other.net/p is related to I of ex.org/p ... *)
Example C78_interface_example : ∃ s t info, defines Y_ (y_run y_it).1 y_p y_file (mk 1 "I" 17) s ∧ defines V_ (v_run v_it).1 v_p y_file (mk 4 "T" 46) t ∧
  described_by V_ (v_run v_it).1 v_p y_file t info ∧ implementation_relationship s ∈ i_relationships info.
Proof.
  eapply (C78_remote_interface Y_ _ y_p y_file (mk 1 "I" 17) V_ V_F _ v_p y_file (mk 4 "T" 46) v_T v_dep d_I
    (search_indexed_indexed _ _ _ y_search) (pt_decl _ _ _ _ _ _ y_type_I) v_search v_scopes v_type_T v_same); [|done|exact v_T_implements].
  apply v_dep_type. by left.
Qed.
(** ... T of ex.org/p to I of other.net/p ... *)
Example C78_type_example : ∃ s t info, defines Y_ (y_run y_it).1 y_p y_file (mk 4 "T" 46) s ∧ defines V_ (v_run v_it).1 v_p y_file (mk 1 "I" 17) t ∧
  info ∈ externals (v_run v_it).1 ∧ i_symbol info = s ∧ implementation_relationship t ∈ i_relationships info.
Proof.
  eapply (C78_remote_type Y_ _ y_p y_file (mk 4 "T" 46) V_ V_F _ v_p y_file (mk 1 "I" 17) v_I v_dep d_T
    (search_indexed_indexed _ _ _ y_search) (pt_decl _ _ _ _ _ _ y_type_T) v_search v_scopes v_type_I v_same); [|done|exact d_T_implements].
  apply v_dep_type. by right.
Qed.
(** ... but method N of T is not related to the symbol of method N of I of ex.org/p. *)
Example C78_method_example : ∃ s t info, defines Y_ (y_run y_it).1 y_p y_file (mk 3 "N" 31) s ∧ defines V_ (v_run v_it).1 v_p y_file (mk 7 "N" 69) t ∧
  described_by V_ (v_run v_it).1 v_p y_file t info ∧ ∀ r, r ∈ i_relationships info → r_symbol r ≠ s.
Proof.
  eapply (C78_remote_method_refuted Y_ _ y_p y_file (mk 3 "N" 31) "I" "N" V_ V_F _ v_p y_file (mk 7 "N" 69) _ v_T_N v_dep
    (search_indexed_indexed _ _ _ y_search) (pm_decl _ _ _ _ _ _ _ y_method_I) v_search v_scopes v_method_T v_same); [by exists 3|done|].
  intros t m Hm%v_only_methods. enum Hm; subst m; by eexists.
Qed.
Example v_runs :
  let p s := "scip-go gomod ex.org v1 `ex.org/p`/" +:+ s in
  let r s := "scip-go gomod other.net v2 `other.net/p`/" +:+ s in
  y_view (v_run v_it) = ([[(r "T#", [p "I#"; r "I#"]); (r "", []); (r "I#", []); (r "T#N().", [p "I#N()."; r "I#N."]); (r "I#N.", [])]], [(p "T#", [r "I#"])], Returned None).
Proof. vm_compute. reflexivity. Qed.
