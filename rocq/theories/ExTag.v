(** For C66: a run whose texts are all valid, and one of a project with a struct tag that is not valid UTF-8:
      package p
      type T struct { F struct { X int "\xff" } } *)
From Coq Require Import Ascii String.
From stdpp Require Import prelude strings gmap sorting.
From Verif Require Import GoStr Scip GoTypes Ast Packages Symbols Document Lookup Pass1 Pass2 Paths Env Loader Index
  SpecSymbol SpecDecl SpecLookup SpecOcc SpecIndex P_Symbols P_Pass1 P_Lookup P_Pass2 P_Occ P_Index PropDecl PropIndex PropLoader
  Output Proto Cli PropCli Options PropPaths PropOptions Url PropUrl
  Quote Fingerprint SpecTypes P_Finger PropFinger Impls P_Rel P_Ident SpecImpl P_Filter P_Mem P_Extract P_Impl PropImpl PropDet PropCross
  ExDecl ExOcc ExIndex ExImpl ExDet Program PropEnd ExEnd SpecText SpecSig P_SigText P_Text P_Text2 P_Text3 Signature PropText.
Open Scope string_scope.
Open Scope list_scope.

(** *** the project *)
Definition z_fieldX : node := NField "" "" [mk 5 "X" 39] (NIdent (mk 6 "int" 41)).
Definition z_fieldF : node := NField "" "" [mk 3 "F" 28] (NStructType 4 30 (NFieldList [z_fieldX])).
Definition z_dT : node := NGenDecl 12 TYPE "" [NTypeSpec "" (mk 1 "T" 17) empty_fields (NStructType 2 19 (NFieldList [z_fieldF]))].
Definition z_file : node := NFile 1 false "" (mk 0 "p" 9) [z_dT].
(** the tag "\xff": one byte *)
Definition z_byte : string := String "255" "".
Section Project.
(** go/format; the tag *)
Context (gofmt : string → option string) (z_tag : string).
Definition z_inner : ty := TStruct [(FHdr 3 "X" (Some "ex.org/p") false z_tag, TBasic BInt false)].
Definition z_T := w_type 1 "T" w_p 17.
Definition z_F : obj := Obj 2 "F" (Some w_p) 28 (OVar true) z_inner None.
Definition z_X : obj := Obj 3 "X" (Some w_p) 39 (OVar true) (TBasic BInt false) None.
Definition z_int : obj := Obj 4 "int" None 0 OTypeName (TBasic BInt false) None.
Definition z_objs (i : nat) : option obj := List.find (λ o, Nat.eqb (o_id o) i) [z_T; z_F; z_X; z_int].
Definition z_defs : list (nat * obj) := [(1, z_T); (3, z_F); (5, z_X)].
(** what the printer of go/types reads: the field's type is struct{X int "\xff"} *)
Definition z_pkg : hpkg := HPkg "ex.org/p" "p".
Definition z_view (o : obj) : hobj :=
  match o_id o with
  | 1 => HObj "T" (Some z_pkg) true (HTypeName (DDefined [] (HStruct [("F", false, "", HStruct [("X", false, z_tag, HBasic "int")])])))
  | 2 => HObj "F" (Some z_pkg) false (HVar true (HStruct [("X", false, z_tag, HBasic "int")]))
  | _ => HObj "X" (Some z_pkg) false (HVar true (HBasic "int"))
  end.
(** types.ObjectString *)
Definition z_objstr (o : obj) : string := object_string (quote x_u) (λ _, "") (z_view o).

Definition z_ti : tinfo := TInfo (ExOcc.tab z_defs) (ExOcc.tab [(6, z_int)]) (λ _, None) [] (λ i, if Nat.eqb i 4 then Some "struct{X int}" else None)
  (λ o, type_string_for_object (quote x_u) unquote gofmt (z_view o)).
Definition z_p0 : gpkg := GPkg 1 "ex.org/p" "p" (Some (GMod "ex.org" "" "/src" "/src/go.mod" None)) [] [z_file] (Some w_p) (Some z_ti).
Definition z_p : gpkg := GPkg 1 "ex.org/p" "p" (Some (GMod "ex.org" "v1.0.0" "/src" "/src/go.mod" None)) [] [z_file] (Some w_p) (Some z_ti).
Definition z_h0 : pheap := {[1 := z_p0]}.
Definition z_h : pheap := <[1 := z_p]> (<[9 := e_builtin]> z_h0).
Definition z_all : ptab := <["ex.org/p" := 1]> {["builtin" := 9]}.
Definition z_proj : ptab := <["ex.org/p" := 1]> ∅.
Definition z_env : tenv := λ _ _, TStruct [(FHdr 2 "F" (Some "ex.org/p") false "", z_inner)].
Definition z_mset (t : ty) : list obj := [].
Definition z_orders : orders :=
  Orders (λ t, map fst (map_to_list t)) (λ p, match p_info p with Some _ => map snd z_defs | None => [] end)
    (λ _ d, map_to_list d) (λ _ _ d, map_to_list d) (λ _ _ _ d, map_to_list d) (λ _ _ d, map_to_list d) (λ d, map_to_list d).
Definition z_it : iteration := Iteration x_mo z_orders ["ex.org/p"] ["builtin"; "ex.org/p"] ["ex.org/p"].
Definition z_surroundings : surroundings := Surroundings e_machine e_world (λ _, inr (z_h0, [1])) 9 x_fs z_env z_mset w_cok w_level (λ _, [])
  z_objstr x_u w_crc (λ _, "da39a3ee") z_it no_errors (λ _, "") "v0.1.26".
Definition z_project : project := Project z_env z_objs x_fs z_h z_all z_proj [z_p].

Lemma z_heap0 q p : z_h0 !! q = Some p → q = 1 ∧ p = z_p0.
Proof. unfold z_h0. rewrite lookup_singleton_Some. naive_solver. Qed.
Lemma z_heap q p : z_h !! q = Some p → q = 1 ∧ p = z_p ∨ q = 9 ∧ p = e_builtin.
Proof. unfold z_h. rewrite !lookup_insert_Some. intros [[<- <-]|[H1 [[<- <-]|[H2 Hx]]]]; [tauto|tauto|]. by destruct (z_heap0 _ _ Hx) as [-> _]. Qed.
Lemma z_all_in k q : z_all !! k = Some q → k = "ex.org/p" ∧ q = 1 ∨ k = "builtin" ∧ q = 9.
Proof. unfold z_all. rewrite !lookup_insert_Some, lookup_singleton_Some. intros [[<- <-]|[_ [<- <-]]]; tauto. Qed.
Lemma z_proj_in k q : z_proj !! k = Some q → k = "ex.org/p" ∧ q = 1.
Proof. unfold z_proj. rewrite lookup_insert_Some, lookup_empty. intros [[<- <-]|[_ ?]]; done. Qed.
Lemma z_input : load_input 9 z_h0 [1].
Proof.
  split.
  - intros p g r Hp Hr. destruct (z_heap0 _ _ Hp) as [-> ->]. by apply elem_of_nil in Hr.
  - intros p ->%elem_of_list_singleton. by eexists.
  - reflexivity.
  - intros p g Hp. destruct (z_heap0 _ _ Hp) as [-> ->]. reflexivity.
Qed.
Lemma z_normal : normalize_package e_o e_world z_p0 = Ok z_p.
Proof. reflexivity. Qed.
Lemma z_loads h all proj : load_packages e_o e_world 9 z_h0 [1] h all proj → h = z_h ∧ all = z_all ∧ proj = z_proj.
Proof.
  intros Hl. unfold load_packages in Hl. change (with_default_version e_o) with e_o in Hl. inversion Hl as [|? ? ? ? ? h1 t1 g q h2 t2 pj2 Ha Hg Hq Hl']; subst. clear Hl.
  assert (X : LState h1 t1 [] = LState z_h z_all []).
  { revert Ha. unfold add_imports. generalize (eq_refl : ls_stack (LState h1 t1 []) = []). generalize (LState h1 t1 []). intros s Hs Hr.
    eapply (one_step e_o e_world (λ s, s = LState z_h z_all [])); [exact Hr|exact Hs|reflexivity|reflexivity|]. clear Hr Hs s.
    intros g' order s Hn Ho Hr Hs. rewrite z_normal in Hn. injection Hn as <-. cbn [p_imports z_p map snd] in Ho. apply Permutation_nil_r in Ho as ->. cbn [app] in Hr.
    inversion Hr as [x|x y z H1 H2]; subst; [reflexivity|]. inversion H1. }
  injection X as -> ->. change (z_h !! 1 = Some g) in Hg. destruct (z_heap _ _ Hg) as [[_ ->]|[? _]]; [|done]. change (Some 1 = Some q) in Hq. injection Hq as <-. by inversion Hl'; subst.
Qed.
Lemma z_load : load_packages e_o e_world 9 z_h0 [1] z_h z_all z_proj.
Proof.
  destruct (run_load 20 e_o e_world 9 z_h0 [1]) as [[[h all] proj]|] eqn:E; [|discriminate E].
  apply run_load_sound in E. by destruct (z_loads _ _ _ E) as (-> & -> & ->).
Qed.

Lemma z_wf : wf_file x_fs z_ti (imports_of z_h z_p) z_file.
Proof.
  split.
  - by eexists _, _, _, _, _.
  - intros decl m c Hd Hm Hc.
    assert (H : forallb (λ decl, forallb (λ m, forallb (λ c, match c with NFuncDecl _ _ _ _ _ _ _ | NFile _ _ _ _ _ => false | _ => true end)
       (node_children m)) (subnodes decl)) (file_decls z_file) = true) by reflexivity.
    rewrite forallb_forall in H. specialize (H _ (proj1 (elem_of_list_In _ _) Hd)).
    rewrite forallb_forall in H. specialize (H _ (proj1 (elem_of_list_In _ _) Hm)).
    rewrite forallb_forall in H. specialize (H _ (proj1 (elem_of_list_In _ _) Hc)). by destruct c.
  - intros decl Hd. enum Hd; by subst.
  - vm_compute. repeat (apply NoDup_cons; split; [intros H; enum H|]). constructor.
  - intros par i o path Hi Hu Hk. exfalso. apply tab_in in Hu. cbn in Hu.
    repeat (destruct Hu as [Hu|Hu]; [injection Hu as E' <-; discriminate|]). done.
  - intros ptr o path [H|H] Hk; apply tab_in in H; cbn in H;
      repeat (destruct H as [H|H]; [injection H as _ <-; try discriminate; done|]); done.
  - intros i Hi. rewrite <- elem_of_node_idents in Hi. enum Hi; subst i; fits.
  - intros d p e r nm t b H. enum H.
  - intros ptr nm p l path imp Hin Himp. enum Hin.
Qed.
Lemma z_typed : typed_file x_fs z_ti (imports_of z_h z_p) z_objs z_file.
Proof.
  split; [apply z_wf| |intros o path H; by apply elem_of_nil in H].
  intros ptr o Hu Hk. apply tab_in in Hu. cbn in Hu. destruct Hu as [[= <- <-]|[]]. split; [reflexivity|reflexivity|reflexivity| |done].
  apply uo_plain; [by left|reflexivity].
Qed.
Lemma z_defs_at : defs_at_idents z_ti z_file.
Proof.
  split.
  - intros i d Hi Hd. rewrite <- elem_of_node_idents in Hi. enum Hi; subst i; vm_compute in Hd; try discriminate; injection Hd as <-; reflexivity.
  - vm_compute. repeat (apply NoDup_cons; split; [intros H; enum H|]). constructor.
Qed.
Lemma z_analysable : analysable z_env z_mset z_objs (λ _, []) z_h z_all z_proj.
Proof.
  split.
  - split.
    + intros t. constructor.
    + intros tn args m _ H. by apply elem_of_nil in H.
    + intros tn args ms s H. discriminate H.
    + intros t m H. by apply elem_of_nil in H.
  - intros k q H. destruct (z_all_in _ _ H) as [[-> ->]|[-> ->]]; eexists _, _; split; [reflexivity|done|reflexivity|done].
  - intros k q H. destruct (z_proj_in _ _ H) as [-> ->]; eexists _, _, _; (split; [reflexivity|done]).
  - intros k q p o _ _ _ Ho. by apply elem_of_nil in Ho.
Qed.
Lemma z_order : project_in_order z_h z_proj [z_p].
Proof.
  split.
  - split; [|split].
    + intros k. cbn [map p_path z_p]. split; [intros ->%elem_of_list_singleton; by eexists|].
      intros [q H]. destruct (z_proj_in _ _ H) as [-> _]. left.
    + apply NoDup_singleton.
    + repeat constructor.
  - intros p ->%elem_of_list_singleton. exists 1. done.
Qed.
Lemma z_iteration : iteration_ok z_h z_all z_proj z_it.
Proof.
  assert (K1 : key_order z_proj ["ex.org/p"]) by (unfold key_order; vm_compute; repeat constructor).
  split; [split; intros; done|]. split; [|split; [exact K1|split; [|exact K1]]].
  - split; [split; intros; done|]. intros q p ti ob Hq Hp. destruct (z_heap _ _ Hq) as [[_ ->]|[_ ->]]; [|done].
    injection Hp as <-. cbn [z_ti ti_defs z_it it_search z_orders or_defs z_p p_info]. split.
    + intros H. enum H; subst ob; [by exists 1|by exists 3|by exists 5].
    + intros [i H]. apply tab_in in H. apply elem_of_list_In, (List.in_map snd _ _ H).
  - apply NoDup_Permutation; [|apply NoDup_fst_map_to_list|].
    + repeat (apply NoDup_cons; split; [intros H; enum H|]). constructor.
    + intros k. rewrite !elem_of_list_In. vm_compute. tauto.
Qed.
Lemma z_guarantees o : ro_index o = e_o → go_guarantees z_surroundings o z_h0 [1] z_project.
Proof.
  intros Eo. split; cbn [pr_env pr_objs pr_fs pr_heap pr_all pr_proj pr_pkgs z_project z_surroundings su_builtin su_env su_fs su_mset su_scope su_iteration].
  - apply z_input.
  - intros p q g g' Hp Hq E. by destruct (z_heap0 _ _ Hp) as [-> ->], (z_heap0 _ _ Hq) as [-> ->].
  - intros p g Hp E. by destruct (z_heap0 _ _ Hp) as [-> ->].
  - done.
  - done.
  - apply z_order.
  - split.
    + intros p f ->%elem_of_list_singleton ->%elem_of_list_singleton. exists z_ti, "/src/p.go".
      split; [done|]. split; [apply z_typed|]. split; [apply z_defs_at|done].
    + intros i j p f q f' name Hi Hj _ _. apply lookup_lt_Some in Hi, Hj. cbn in Hi, Hj. lia.
  - intros p f name i ->%elem_of_list_singleton ->%elem_of_list_singleton Hfn Hi. rewrite <- elem_of_node_idents in Hi.
    unfold file_of in Hfn. vm_compute in Hfn. injection Hfn as <-. enum Hi; subst i; reflexivity.
  - apply z_analysable.
  - apply z_iteration.
Qed.
Lemma z_works : go_works z_surroundings no_flags.
Proof.
  intros o h0 roots h all proj Eo [= <- <-] Hl. pose proof (e_options _ Eo) as Ei. rewrite Ei in Hl.
  destruct (z_loads _ _ _ Hl) as (-> & -> & ->). exists z_project. split; [done|]. split; [done|]. split; [done|]. by apply z_guarantees.
Qed.
(** every project that it loads is z_project, up to the listing of its packages *)
Lemma z_loaded o P : loaded_by z_surroundings no_flags o P → o = e_ro ∧ pr_fs P = x_fs ∧ pr_heap P = z_h ∧ pr_all P = z_all ∧ pr_proj P = z_proj ∧ z_p ∈ pr_pkgs P.
Proof.
  intros (h0 & roots & Eo & [= <- <-] & Hl & G). assert (o = e_ro) as -> by (vm_compute in Eo; by injection Eo as <-). split; [done|].
  destruct (z_loads _ _ _ Hl) as (E1 & E2 & E3). split; [by rewrite (gg_fs _ _ _ _ _ G)|]. split; [done|]. split; [done|]. split; [done|].
  destruct (gg_order _ _ _ _ _ G) as [[Hk _] Hp]. rewrite E3 in Hk, Hp. rewrite E1 in Hp.
  assert (Hin : "ex.org/p" ∈ map p_path (pr_pkgs P)) by (apply Hk; by eexists). apply elem_of_list_fmap in Hin as (p & Ep & Hin).
  destruct (Hp p Hin) as (q & Hq & Hh). destruct (z_proj_in _ _ Hq) as [_ ->]. destruct (z_heap _ _ Hh) as [[_ ->]|[? _]]; done.
Qed.
Lemma z_wf_pos : wf_pkg_pos z_p.
Proof. apply wf_pkgb_ok. vm_compute. reflexivity. Qed.
Lemma z_ptrs : distinct_ptrs z_p.
Proof.
  assert (H : ∀ i j, i ∈ node_idents z_file → j ∈ node_idents z_file → id_ptr i = id_ptr j → i = j).
  { intros i j Hi Hj. rewrite elem_of_list_In in Hi, Hj. vm_compute in Hi, Hj.
    repeat (destruct Hi as [<-|Hi]; [repeat (destruct Hj as [<-|Hj]; [vm_compute; congruence|]); done|]). done. }
  intros f i j Hf Hi Hj. apply elem_of_list_singleton in Hf as ->. apply H; by apply elem_of_node_idents.
Qed.
(** every text but the tag is plain *)
Lemma z_plain ob : object_plain (z_view ob).
Proof.
  assert (X : plain "T" ∧ plain "F" ∧ plain "X" ∧ plain "int" ∧ plain "ex.org/p" ∧ plain "p") by (repeat split; by apply plainb_ok). destruct X as (X1 & X2 & X3 & X4 & X5 & X6).
  unfold z_view. destruct (o_id ob) as [|[|[|n]]]; (split; [|done]); cbn; repeat (apply Forall_cons; split; [assumption|]); constructor.
Qed.
Lemma z_objstr_text ob : utf8 (z_objstr ob).
Proof. destruct (object_string_lits x_u (λ _, "") (λ _ _ _, plainb_ok "" eq_refl) (z_view ob)) as (l & Hl & _); [apply z_plain|]. by eapply lits_utf8. Qed.
End Project.

(** *** valid texts *)
Definition nodeb (n : node) : bool :=
  match n with
  | NIdent i => valid_utf8 (id_name i)
  | NField d c _ _ | NValueSpec d c _ _ _ => (valid_utf8 d && valid_utf8 c)%bool
  | NTypeSpec d _ _ _ | NGenDecl _ _ d _ | NFuncDecl d _ _ _ _ _ _ | NFile _ _ d _ _ => valid_utf8 d
  | _ => true
  end.
Lemma source_textb f : forallb nodeb (subnodes f) = true → source_text f.
Proof.
  intros H n Hn. apply elem_of_list_In in Hn. pose proof (proj1 (forallb_forall _ _) H n Hn) as Hb. cbn beta in Hb.
  destruct n; cbn in *; try done; by apply andb_prop in Hb.
Qed.
Lemma x_files_text pos n : fs_file x_fs pos = Some n → utf8 n.
Proof. cbn. unfold x_name. repeat destruct (Z.leb _ _); by intros [= <-]. Qed.
Ltac object_text := split; (split; [reflexivity|split; [first [exact I|reflexivity]|intros tp [= <-]; split; [reflexivity|constructor]]]).
Lemma builtin_text : package_text e_builtin.
Proof. split; [reflexivity|]. split; [reflexivity|]. intros m [= <-]. done. Qed.
Lemma z_text gofmt tag o P : loaded_by (z_surroundings gofmt tag) no_flags o P → go_text (z_surroundings gofmt tag) o P.
Proof.
  intros H. destruct (z_loaded _ _ _ _ H) as (-> & Efs & Eh & _ & _ & _). split; try rewrite Efs; try rewrite Eh.
  - reflexivity.
  - reflexivity.
  - by repeat constructor.
  - reflexivity.
  - reflexivity.
  - apply x_files_text.
  - intros q p Hq. destruct (z_heap _ _ _ _ Hq) as [[_ ->]|[_ ->]]; [|apply builtin_text]. split; [reflexivity|]. split; [reflexivity|]. intros m [= <-]. done.
  - intros q p f Hq Hf. destruct (z_heap _ _ _ _ Hq) as [[_ ->]|[_ ->]]; [|by apply elem_of_nil in Hf]. apply elem_of_list_singleton in Hf as ->. apply source_textb. vm_compute. reflexivity.
  - intros q p ti Hq Hi. destruct (z_heap _ _ _ _ Hq) as [[_ ->]|[_ ->]]; [|done]. injection Hi as <-. split.
    + intros x ob Hd. apply tab_in in Hd. cbn in Hd. repeat destruct Hd as [[= _ <-]|Hd]; [..|done]; (split; [object_text|apply z_objstr_text]).
    + intros x ob Hd. apply tab_in in Hd. cbn in Hd. destruct Hd as [[= _ <-]|[]]. split; (split; [reflexivity|]; split; [exact I|]; done).
    + intros ob Hc. by apply elem_of_nil in Hc.
  - intros t m Hm. by apply elem_of_nil in Hm.
  - intros p m Hm. by apply elem_of_nil in Hm.
Qed.
Lemma z_printed gofmt tag o P : gofmt_text gofmt → loaded_by (z_surroundings gofmt tag) no_flags o P → printed (z_surroundings gofmt tag) P (z_view tag).
Proof.
  intros Hg HP. exists gofmt. split; [done|]. intros q p ti x ob Hq Hi Hx. destruct (z_loaded _ _ _ _ HP) as (_ & _ & Eh & _). rewrite Eh in Hq.
  destruct (z_heap _ _ _ _ Hq) as [[_ ->]|[_ ->]]; [|done]. injection Hi as <-. split; [done|apply z_plain].
Qed.
Lemma z_some gofmt tag : ∃ o P, loaded_by (z_surroundings gofmt tag) no_flags o P.
Proof.
  exists e_ro, (z_project gofmt tag). exists (z_h0 gofmt tag), [1]. split; [vm_compute; reflexivity|]. split; [done|]. split; [apply z_load|by apply z_guarantees].
Qed.

(** *** a tag in UTF-8 *)
Lemma z_no_panic gofmt tag m : ¬ load_panics e_o e_world (<[9 := builtin_pkg 9 e_o]> (z_h0 gofmt tag)) {["builtin" := 9]} [1] m.
Proof.
  intros H. inversion H as [h t p ps h1 t1 q st g m' Hr Hg Hs Hn|h t p ps h1 t1 m' Ha Hp]; subst; [|by inversion Hp].
  inversion Hr as [x|x y z H1 H2]; subst.
  - change (Some (z_p0 gofmt tag) = Some g) in Hg. injection Hg as <-. rewrite z_normal in Hn. discriminate.
  - inversion H1 as [? ? ? g1 ? Hg1 Hk1|? ? ? g1 g' order ? Hg1 Hk1 Hn1 Ho]; subst; change (Some (z_p0 gofmt tag) = Some g1) in Hg1; injection Hg1 as <-; [discriminate Hk1|].
    rewrite z_normal in Hn1. injection Hn1 as <-. cbn [p_imports z_p map snd] in Ho. apply Permutation_nil_r in Ho as ->. cbn [app] in H2.
    inversion H2 as [x|x y z H3 H4]; subst. inversion H3.
Qed.
(** C66: with a tag in UTF-8 the run succeeds, whatever go/format does as long as it keeps text valid. *)
Example C66_succeeds_example gofmt tag output t : gofmt_text gofmt → utf8 tag → (output = "-" ∨ ∃ q, regular_output t output q) →
  (∃ r, scip_go (z_surroundings gofmt tag) no_flags output t r) ∧
  ∀ t' out code e, scip_go (z_surroundings gofmt tag) no_flags output t (t', out, Exit code e) → code = 0 ∧ e = None.
Proof.
  intros Hg Ht Hout. split.
  { apply (C64_ends (z_surroundings gofmt tag) no_flags output t). intros o h0 roots [= <- <-]. apply z_input. }
  apply C66_succeeds_partial; [apply z_works|by eexists| | | |exact Hout|done|].
  - intros o h e Eo Hl. pose proof (e_options _ Eo) as Ei. rewrite Ei in Hl. inversion Hl as [e' h' Ha|h0 roots m h' Ha Hp|]; [discriminate Ha|]. injection Ha as <- <-.
    by apply z_no_panic in Hp.
  - intros o P HP. split; [by apply z_text|]. apply (C66_signatures _ _ _ (z_printed _ _ _ _ Hg HP)).
    intros q p ti x ob tg Hq Hi Hx Htg. unfold z_view, field_tags in Htg. destruct (o_id ob) as [|[|[|n]]]; cbn in Htg; try by apply elem_of_nil in Htg.
    destruct (String.eqb tag ""); cbn in Htg; [by apply elem_of_nil in Htg|]. by apply elem_of_list_singleton in Htg as ->.
  - intros o P deps g c m _ _ _ _ _ [Hm|[_ Hm]]; by apply elem_of_nil in Hm.
  - done.
Qed.

(** *** a tag that is not *)
Lemma z_signature gofmt : valid_utf8 (ti_sig (z_ti gofmt z_byte) (z_F z_byte)) = false.
Proof. vm_compute. reflexivity. Qed.
Lemma z_invalid gofmt P : z_p gofmt z_byte ∈ pr_pkgs P → invalid_signature P.
Proof.
  intros Hp. exists (z_p gofmt z_byte), z_file, (z_ti gofmt z_byte), (mk 3 "F" 28), (KeyMember "T" "F"), z_fieldF, (z_F z_byte).
  split; [done|]. split; [left|]. split; [done|]. split; [apply z_wf_pos|]. split.
  - exists 1%Z, false, "", (mk 0 "p" 9), [z_dT], z_dT. split; [done|]. split; [left|].
    apply (dd_field _ _ _ "" (mk 1 "T" 17) empty_fields 2 19 [z_fieldF] "" "" [mk 3 "F" 28] _ (mk 3 "F" 28)); left.
  - split; [done|]. split; [apply z_ptrs|]. split; [done|]. split; [done|]. apply z_signature.
Qed.

(** C66: it is false that a run succeeds whenever the texts of the project are valid and the system reports no
    error.  A field of an anonymous struct type with the tag "\xff" (six ASCII characters in the source) is printed
    by go/types with the tag quoted, but quotedTagsToBacktick unquotes it, and protobuf rejects the byte: the whole
    run fails, whatever gofmt does. *)
Theorem C66_tag_refuted : ∀ gofmt, gofmt_text gofmt → ∃ S view, go_works S no_flags ∧
  (∃ o P, loaded_by S no_flags o P) ∧
  (∀ o P, loaded_by S no_flags o P → go_text S o P ∧ printed S P view) ∧
  su_sys S = no_errors ∧
  ∀ output t, (∃ r, scip_go S no_flags output t r) ∧ ∀ t' out code e, scip_go S no_flags output t (t', out, Exit code e) → code ≠ 0.
Proof.
  intros gofmt Hg. exists (z_surroundings gofmt z_byte), (z_view z_byte). split; [apply z_works|]. split; [apply z_some|].
  split; [intros o P HP; split; [by apply z_text|by eapply z_printed]|]. split; [done|]. intros output t. split.
  - apply (C64_ends (z_surroundings gofmt z_byte) no_flags output t). intros o h0 roots [= <- <-]. apply z_input.
  - apply (C66_invalid_signature_fails _ _ _ _ (z_works gofmt z_byte)). intros o P HP. apply (z_invalid gofmt). by destruct (z_loaded _ _ _ _ HP) as (_ & _ & _ & _ & _ & Hp).
Qed.
Print Assumptions C66_tag_refuted.
