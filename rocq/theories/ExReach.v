(** Members of anonymous types in initial values, for C63.
    p.go:  package p
           type T struct{}
           var a, b = struct { A struct { X int }; T }{}, 2
           var s []struct { B int }
    q.go:  package p
           var c, d = struct { A int }{}, 1        (same line and column as a, b)
           var y = a.A.X
           var z = a.T
           var w = s[0].B *)
From Coq Require Import Ascii String.
From stdpp Require Import prelude strings gmap sorting.
From Verif Require Import GoStr Scip GoTypes Packages Symbols Document Lookup Pass1 Pass2 Paths
  Loader Index Ast SpecSymbol SpecDecl SpecLookup SpecOcc SpecIndex
  P_Symbols P_Pass1 P_Link P_Lookup P_Pass2 P_Occ P_Scope P_Index PropDecl PropOcc PropIndex PropDet PropAnon PropCross ExDecl ExOcc ExIndex ExCross PropNav PropLocal ExLocal PropMember ExMember PropReach.
Open Scope string_scope.
Open Scope list_scope.

Definition rc_name (p : Z) : option string :=
  if Z.leb p 200 then Some "/src/p.go" else if Z.leb p 400 then Some "/src/q.go" else None.
Definition rc_fs : fset :=
  FSet (λ p, Position (match rc_name p with Some n => n | None => "" end) 1 (p mod 201)) rc_name.
Definition rc_X : Ast.ident := mk 5 "X" 56.
Definition rc_T : Ast.ident := mk 7 "T" 65.
Definition rc_B : Ast.ident := mk 9 "B" 130.
Definition rc_fld : node := NField "" "" [rc_X] (NIdent (mk 6 "int" 58)).
Definition rc_inner : node := NStructType 52 47 (NFieldList [rc_fld]).
Definition rc_fields : list node := [NField "" "" [mk 4 "A" 45] rc_inner; NField "" "" [] (NIdent rc_T)].
Definition rc_lit : node := NOther 36 [NStructType 51 36 (NFieldList rc_fields)].
Definition rc_dT : node := NGenDecl 12 TYPE "" [NTypeSpec "" (mk 1 "T" 17) empty_fields (NStructType 50 19 (NFieldList []))].
Definition rc_spec : node := NValueSpec "" "" [mk 2 "a" 31; mk 3 "b" 33] None [rc_lit; NOther 75 []].
Definition rc_dv : node := NGenDecl 27 VAR "" [rc_spec].
Definition rc_bfields : list node := [NField "" "" [rc_B] (NIdent (mk 10 "int" 132))].
Definition rc_slice : node := NArrayType 120 None (NStructType 53 122 (NFieldList rc_bfields)).
Definition rc_sspec : node := NValueSpec "" "" [mk 8 "s" 114] (Some rc_slice) [].
Definition rc_ds : node := NGenDecl 110 VAR "" [rc_sspec].
Definition rc_file1 : node := NFile 1 false "" (mk 0 "p" 9) [rc_dT; rc_dv; rc_ds].
Definition rc_A2 : Ast.ident := mk 24 "A" 246.
Definition rc_fields2 : list node := [NField "" "" [rc_A2] (NIdent (mk 25 "int" 248))].
Definition rc_lit2 : node := NOther 237 [NStructType 54 237 (NFieldList rc_fields2)].
Definition rc_spec2 : node := NValueSpec "" "" [mk 22 "c" 232; mk 23 "d" 234] None [rc_lit2; NOther 256 []].
Definition rc_dc : node := NGenDecl 228 VAR "" [rc_spec2].
Definition rc_selX : node := NSelectorExpr (NSelectorExpr (NIdent (mk 13 "a" 298)) (mk 14 "A" 300)) (mk 15 "X" 302).
Definition rc_selT : node := NSelectorExpr (NIdent (mk 17 "a" 318)) (mk 18 "T" 320).
Definition rc_selB : node := NSelectorExpr (NIndexExpr (NIdent (mk 20 "s" 338)) (NOther 340 [])) (mk 21 "B" 343).
Definition rc_dy : node := NGenDecl 290 VAR "" [NValueSpec "" "" [mk 12 "y" 294] None [rc_selX]].
Definition rc_dz : node := NGenDecl 310 VAR "" [NValueSpec "" "" [mk 16 "z" 314] None [rc_selT]].
Definition rc_dw : node := NGenDecl 330 VAR "" [NValueSpec "" "" [mk 19 "w" 334] None [rc_selB]].
Definition rc_file2 : node := NFile 201 false "" (mk 11 "p" 210) [rc_dc; rc_dy; rc_dz; rc_dw].
Definition rc_nT : tname := TName 1 (Some "ex.org/p") "T".
Definition rc_tT : ty := TNamed rc_nT [].
Definition rc_int : ty := TBasic BInt false.
Definition rc_tpkg : tpkg := TPkg "ex.org/p" [SEntry "T" true rc_tT].
Definition rc_oT : obj := Obj 1 "T" (Some rc_tpkg) 17 OTypeName rc_tT None.
Definition rc_oa : obj := Obj 2 "a" (Some rc_tpkg) 31 (OVar false) (TStruct []) None.
Definition rc_ob : obj := Obj 3 "b" (Some rc_tpkg) 33 (OVar false) rc_int None.
Definition rc_oA : obj := Obj 4 "A" (Some rc_tpkg) 45 (OVar true) (TStruct []) None.
Definition rc_oX : obj := Obj 5 "X" (Some rc_tpkg) 56 (OVar true) rc_int None.
Definition rc_of : obj := Obj 6 "T" (Some rc_tpkg) 65 (OVar true) rc_tT None.
Definition rc_os : obj := Obj 7 "s" (Some rc_tpkg) 114 (OVar false) (TSlice (TStruct [])) None.
Definition rc_oB : obj := Obj 8 "B" (Some rc_tpkg) 130 (OVar true) rc_int None.
Definition rc_oint : obj := Obj 9 "int" None 0 OTypeName rc_int None.
Definition rc_oy : obj := Obj 10 "y" (Some rc_tpkg) 294 (OVar false) rc_int None.
Definition rc_oz : obj := Obj 11 "z" (Some rc_tpkg) 314 (OVar false) rc_tT None.
Definition rc_ow : obj := Obj 12 "w" (Some rc_tpkg) 334 (OVar false) rc_int None.
Definition rc_oc : obj := Obj 13 "c" (Some rc_tpkg) 232 (OVar false) (TStruct []) None.
Definition rc_od : obj := Obj 14 "d" (Some rc_tpkg) 234 (OVar false) rc_int None.
Definition rc_oA2 : obj := Obj 15 "A" (Some rc_tpkg) 246 (OVar true) rc_int None.
Definition rc_objs (i : nat) : option obj := List.find (λ o, Nat.eqb (o_id o) i) [rc_oT; rc_oa; rc_ob; rc_oA; rc_oX; rc_of; rc_os; rc_oB; rc_oint; rc_oy; rc_oz; rc_ow; rc_oc; rc_od; rc_oA2].
Definition rc_defs : nat → option obj := tab [(1, rc_oT); (2, rc_oa); (3, rc_ob); (4, rc_oA); (5, rc_oX); (7, rc_of); (8, rc_os); (9, rc_oB); (12, rc_oy); (16, rc_oz); (19, rc_ow); (22, rc_oc); (23, rc_od); (24, rc_oA2)].
Definition rc_uses : nat → option obj := tab [(6, rc_oint); (7, rc_oT); (10, rc_oint); (13, rc_oa); (14, rc_oA); (15, rc_oX); (17, rc_oa); (18, rc_of); (20, rc_os); (21, rc_oB); (25, rc_oint)].
Definition rc_ti : tinfo := TInfo rc_defs rc_uses (λ _, None) [] (λ r, if Nat.eqb r 52 then Some "struct{X int}" else None) (λ _, "sig").
Definition rc_p : gpkg := GPkg 1 "ex.org/p" "p" (Some a_mod) [] [rc_file1; rc_file2] (Some rc_tpkg) (Some rc_ti).
Definition rc_h : pheap := {[ 1 := rc_p ]}.
Definition rc_all : ptab := {[ "ex.org/p" := 1 ]}.
Definition RC_ : project := Project p_env rc_objs rc_fs rc_h rc_all rc_all [rc_p].

Lemma rc_typed f : f ∈ [rc_file1; rc_file2] → typed_file rc_fs rc_ti (imports_of rc_h rc_p) rc_objs f ∧ defs_at_idents rc_ti f.
Proof.
  intros Hf. split.
  - split.
    2:{ intros ptr o Hu Hk. apply tab_in in Hu. cbn in Hu. repeat (destruct Hu as [Hu|Hu]; [injection Hu as <- <-; split; [reflexivity|reflexivity|reflexivity|first [by split|by constructor; [left|]]|done]|]). done. }
    2:{ intros o path Ho. enum Ho; subst o; done. }
    split.
    + enum Hf; subst f; by eexists _, _, _, _, _.
    + intros decl m c Hd Hm Hc.
      assert (H : forallb (λ f, forallb (λ decl, forallb (λ m, forallb (λ c, match c with NFuncDecl _ _ _ _ _ _ _ | NFile _ _ _ _ _ => false | _ => true end)
        (node_children m)) (subnodes decl)) (file_decls f)) [rc_file1; rc_file2] = true) by reflexivity.
      rewrite forallb_forall in H. specialize (H _ (proj1 (elem_of_list_In _ _) Hf)).
      rewrite forallb_forall in H. specialize (H _ (proj1 (elem_of_list_In _ _) Hd)).
      rewrite forallb_forall in H. specialize (H _ (proj1 (elem_of_list_In _ _) Hm)).
      rewrite forallb_forall in H. specialize (H _ (proj1 (elem_of_list_In _ _) Hc)). by destruct c.
    + intros decl Hd. enum Hf; subst f; enum Hd; by subst.
    + enum Hf; subst f; vm_compute; repeat (apply NoDup_cons; split; [intros H; enum H|]); constructor.
    + intros par i o path Hi Hu Hk. exfalso. apply tab_in in Hu. cbn in Hu.
      repeat (destruct Hu as [Hu|Hu]; [injection Hu as E' <-; discriminate|]). done.
    + intros ptr o path [H|H] Hk; apply tab_in in H; cbn in H;
        repeat (destruct H as [H|H]; [injection H as _ <-; try discriminate; done|]); done.
    + intros i Hi. rewrite <- elem_of_node_idents in Hi. enum Hf; subst f; enum Hi; subst i; fits.
    + intros d p e r nm t b H. enum Hf; subst f; enum H.
    + intros ptr nm p l path imp Hin Himp. enum Hf; subst f; enum Hin.
  - split.
    + intros i d Hi Hd. rewrite <- elem_of_node_idents in Hi. enum Hf; subst f; enum Hi; subst i; vm_compute in Hd; try discriminate; injection Hd as <-; reflexivity.
    + enum Hf; subst f; vm_compute; repeat (apply NoDup_cons; split; [intros H; enum H|]); constructor.
Qed.
Lemma rc_indexable : indexable rc_objs rc_fs rc_h rc_all rc_all [rc_p].
Proof.
  split.
  - split; [|split].
    + intros k q H%x_in. enum H; injection H as <- <-; eexists _, _; by split_and!.
    + intros k q H%x_in. enum H; injection H as <- <-; eexists _, _; by split_and!.
    + intros k q p H%x_in Hh. enum H; injection H as <- <-; vm_compute in Hh; injection Hh as <-;
        eexists _, _; split; reflexivity || split; reflexivity.
  - split.
    + split; [|split].
      * intros k. cbn [map p_path rc_p]. split.
        -- intros ->%elem_of_list_singleton. by eexists.
        -- intros [q H%x_in]. enum H; injection H as <- <-; left.
      * apply NoDup_singleton.
      * cbn. repeat constructor.
    + intros p Hp. enum Hp; subst p; eexists; by split.
  - split.
    + intros p f Hp Hf. apply elem_of_list_singleton in Hp as ->. destruct (rc_typed f Hf) as [H1 H2].
      exists rc_ti. cbn [p_syntax rc_p] in Hf. enum Hf; subst f; eexists; repeat (split; [done|]); reflexivity.
    + intros i j p f q f' name Hi Hj Hf Hf'.
      assert (NoDup (map (λ e : gpkg * node, rc_name (file_package_pos e.2)) (files_in_order [rc_p]))) as Hnd.
      { vm_compute. repeat (apply NoDup_cons; split; [intros H; enum H|]). constructor. }
      eapply (NoDup_lookup _ i j (Some name) Hnd); rewrite list_lookup_fmap.
      * rewrite Hi. cbn. by f_equal.
      * rewrite Hj. cbn. by f_equal.
  - intros p f name i Hp Hf Hfn Hi. rewrite <- elem_of_node_idents in Hi.
    apply elem_of_list_singleton in Hp as ->. unfold file_of in Hfn. cbn [p_syntax rc_p] in Hf.
    enum Hf; subst f; vm_compute in Hfn; injection Hfn as <-; enum Hi; subst i; reflexivity.
Qed.
Definition rc_run : list message * Index.outcome :=
  Index.index p_digest p_env rc_fs rc_h (λ o, o_name o) x_mo (λ _ _, None) x_impl "" "/src" "v1.0.0" false x_meta
    (LoadOk rc_all rc_all) ["ex.org/p"] ["ex.org/p"] ["ex.org/p"].
Definition rc_msgs : list message := rc_run.1.
Lemma rc_success : rc_run = (rc_msgs, Returned None).
Proof. vm_compute. reflexivity. Qed.
Lemma rc_indexed : indexed_with p_digest RC_ rc_msgs.
Proof.
  eexists (λ o, o_name o), x_mo, "/src", "v1.0.0", x_impl, "", ["ex.org/p"], ["ex.org/p"], ["ex.org/p"], false, x_meta, (λ _ _, None).
  split; [apply rc_indexable|]. split; [apply x_mo_ok|].
  split; [unfold key_order; vm_compute; repeat constructor|]. split; [unfold key_order; vm_compute; repeat constructor|].
  split; [unfold key_order; vm_compute; repeat constructor|]. split; [|exact rc_success].
  intros g g' k' exts _. unfold x_impl. intros [= <- <- <-]. split; [apply same_tables_refl|apply fresh_ok].
Qed.

Lemma rc_wf : wf_pkg_pos rc_p.
Proof. apply wf_pkgb_ok. vm_compute. reflexivity. Qed.
Lemma rc_common : pkg_common_value_types rc_p.
Proof. apply common_valuesb_ok. vm_compute. reflexivity. Qed.


Definition rc_dsc : list descriptor := [Desc "inline-1-31" Scip.Meta].
Lemma rc_reach : reaches rc_fs rc_spec rc_dsc rc_fields.
Proof.
  eapply (rc_value rc_fs "" "" [mk 2 "a" 31; mk 3 "b" 33] None _ rc_lit); [left|exact (fu_many rc_fs (mk 2 "a" 31) (mk 3 "b" 33) [])|].
  eapply (rc_part rc_fs rc_lit (NStructType 51 36 (NFieldList rc_fields))); [done|left|].
  eapply (rc_part rc_fs _ (NFieldList rc_fields)); [done|left|]. constructor.
Qed.
Lemma rc_reach2 : reaches rc_fs rc_spec2 rc_dsc rc_fields2.
Proof.
  eapply (rc_value rc_fs "" "" [mk 22 "c" 232; mk 23 "d" 234] None _ rc_lit2); [left|exact (fu_many rc_fs (mk 22 "c" 232) (mk 23 "d" 234) [])|].
  eapply (rc_part rc_fs rc_lit2 (NStructType 54 237 (NFieldList rc_fields2))); [done|left|].
  eapply (rc_part rc_fs _ (NFieldList rc_fields2)); [done|left|]. constructor.
Qed.
Lemma rc_value1 lits i : member rc_fields lits i → value_member rc_fs rc_file1 rc_dsc lits i.
Proof.
  intros H. eexists _, _, _, _, _, _, _, _, _, _, _, _, _, _, rc_fields. split; [reflexivity|]. split; [right; left|].
  split; [by left|]. split; [left|]. split; [apply rc_reach|exact H].
Qed.
Lemma rc_value2 lits i : member rc_fields2 lits i → value_member rc_fs rc_file2 rc_dsc lits i.
Proof.
  intros H. eexists _, _, _, _, _, _, _, _, _, _, _, _, _, _, rc_fields2. split; [reflexivity|]. split; [left|].
  split; [by left|]. split; [left|]. split; [apply rc_reach2|exact H].
Qed.
Definition rc_sA : string := "scip-go gomod ex.org v1.0.0 `ex.org/p`/inline-1-31:A.".
Definition rc_sX : string := "scip-go gomod ex.org v1.0.0 `ex.org/p`/inline-1-31:`$anon_struct{X int}`#X.".
Definition rc_sT : string := "scip-go gomod ex.org v1.0.0 `ex.org/p`/inline-1-31:T.".

Ltac rc_use sel o := split; [left|right; left| |by left];
  exists rc_ti, (Some sel), o, rc_tpkg; split; [done|]; split; [rewrite elem_of_list_In; vm_compute; tauto|];
  split; [split; [done|split; [let Hu := fresh in intros ? ? Hu; vm_compute in Hu; by injection Hu as <-|
      try done; let Hu := fresh in intros ? ? Hu; vm_compute in Hu; by injection Hu as <-]]|];
  split; [let Hc := fresh in intros c Hc; by apply elem_of_nil in Hc|];
  do 6 (split; [done|]); let Hc := fresh in intros c Hc; by apply elem_of_nil in Hc.
Lemma rc_use_X : use_of RC_ rc_p (id_pos rc_X) rc_p rc_file2 (mk 15 "X" 302).
Proof. rc_use rc_selX rc_oX. Qed.
Lemma rc_use_T : use_of RC_ rc_p (id_pos rc_T) rc_p rc_file2 (mk 18 "T" 320).
Proof. rc_use rc_selT rc_of. Qed.
Lemma rc_use_B : use_of RC_ rc_p (id_pos rc_B) rc_p rc_file2 (mk 21 "B" 343).
Proof. rc_use rc_selB rc_oB. Qed.

(** X, a field of a field, and the embedded T, both in the value of one of two variables *)
Lemma rc_nav f lits texts i par def s : f ∈ [rc_file1; rc_file2] → value_member rc_fs f rc_dsc lits i →
  Forall2 (λ r t, ti_canon rc_ti r = Some t) lits texts → (0 < id_pos i)%Z → (par, NIdent i) ∈ file_nodes f → visible RC_ rc_ti par i →
  ti_defs rc_ti (id_ptr i) = Some def → anon_symbol p_digest (p_path rc_p) a_mod rc_dsc texts (id_name i) = s →
  describes RC_ rc_msgs rc_p f s ∧ defines RC_ rc_msgs rc_p f i s ∧ ∀ p2 f2 i2, use_of RC_ rc_p (id_pos i) p2 f2 i2 → refers RC_ rc_msgs p2 f2 i2 s.
Proof.
  intros Hf Hm Ht Hp Hn Hv Hd <-.
  destruct (C63_value_members_partial p_digest RC_ rc_msgs rc_p f rc_ti rc_dsc lits texts i par def) as (m & E & H); [..|injection E as <-; exact H].
  - apply rc_indexed.
  - left.
  - exact Hf.
  - done.
  - apply rc_wf.
  - apply rc_common.
  - exact Hm.
  - exact Ht.
  - exact Hp.
  - exact Hn.
  - exact Hv.
  - intros c Hc. by apply elem_of_nil in Hc.
  - exact Hd.
  - done.
Qed.
Lemma rc_visible par i o : id_name i ≠ "_" → (∀ path, o_kind o ≠ OPkgName path) → (ti_uses rc_ti (id_ptr i) = None ∨ ti_uses rc_ti (id_ptr i) = Some o) →
  (∃ d c n t, par = NField d c n t) → visible RC_ rc_ti (Some par) i.
Proof.
  intros Hn Ho Hu (d & c & n & t & ->). split; [done|]. split; [|done]. intros u pp E. destruct Hu as [Hu|Hu]; rewrite Hu in E; [done|]. injection E as <-. apply Ho.
Qed.
Lemma rc_member_X : member rc_fields [52] rc_X.
Proof.
  eapply (mem_in _ "" "" [mk 4 "A" 45] rc_inner rc_inner 52); [left|done|eapply lt_here; constructor|constructor|]. by eapply mem_named; left.
Qed.
Lemma rc_member_T : member rc_fields [] rc_T.
Proof. eapply (mem_embedded _ "" "" (NIdent rc_T)); [right; left|constructor|done]. Qed.
Example C63_value_example :
  (describes RC_ rc_msgs rc_p rc_file1 rc_sX ∧ defines RC_ rc_msgs rc_p rc_file1 rc_X rc_sX ∧ refers RC_ rc_msgs rc_p rc_file2 (mk 15 "X" 302) rc_sX) ∧
  (describes RC_ rc_msgs rc_p rc_file1 rc_sT ∧ defines RC_ rc_msgs rc_p rc_file1 rc_T rc_sT ∧ refers RC_ rc_msgs rc_p rc_file2 (mk 18 "T" 320) rc_sT).
Proof.
  split.
  - destruct (rc_nav rc_file1 [52] ["struct{X int}"] rc_X (Some rc_fld) rc_oX rc_sX) as (H1 & H2 & H3).
    + left.
    + apply rc_value1, rc_member_X.
    + constructor; [done|constructor].
    + done.
    + rewrite elem_of_list_In. vm_compute. tauto.
    + eapply (rc_visible _ _ rc_oX); [done|done|by left|by do 4 eexists].
    + done.
    + vm_compute. reflexivity.
    + split; [exact H1|]. split; [exact H2|]. exact (H3 _ _ _ rc_use_X).
  - destruct (rc_nav rc_file1 [] [] rc_T (Some (NField "" "" [] (NIdent rc_T))) rc_of rc_sT) as (H1 & H2 & H3).
    + left.
    + apply rc_value1, rc_member_T.
    + constructor.
    + done.
    + rewrite elem_of_list_In. vm_compute. tauto.
    + eapply (rc_visible _ _ rc_oT); [done|done|by right|by do 4 eexists].
    + done.
    + vm_compute. reflexivity.
    + split; [exact H1|]. split; [exact H2|]. exact (H3 _ _ _ rc_use_T).
Qed.

(** C63 fails for the members of a literal behind a slice, array, map, pointer or channel in the declared type of a
    variable: the member is only a local symbol of its own file, and a use in another file is no reference at all. *)
Lemma rc_defines_only P msgs p f i s n d : (∀ m, files_in_order (pr_pkgs P) !! m = Some (p, f) → m = n) → documents msgs !! n = Some d →
  forallb (λ o, implb (Nat.eqb (oc_roles o) 1 && bool_decide (oc_range o = ident_span (pr_fs P) i)) (String.eqb (oc_symbol o) s)) (d_occs d) = true →
  ∀ s', defines P msgs p f i s' → s' = s.
Proof.
  intros Hn Hd H s' (d' & o & (m & Hm & Hd') & Ho & Hr & <- & Hs). rewrite (Hn m Hm) in Hd'.
  change (documents msgs !! n = Some d') in Hd'. rewrite Hd in Hd'. injection Hd' as <-.
  rewrite forallb_forall in H. specialize (H _ (proj1 (elem_of_list_In _ _) Ho)).
  rewrite Hr, bool_decide_true in H by done. by apply String.eqb_eq in H.
Qed.
(** the declared type of a variable contains the literal l behind a slice, array, map, pointer or channel *)
Inductive behind : node → node → Prop :=
| bh_elem p len e l r fl : literal l r fl → e = l → behind (NArrayType p len e) l
| bh_value p k v l r fl : literal l r fl → v = l → behind (NMapType p k v) l
| bh_star p x l r fl : literal l r fl → x = l → behind (NStarExpr p x) l
| bh_chan p v l r fl : literal l r fl → v = l → behind (NChanType p v) l.
Theorem C63_slice_refuted : ∃ digest P msgs p f ti i def p2 f2 i2 a h d nm decls q doc specs sd sc names t l r fields,
  indexed_with digest P msgs ∧ p ∈ pr_pkgs P ∧ f ∈ p_syntax p ∧ p_info p = Some ti ∧ wf_pkg_pos p ∧ pkg_common_value_types p ∧
  f = NFile a h d nm decls ∧ NGenDecl q VAR doc specs ∈ decls ∧ NValueSpec sd sc names (Some t) [] ∈ specs ∧ behind t l ∧
  literal l r fields ∧ member fields [] i ∧ ti_defs ti (id_ptr i) = Some def ∧ use_of P p (id_pos i) p2 f2 i2 ∧
  (∀ s, defines P msgs p f i s → s = "local 0") ∧ ∀ s, ¬ refers P msgs p2 f2 i2 s.
Proof.
  exists p_digest, RC_, rc_msgs, rc_p, rc_file1, rc_ti, rc_B, rc_oB, rc_p, rc_file2, (mk 21 "B" 343).
  eexists _, _, _, _, _, _, _, _, _, _, _, rc_slice, (NStructType 53 122 (NFieldList rc_bfields)), 53, rc_bfields.
  split; [apply rc_indexed|]. split; [left|]. split; [left|]. split; [done|]. split; [apply rc_wf|]. split; [apply rc_common|].
  split; [reflexivity|]. split; [right; right; left|]. split; [left|]. split; [by eapply bh_elem; constructor|]. split; [constructor|].
  split; [by eapply mem_named; left|]. split; [done|]. split; [apply rc_use_B|].
  assert (Hk : ∀ k, files_in_order (pr_pkgs RC_) !! k = Some (rc_p, rc_file1) → k = 0).
  { intros k Hk. destruct k as [|[|k]]; [done|discriminate|by destruct k]. }
  split.
  - destruct (documents rc_msgs !! 0) as [d|] eqn:Ed; [|vm_compute in Ed; discriminate].
    eapply (rc_defines_only RC_ rc_msgs rc_p rc_file1 rc_B "local 0" 0 d Hk Ed).
    assert (H : match documents rc_msgs !! 0 with
      | Some d => forallb (λ o, implb (Nat.eqb (oc_roles o) 1 && bool_decide (oc_range o = ident_span (pr_fs RC_) rc_B)) (String.eqb (oc_symbol o) "local 0")) (d_occs d)
      | None => false end = true) by (vm_compute; reflexivity). rewrite Ed in H. exact H.
  - apply (mb_no_range RC_ rc_msgs rc_p rc_file2 (mk 21 "B" 343) 1); [left| |vm_compute; reflexivity].
    intros k Hk'. destruct k as [|[|k]]; [discriminate|done|by destruct k].
Qed.
Print Assumptions C63_slice_refuted.

(** C63 fails for specs with several variables in different files at the same line and column: the members of their
    types share symbols, so a reference in one file leads to both. *)
Theorem C63_inline_refuted : ∃ digest P msgs p f f2 ti ds i i2 def def2 m,
  indexed_with digest P msgs ∧ p ∈ pr_pkgs P ∧ f ∈ p_syntax p ∧ f2 ∈ p_syntax p ∧ p_info p = Some ti ∧ wf_pkg_pos p ∧ pkg_common_value_types p ∧
  value_member (pr_fs P) f ds [] i ∧ value_member (pr_fs P) f2 ds [] i2 ∧ ti_defs ti (id_ptr i) = Some def ∧ ti_defs ti (id_ptr i2) = Some def2 ∧
  f ≠ f2 ∧ o_pos def ≠ o_pos def2 ∧ p_module p = Some m ∧
  ∃ s, defines P msgs p f i s ∧ defines P msgs p f2 i2 s.
Proof.
  exists p_digest, RC_, rc_msgs, rc_p, rc_file1, rc_file2, rc_ti, rc_dsc, (mk 4 "A" 45), rc_A2, rc_oA, rc_oA2, a_mod.
  split; [apply rc_indexed|]. split; [left|]. split; [left|]. split; [right; left|]. split; [done|]. split; [apply rc_wf|]. split; [apply rc_common|].
  assert (V1 : value_member rc_fs rc_file1 rc_dsc [] (mk 4 "A" 45)) by (apply rc_value1; by eapply mem_named; left).
  assert (V2 : value_member rc_fs rc_file2 rc_dsc [] rc_A2) by (apply rc_value2; by eapply mem_named; left).
  split; [exact V1|]. split; [exact V2|]. split; [done|]. split; [done|]. split; [done|]. split; [done|]. split; [done|].
  exists rc_sA. split.
  - destruct (rc_nav rc_file1 [] [] (mk 4 "A" 45) (Some (NField "" "" [mk 4 "A" 45] rc_inner)) rc_oA rc_sA) as (_ & H & _); [..|exact H].
    + left.
    + exact V1.
    + constructor.
    + done.
    + rewrite elem_of_list_In. vm_compute. tauto.
    + eapply (rc_visible _ _ rc_oA); [done|done|by left|by do 4 eexists].
    + done.
    + vm_compute. reflexivity.
  - destruct (rc_nav rc_file2 [] [] rc_A2 (Some (NField "" "" [rc_A2] (NIdent (mk 25 "int" 248)))) rc_oA2 rc_sA) as (_ & H & _); [..|exact H].
    + right; left.
    + exact V2.
    + constructor.
    + done.
    + rewrite elem_of_list_In. vm_compute. tauto.
    + eapply (rc_visible _ _ rc_oA2); [done|done|by left|by do 4 eexists].
    + done.
    + vm_compute. reflexivity.
Qed.
Print Assumptions C63_inline_refuted.
