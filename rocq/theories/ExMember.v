(** Members of the anonymous struct type of a variable, for C63.
    p.go:  package p
           type T struct{}
           var v struct { A struct { X int }; *T }
    q.go:  package p
           var y = v.A.X
           var z = v.T *)
From Coq Require Import Ascii String.
From stdpp Require Import prelude strings gmap sorting.
From Verif Require Import GoStr Scip GoTypes Packages Symbols Document Lookup Pass1 Pass2 Paths
  Loader Index Ast SpecSymbol SpecDecl SpecLookup SpecOcc SpecIndex
  P_Symbols P_Pass1 P_Link P_Lookup P_Pass2 P_Occ P_Scope P_Index PropDecl PropOcc PropIndex PropDet PropAnon PropCross ExDecl ExOcc ExIndex ExCross PropNav PropLocal ExLocal PropMember.
Open Scope string_scope.
Open Scope list_scope.

Definition mb_name (p : Z) : option string :=
  if Z.leb p 200 then Some "/src/p.go" else if Z.leb p 300 then Some "/src/q.go" else None.
Definition mb_fs : fset :=
  FSet (λ p, Position (match mb_name p with Some n => n | None => "" end) 1 (p mod 201)) mb_name.
Definition mb_X : Ast.ident := mk 4 "X" 56.
Definition mb_T : Ast.ident := mk 6 "T" 65.
Definition mb_fld : node := NField "" "" [mb_X] (NIdent (mk 5 "int" 58)).
Definition mb_inner : node := NStructType 52 47 (NFieldList [mb_fld]).
Definition mb_emb : node := NField "" "" [] (NStarExpr 64 (NIdent mb_T)).
Definition mb_fields : list node := [NField "" "" [mk 3 "A" 45] mb_inner; mb_emb].
Definition mb_dT : node := NGenDecl 12 TYPE "" [NTypeSpec "" (mk 1 "T" 17) empty_fields (NStructType 50 19 (NFieldList []))].
Definition mb_dv : node := NGenDecl 30 VAR "" [NValueSpec "" "" [mk 2 "v" 34] (Some (NStructType 51 36 (NFieldList mb_fields))) []].
Definition mb_file1 : node := NFile 1 false "" (mk 0 "p" 9) [mb_dT; mb_dv].
Definition mb_selX : node := NSelectorExpr (NSelectorExpr (NIdent (mk 9 "v" 228)) (mk 10 "A" 230)) (mk 11 "X" 232).
Definition mb_selT : node := NSelectorExpr (NIdent (mk 13 "v" 248)) (mk 14 "T" 250).
Definition mb_dy : node := NGenDecl 220 VAR "" [NValueSpec "" "" [mk 8 "y" 224] None [mb_selX]].
Definition mb_dz : node := NGenDecl 240 VAR "" [NValueSpec "" "" [mk 12 "z" 244] None [mb_selT]].
Definition mb_file2 : node := NFile 201 false "" (mk 7 "p" 210) [mb_dy; mb_dz].
Definition mb_nT : tname := TName 1 (Some "ex.org/p") "T".
Definition mb_tT : ty := TNamed mb_nT [].
Definition mb_tpkg : tpkg := TPkg "ex.org/p" [SEntry "T" true mb_tT].
Definition mb_oT : obj := Obj 1 "T" (Some mb_tpkg) 17 OTypeName mb_tT None.
Definition mb_ov : obj := Obj 2 "v" (Some mb_tpkg) 34 (OVar false) (TStruct []) None.
Definition mb_oA : obj := Obj 3 "A" (Some mb_tpkg) 45 (OVar true) (TStruct []) None.
Definition mb_oX : obj := Obj 4 "X" (Some mb_tpkg) 56 (OVar true) (TBasic BInt false) None.
Definition mb_of : obj := Obj 5 "T" (Some mb_tpkg) 65 (OVar true) (TPointer mb_tT) None.
Definition mb_oint : obj := Obj 6 "int" None 0 OTypeName (TBasic BInt false) None.
Definition mb_oy : obj := Obj 7 "y" (Some mb_tpkg) 224 (OVar false) (TBasic BInt false) None.
Definition mb_oz : obj := Obj 8 "z" (Some mb_tpkg) 244 (OVar false) (TPointer mb_tT) None.
Definition mb_objs (i : nat) : option obj := List.find (λ o, Nat.eqb (o_id o) i) [mb_oT; mb_ov; mb_oA; mb_oX; mb_of; mb_oint; mb_oy; mb_oz].
Definition mb_defs : nat → option obj := tab [(1, mb_oT); (2, mb_ov); (3, mb_oA); (4, mb_oX); (6, mb_of); (8, mb_oy); (12, mb_oz)].
Definition mb_uses : nat → option obj := tab [(5, mb_oint); (6, mb_oT); (9, mb_ov); (10, mb_oA); (11, mb_oX); (13, mb_ov); (14, mb_of)].
Definition mb_ti : tinfo := TInfo mb_defs mb_uses (λ _, None) [] (λ r, if Nat.eqb r 52 then Some "struct{X int}" else None) (λ _, "sig").
Definition mb_p : gpkg := GPkg 1 "ex.org/p" "p" (Some a_mod) [] [mb_file1; mb_file2] (Some mb_tpkg) (Some mb_ti).
Definition mb_h : pheap := {[ 1 := mb_p ]}.
Definition mb_all : ptab := {[ "ex.org/p" := 1 ]}.
Definition M_ : project := Project p_env mb_objs mb_fs mb_h mb_all mb_all [mb_p].

Lemma mb_typed f : f ∈ [mb_file1; mb_file2] → typed_file mb_fs mb_ti (imports_of mb_h mb_p) mb_objs f ∧ defs_at_idents mb_ti f.
Proof.
  intros Hf. split.
  - split.
    2:{ intros ptr o Hu Hk. apply tab_in in Hu. cbn in Hu. repeat (destruct Hu as [Hu|Hu]; [injection Hu as <- <-; split; [reflexivity|reflexivity|reflexivity|first [by split|by constructor; [left|]]|done]|]). done. }
    2:{ intros o path Ho. enum Ho; subst o; done. }
    split.
    + enum Hf; subst f; by eexists _, _, _, _, _.
    + intros decl m c Hd Hm Hc.
      assert (H : forallb (λ f, forallb (λ decl, forallb (λ m, forallb (λ c, match c with NFuncDecl _ _ _ _ _ _ _ | NFile _ _ _ _ _ => false | _ => true end)
        (node_children m)) (subnodes decl)) (file_decls f)) [mb_file1; mb_file2] = true) by reflexivity.
      rewrite forallb_forall in H. specialize (H _ (proj1 (elem_of_list_In _ _) Hf)).
      rewrite forallb_forall in H. specialize (H _ (proj1 (elem_of_list_In _ _) Hd)).
      rewrite forallb_forall in H. specialize (H _ (proj1 (elem_of_list_In _ _) Hm)).
      rewrite forallb_forall in H. specialize (H _ (proj1 (elem_of_list_In _ _) Hc)). by destruct c.
    + intros decl Hd. enum Hf; subst f; enum Hd; by subst.
    + enum Hf; subst f; vm_compute; repeat (apply NoDup_cons; split; [intros H; enum H|]); constructor.
    + intros par i o path Hi Hu Hk. exfalso. apply tab_in in Hu. cbn in Hu.
      repeat (destruct Hu as [Hu|Hu]; [injection Hu as E' <-; discriminate|]). done.
    + intros ptr o path [H|H] Hk; apply tab_in in H; cbn in H;
        repeat (destruct H as [H|H]; [injection H as _ <-; try discriminate; done|]); done.
    + intros i Hi. rewrite <- elem_of_node_idents in Hi. enum Hf; subst f; enum Hi; subst i; fits.
    + intros d p e r nm t b H. enum Hf; subst f; enum H.
    + intros ptr nm p l path imp Hin Himp. enum Hf; subst f; enum Hin.
  - split.
    + intros i d Hi Hd. rewrite <- elem_of_node_idents in Hi. enum Hf; subst f; enum Hi; subst i; vm_compute in Hd; try discriminate; injection Hd as <-; reflexivity.
    + enum Hf; subst f; vm_compute; repeat (apply NoDup_cons; split; [intros H; enum H|]); constructor.
Qed.
Lemma mb_indexable : indexable mb_objs mb_fs mb_h mb_all mb_all [mb_p].
Proof.
  split.
  - split; [|split].
    + intros k q H%x_in. enum H; injection H as <- <-; eexists _, _; by split_and!.
    + intros k q H%x_in. enum H; injection H as <- <-; eexists _, _; by split_and!.
    + intros k q p H%x_in Hh. enum H; injection H as <- <-; vm_compute in Hh; injection Hh as <-;
        eexists _, _; split; reflexivity || split; reflexivity.
  - split.
    + split; [|split].
      * intros k. cbn [map p_path mb_p]. split.
        -- intros ->%elem_of_list_singleton. by eexists.
        -- intros [q H%x_in]. enum H; injection H as <- <-; left.
      * apply NoDup_singleton.
      * cbn. repeat constructor.
    + intros p Hp. enum Hp; subst p; eexists; by split.
  - split.
    + intros p f Hp Hf. apply elem_of_list_singleton in Hp as ->. destruct (mb_typed f Hf) as [H1 H2].
      exists mb_ti. cbn [p_syntax mb_p] in Hf. enum Hf; subst f; eexists; repeat (split; [done|]); reflexivity.
    + intros i j p f q f' name Hi Hj Hf Hf'.
      assert (NoDup (map (λ e : gpkg * node, mb_name (file_package_pos e.2)) (files_in_order [mb_p]))) as Hnd.
      { vm_compute. repeat (apply NoDup_cons; split; [intros H; enum H|]). constructor. }
      eapply (NoDup_lookup _ i j (Some name) Hnd); rewrite list_lookup_fmap.
      * rewrite Hi. cbn. by f_equal.
      * rewrite Hj. cbn. by f_equal.
  - intros p f name i Hp Hf Hfn Hi. rewrite <- elem_of_node_idents in Hi.
    apply elem_of_list_singleton in Hp as ->. unfold file_of in Hfn. cbn [p_syntax mb_p] in Hf.
    enum Hf; subst f; vm_compute in Hfn; injection Hfn as <-; enum Hi; subst i; reflexivity.
Qed.
Definition mb_run : list message * Index.outcome :=
  Index.index p_digest p_env mb_fs mb_h (λ o, o_name o) x_mo (λ _ _, None) x_impl "" "/src" "v1.0.0" false x_meta
    (LoadOk mb_all mb_all) ["ex.org/p"] ["ex.org/p"] ["ex.org/p"].
Definition mb_msgs : list message := mb_run.1.
Lemma mb_success : mb_run = (mb_msgs, Returned None).
Proof. vm_compute. reflexivity. Qed.
Lemma mb_indexed : indexed_with p_digest M_ mb_msgs.
Proof.
  eexists (λ o, o_name o), x_mo, "/src", "v1.0.0", x_impl, "", ["ex.org/p"], ["ex.org/p"], ["ex.org/p"], false, x_meta, (λ _ _, None).
  split; [apply mb_indexable|]. split; [apply x_mo_ok|].
  split; [unfold key_order; vm_compute; repeat constructor|]. split; [unfold key_order; vm_compute; repeat constructor|].
  split; [unfold key_order; vm_compute; repeat constructor|]. split; [|exact mb_success].
  intros g g' k' exts _. unfold x_impl. intros [= <- <- <-]. split; [apply same_tables_refl|apply fresh_ok].
Qed.

Lemma mb_wf : wf_pkg_pos mb_p.
Proof. apply wf_pkgb_ok. vm_compute. reflexivity. Qed.
Lemma mb_common : pkg_common_value_types mb_p.
Proof. apply common_valuesb_ok. vm_compute. reflexivity. Qed.
Lemma mb_owner : owner mb_fs mb_dv [Desc "v" Scip.Meta] mb_fields.
Proof. apply (own_value mb_fs 30 VAR "" _ "" "" (mk 2 "v" 34) (NStructType 51 36 (NFieldList mb_fields)) 51 mb_fields []); [by left|by left|constructor]. Qed.
Definition mb_sX : string := "scip-go gomod ex.org v1.0.0 `ex.org/p`/v:`$anon_struct{X int}`#X.".
Definition mb_sT : string := "scip-go gomod ex.org v1.0.0 `ex.org/p`/v:T.".

Lemma mb_use_X : use_of M_ mb_p (id_pos mb_X) mb_p mb_file2 (mk 11 "X" 232).
Proof.
  split; [left|right; left| |by left].
  exists mb_ti, (Some mb_selX), mb_oX, mb_tpkg. split; [done|]. split; [rewrite elem_of_list_In; vm_compute; tauto|].
  split. { split; [done|]. split; [|done]. intros o pp Hu. vm_compute in Hu. by injection Hu as <-. }
  split. { intros c Hc. by apply elem_of_nil in Hc. }
  do 6 (split; [done|]). intros c Hc. by apply elem_of_nil in Hc.
Qed.
Example C63_example : describes M_ mb_msgs mb_p mb_file1 mb_sX ∧ defines M_ mb_msgs mb_p mb_file1 mb_X mb_sX ∧
  refers M_ mb_msgs mb_p mb_file2 (mk 11 "X" 232) mb_sX.
Proof.
  destruct (C63_anonymous_members_partial p_digest M_ mb_msgs mb_p mb_file1 mb_ti [Desc "v" Scip.Meta] [52] ["struct{X int}"] mb_X mb_fld mb_oX)
    as (m & Hm & H1 & H2 & H3).
  - apply mb_indexed.
  - left.
  - left.
  - done.
  - apply mb_wf.
  - apply mb_common.
  - eexists _, _, _, _, _, mb_dv, mb_fields. split; [done|]. split; [right; left|]. split; [apply mb_owner|].
    eapply (nest_in _ "" "" [mk 3 "A" 45] mb_inner mb_inner 52); [left|done|eapply lt_here; constructor|constructor|].
    apply nest_here; left.
  - constructor; [done|constructor].
  - done.
  - done.
  - intros c Hc. by apply elem_of_nil in Hc.
  - done.
  - done.
  - done.
  - injection Hm as <-.
    assert (E : anon_symbol p_digest (p_path mb_p) a_mod [Desc "v" Scip.Meta] ["struct{X int}"] (id_name mb_X) = mb_sX) by (vm_compute; reflexivity).
    cbv zeta in *. rewrite E in H1, H2, H3. split; [exact H1|]. split; [exact H2|]. exact (H3 _ _ _ mb_use_X).
Qed.

(** C63 fails for embedded pointers (and likewise embedded pkg.T) in the struct type of a variable: the field is
    registered at the position of the star, not of its name.  Its symbol v:T. is described but occurs nowhere, and
    its use in another file is no reference at all. *)
Lemma mb_no_occurrence (ds : list document) s : forallb (λ d, forallb (λ o, negb (String.eqb (oc_symbol o) s)) (d_occs d)) ds = true →
  ∀ d o, d ∈ ds → o ∈ d_occs d → oc_symbol o ≠ s.
Proof.
  intros H d o Hd Ho E. rewrite forallb_forall in H. specialize (H _ (proj1 (elem_of_list_In _ _) Hd)).
  rewrite forallb_forall in H. specialize (H _ (proj1 (elem_of_list_In _ _) Ho)). by rewrite E, String.eqb_refl in H.
Qed.
Lemma mb_no_range P msgs p f i n : p ∈ pr_pkgs P →
  (∀ m, files_in_order (pr_pkgs P) !! m = Some (p, f) → m = n) →
  match documents msgs !! n with
  | Some d => forallb (λ o, negb (bool_decide (oc_range o = ident_span (pr_fs P) i))) (d_occs d)
  | None => true end = true → ∀ s, ¬ refers P msgs p f i s.
Proof.
  intros Hp Hn H s (d & o & (m & Hm & Hd) & Ho & _ & _ & Hr). rewrite (Hn m Hm) in Hd. rewrite Hd in H.
  rewrite forallb_forall in H. specialize (H _ (proj1 (elem_of_list_In _ _) Ho)). by rewrite bool_decide_true in H.
Qed.
Theorem C63_embedded_refuted : ∃ digest P msgs p f ti ds fields t i def p2 f2 i2 m,
  indexed_with digest P msgs ∧ p ∈ pr_pkgs P ∧ f ∈ p_syntax p ∧ p_info p = Some ti ∧ wf_pkg_pos p ∧ pkg_common_value_types p ∧
  (** i is the name of an embedded field of the struct type of a variable *)
  (∃ a h d nm decls decl, f = NFile a h d nm decls ∧ decl ∈ decls ∧ owner (pr_fs P) decl ds fields) ∧
  NField "" "" [] t ∈ fields ∧ embedded_ident t i ∧ ti_defs ti (id_ptr i) = Some def ∧
  use_of P p (id_pos i) p2 f2 i2 ∧ p_module p = Some m ∧
  let s := anon_symbol digest (p_path p) m ds [] (id_name i) in
  describes P msgs p f s ∧ (∀ d o, d ∈ documents msgs → o ∈ d_occs d → oc_symbol o ≠ s) ∧ ∀ s', ¬ refers P msgs p2 f2 i2 s'.
Proof.
  exists p_digest, M_, mb_msgs, mb_p, mb_file1, mb_ti, [Desc "v" Scip.Meta], mb_fields, (NStarExpr 64 (NIdent mb_T)), mb_T, mb_of, mb_p, mb_file2, (mk 14 "T" 250), a_mod.
  split; [apply mb_indexed|]. split; [left|]. split; [left|]. split; [done|]. split; [apply mb_wf|]. split; [apply mb_common|].
  split. { eexists _, _, _, _, _, mb_dv. split; [done|]. split; [right; left|]. apply mb_owner. }
  split; [right; left|]. split; [repeat constructor|]. split; [done|].
  split.
  { split; [left|right; left| |by left].
    exists mb_ti, (Some mb_selT), mb_of, mb_tpkg. split; [done|]. split; [rewrite elem_of_list_In; vm_compute; tauto|].
    split. { split; [done|]. split. { intros o pp Hu. vm_compute in Hu. by injection Hu as <-. } intros u imp Hu. vm_compute in Hu. by injection Hu as <-. }
    split. { intros c Hc. by apply elem_of_nil in Hc. }
    do 6 (split; [done|]). intros c Hc. by apply elem_of_nil in Hc. }
  split; [done|]. cbv zeta.
  assert (E : anon_symbol p_digest (p_path mb_p) a_mod [Desc "v" Scip.Meta] [] (id_name mb_T) = mb_sT) by (vm_compute; reflexivity).
  rewrite E. split; [|split].
  - assert (H : match documents mb_msgs !! 0 with Some d => existsb (λ i, String.eqb (i_symbol i) mb_sT) (d_symbols d) | None => false end = true) by (vm_compute; reflexivity).
    destruct (documents mb_msgs !! 0) as [d|] eqn:Ed; [|done]. apply existsb_exists in H as (info & H1 & H2%String.eqb_eq).
    exists d, info. split; [|split; [by apply elem_of_list_In|done]]. exists 0. split; [reflexivity|exact Ed].
  - apply mb_no_occurrence. vm_compute. reflexivity.
  - apply (mb_no_range M_ mb_msgs mb_p mb_file2 (mk 14 "T" 250) 1); [left| |vm_compute; reflexivity].
    intros k Hk. destruct k as [|[|k]]; [discriminate|done|by destruct k].
Qed.
Print Assumptions C63_embedded_refuted.
