(** A project for C75.
    p.go:  package p
           type B struct {}
           type T struct { B; A int }
           func G(n int) { return }
           var _, F = 0, func(int) int { return } *)
From Coq Require Import Ascii String.
From stdpp Require Import prelude strings gmap sorting.
From Verif Require Import GoStr Scip GoTypes Packages Symbols Document Lookup Pass1 Pass2 Paths
  Loader Index Ast SpecSymbol SpecDecl SpecLookup SpecOcc SpecIndex
  P_Symbols P_Pass1 P_Link P_Lookup P_Pass2 P_Occ P_Scope P_Index PropDecl PropOcc PropIndex PropDet PropAnon PropCross ExDecl ExOcc ExIndex ExCross PropNav PropLocal ExLocal PropMember ExMember PropReach PropDefined ExReach.
Open Scope string_scope.
Open Scope list_scope.

Definition df_name (p : Z) : option string := if Z.leb p 200 then Some "/src/p.go" else None.
Definition df_fs : fset :=
  FSet (λ p, Position (match df_name p with Some n => n | None => "" end) 1 (p mod 201)) df_name.
Definition df_B : Ast.ident := mk 1 "B" 16.
Definition df_T : Ast.ident := mk 2 "T" 31.
Definition df_eB : Ast.ident := mk 3 "B" 42.
Definition df_A : Ast.ident := mk 4 "A" 45.
Definition df_G : Ast.ident := mk 6 "G" 60.
Definition df_n : Ast.ident := mk 7 "n" 62.
Definition df_blank : Ast.ident := mk 9 "_" 80.
Definition df_F : Ast.ident := mk 10 "F" 83.
Definition df_param : Ast.ident := mk 11 "int" 97.
Definition df_result : Ast.ident := mk 12 "int" 102.
Definition df_dB : node := NGenDecl 11 TYPE "" [NTypeSpec "" df_B empty_fields (NStructType 51 18 empty_fields)].
Definition df_dT : node := NGenDecl 26 TYPE "" [NTypeSpec "" df_T empty_fields
  (NStructType 52 33 (NFieldList [NField "" "" [] (NIdent df_eB); NField "" "" [df_A] (NIdent (mk 5 "int" 47))]))].
Definition df_dG : node := NFuncDecl "" 55 70 None df_G
  (NFuncType 61 empty_fields (NFieldList [NField "" "" [df_n] (NIdent (mk 8 "int" 64))]) empty_fields) (Some (NBlockStmt 69 [])).
Definition df_lit : node := NFuncLit (NFuncType 92 empty_fields (NFieldList [NField "" "" [] (NIdent df_param)]) (NFieldList [NField "" "" [] (NIdent df_result)])) (NBlockStmt 106 []).
Definition df_dF : node := NGenDecl 76 VAR "" [NValueSpec "" "" [df_blank; df_F] None [NOther 87 []; df_lit]].
Definition df_file : node := NFile 1 false "" (mk 0 "p" 9) [df_dB; df_dT; df_dG; df_dF].
Definition df_int : ty := TBasic BInt false.
Definition df_sig : ty := TSig [] [] false.
Definition df_tpkg : tpkg := TPkg "ex.org/p" [].
Definition df_oB : obj := Obj 1 "B" (Some df_tpkg) 16 OTypeName (TStruct []) None.
Definition df_oT : obj := Obj 2 "T" (Some df_tpkg) 31 OTypeName (TStruct []) None.
Definition df_oeB : obj := Obj 3 "B" (Some df_tpkg) 42 (OVar true) (TStruct []) None.
Definition df_oA : obj := Obj 4 "A" (Some df_tpkg) 45 (OVar true) df_int None.
Definition df_oint : obj := Obj 5 "int" None 0 OTypeName df_int None.
Definition df_oG : obj := Obj 6 "G" (Some df_tpkg) 60 (OFunc (Some None)) df_sig None.
Definition df_on : obj := Obj 7 "n" (Some df_tpkg) 62 (OVar false) df_int None.
Definition df_oblank : obj := Obj 9 "_" (Some df_tpkg) 80 (OVar false) df_int None.
Definition df_oF : obj := Obj 10 "F" (Some df_tpkg) 83 (OVar false) df_sig None.
Definition df_objs (i : nat) : option obj := List.find (λ o, Nat.eqb (o_id o) i) [df_oB; df_oT; df_oeB; df_oA; df_oint; df_oG; df_on; df_oblank; df_oF].
Definition df_defs : nat → option obj := tab [(1, df_oB); (2, df_oT); (3, df_oeB); (4, df_oA); (6, df_oG); (7, df_on); (9, df_oblank); (10, df_oF)].
Definition df_uses : nat → option obj := tab [(3, df_oB); (5, df_oint); (8, df_oint); (11, df_oint); (12, df_oint)].
Definition df_ti : tinfo := TInfo df_defs df_uses (λ _, None) [] (λ _, None) (λ _, "sig").
Definition df_p : gpkg := GPkg 1 "ex.org/p" "p" (Some a_mod) [] [df_file] (Some df_tpkg) (Some df_ti).
Definition df_h : pheap := {[ 1 := df_p ]}.
Definition df_all : ptab := {[ "ex.org/p" := 1 ]}.
Definition DF_ : project := Project p_env df_objs df_fs df_h df_all df_all [df_p].

Lemma df_typed f : f ∈ [df_file] → typed_file df_fs df_ti (imports_of df_h df_p) df_objs f ∧ defs_at_idents df_ti f.
Proof.
  intros Hf. split.
  - split.
    2:{ intros ptr o Hu Hk. apply tab_in in Hu. cbn in Hu. repeat (destruct Hu as [Hu|Hu]; [injection Hu as <- <-; split; [reflexivity|reflexivity|reflexivity|first [by split|by constructor; [left|]]|done]|]). done. }
    2:{ intros o path Ho. enum Ho; subst o; done. }
    split.
    + enum Hf; subst f; by eexists _, _, _, _, _.
    + intros decl m c Hd Hm Hc.
      assert (H : forallb (λ f, forallb (λ decl, forallb (λ m, forallb (λ c, match c with NFuncDecl _ _ _ _ _ _ _ | NFile _ _ _ _ _ => false | _ => true end)
        (node_children m)) (subnodes decl)) (file_decls f)) [df_file] = true) by reflexivity.
      rewrite forallb_forall in H. specialize (H _ (proj1 (elem_of_list_In _ _) Hf)).
      rewrite forallb_forall in H. specialize (H _ (proj1 (elem_of_list_In _ _) Hd)).
      rewrite forallb_forall in H. specialize (H _ (proj1 (elem_of_list_In _ _) Hm)).
      rewrite forallb_forall in H. specialize (H _ (proj1 (elem_of_list_In _ _) Hc)). by destruct c.
    + intros decl Hd. enum Hf; subst f; enum Hd; by subst.
    + enum Hf; subst f; vm_compute; repeat (apply NoDup_cons; split; [intros H; enum H|]); constructor.
    + intros par i o path Hi Hu Hk. exfalso. apply tab_in in Hu. cbn in Hu.
      repeat (destruct Hu as [Hu|Hu]; [injection Hu as E' <-; discriminate|]). done.
    + intros ptr o path [H|H] Hk; apply tab_in in H; cbn in H;
        repeat (destruct H as [H|H]; [injection H as _ <-; try discriminate; done|]); done.
    + intros i Hi. rewrite <- elem_of_node_idents in Hi. enum Hf; subst f; enum Hi; subst i; fits.
    + intros d p e r nm t b H. enum Hf; subst f; enum H; injection H as <- <- <- <- <- <- <-; fits.
    + intros ptr nm p l path imp Hin Himp. enum Hf; subst f; enum Hin.
  - split.
    + intros i d Hi Hd. rewrite <- elem_of_node_idents in Hi. enum Hf; subst f; enum Hi; subst i; vm_compute in Hd; try discriminate; injection Hd as <-; reflexivity.
    + enum Hf; subst f; vm_compute; repeat (apply NoDup_cons; split; [intros H; enum H|]); constructor.
Qed.
Lemma df_indexable : indexable df_objs df_fs df_h df_all df_all [df_p].
Proof.
  split.
  - split; [|split].
    + intros k q H%x_in. enum H; injection H as <- <-; eexists _, _; by split_and!.
    + intros k q H%x_in. enum H; injection H as <- <-; eexists _, _; by split_and!.
    + intros k q p H%x_in Hh. enum H; injection H as <- <-; vm_compute in Hh; injection Hh as <-;
        eexists _, _; split; reflexivity || split; reflexivity.
  - split.
    + split; [|split].
      * intros k. cbn [map p_path df_p]. split.
        -- intros ->%elem_of_list_singleton. by eexists.
        -- intros [q H%x_in]. enum H; injection H as <- <-; left.
      * apply NoDup_singleton.
      * cbn. repeat constructor.
    + intros p Hp. enum Hp; subst p; eexists; by split.
  - split.
    + intros p f Hp Hf. apply elem_of_list_singleton in Hp as ->. destruct (df_typed f Hf) as [H1 H2].
      exists df_ti. cbn [p_syntax df_p] in Hf. enum Hf; subst f; eexists; repeat (split; [done|]); reflexivity.
    + intros i j p f q f' name Hi Hj Hf Hf'.
      assert (NoDup (map (λ e : gpkg * node, df_name (file_package_pos e.2)) (files_in_order [df_p]))) as Hnd.
      { vm_compute. repeat (apply NoDup_cons; split; [intros H; enum H|]). constructor. }
      eapply (NoDup_lookup _ i j (Some name) Hnd); rewrite list_lookup_fmap.
      * rewrite Hi. cbn. by f_equal.
      * rewrite Hj. cbn. by f_equal.
  - intros p f name i Hp Hf Hfn Hi. rewrite <- elem_of_node_idents in Hi.
    apply elem_of_list_singleton in Hp as ->. unfold file_of in Hfn. cbn [p_syntax df_p] in Hf.
    enum Hf; subst f; vm_compute in Hfn; injection Hfn as <-; enum Hi; subst i; reflexivity.
Qed.
Definition df_run : list message * Index.outcome :=
  Index.index p_digest p_env df_fs df_h (λ o, o_name o) x_mo (λ _ _, None) x_impl "" "/src" "v1.0.0" false x_meta
    (LoadOk df_all df_all) ["ex.org/p"] ["ex.org/p"] ["ex.org/p"].
Definition df_msgs : list message := df_run.1.
Lemma df_success : df_run = (df_msgs, Returned None).
Proof. vm_compute. reflexivity. Qed.
Lemma df_indexed : indexed_with p_digest DF_ df_msgs.
Proof.
  eexists (λ o, o_name o), x_mo, "/src", "v1.0.0", x_impl, "", ["ex.org/p"], ["ex.org/p"], ["ex.org/p"], false, x_meta, (λ _ _, None).
  split; [apply df_indexable|]. split; [apply x_mo_ok|].
  split; [unfold key_order; vm_compute; repeat constructor|]. split; [unfold key_order; vm_compute; repeat constructor|].
  split; [unfold key_order; vm_compute; repeat constructor|]. split; [|exact df_success].
  intros g g' k' exts _. unfold x_impl. intros [= <- <- <-]. split; [apply same_tables_refl|apply fresh_ok].
Qed.

Definition defined_in (d : document) (s : string) : bool := existsb (λ o, (Nat.eqb (oc_roles o) 1 && String.eqb (oc_symbol o) s)%bool) (d_occs d).
Lemma defined_in_spec d s : defined_in d s = true ↔ ∃ o, o ∈ d_occs d ∧ is_def o ∧ oc_symbol o = s.
Proof.
  unfold defined_in. rewrite existsb_exists. split.
  - intros (o & Ho & [H1 H2]%andb_true_iff). exists o. split; [by apply elem_of_list_In|]. split; [by apply Nat.eqb_eq|by apply String.eqb_eq].
  - intros (o & Ho & H1 & H2). exists o. split; [by apply elem_of_list_In|]. apply andb_true_iff. split; [by apply Nat.eqb_eq|by apply String.eqb_eq].
Qed.
Lemma df_recorded : names_recorded DF_ df_ti df_file.
Proof.
  split.
  - intros m i Hm Hi Hb.
    assert (H : forallb (λ m, forallb (λ i, (String.eqb (id_name i) "_" || bool_decide (is_Some (ti_defs df_ti (id_ptr i))))%bool) (declared_names m)) (subnodes df_file) = true)
      by (vm_compute; reflexivity).
    rewrite forallb_forall in H. specialize (H m (proj1 (elem_of_list_In _ _) Hm)).
    rewrite forallb_forall in H. specialize (H i (proj1 (elem_of_list_In _ _) Hi)).
    apply orb_true_iff in H as [H|H]; [by apply String.eqb_eq in H|].
    split; [by apply bool_decide_eq_true in H|]. intros c Hc. by apply elem_of_nil in Hc.
  - intros par i Hi _ Hb _. split; [|intros c Hc; by apply elem_of_nil in Hc].
    split; [done|]. split.
    + intros o pp Hu. apply tab_in in Hu. cbn in Hu. repeat (destruct Hu as [Hu|Hu]; [injection Hu as _ <-; discriminate|]). done.
    + assert (H : forallb (λ e : option node * node, match e.1 with Some (NImportSpec _ _ _ _) | Some (NSelectorExpr _ _) => false | _ => true end) (file_nodes df_file) = true)
        by (vm_compute; reflexivity).
      rewrite forallb_forall in H. specialize (H _ (proj1 (elem_of_list_In _ _) Hi)). cbn in H. destruct par as [[]|]; done.
Qed.
(** the descriptions of p.go, each with its name and whether it is defined there *)
Definition df_table : list (string * string * bool) :=
  match documents df_msgs !! 0 with
  | Some d => map (λ x, (i_symbol x, i_display_name x, defined_in d (i_symbol x))) (d_symbols d)
  | None => []
  end.

Example C75_table_ex : df_table = [
  ("scip-go gomod ex.org v1.0.0 `ex.org/p`/B#", "B", true);
  ("scip-go gomod ex.org v1.0.0 `ex.org/p`/_.", "_", false);
  ("scip-go gomod ex.org v1.0.0 `ex.org/p`/G().", "G", true);
  ("scip-go gomod ex.org v1.0.0 `ex.org/p`/T#B.", "B", true);
  ("scip-go gomod ex.org v1.0.0 `ex.org/p`/inline-1-80:int.", "int", false);
  ("scip-go gomod ex.org v1.0.0 `ex.org/p`/", "p", true);
  ("scip-go gomod ex.org v1.0.0 `ex.org/p`/inline-1-80:int.", "int", false);
  ("scip-go gomod ex.org v1.0.0 `ex.org/p`/T#A.", "A", true);
  ("scip-go gomod ex.org v1.0.0 `ex.org/p`/F.", "F", true);
  ("scip-go gomod ex.org v1.0.0 `ex.org/p`/T#", "T", true);
  ("local 0", "n", true)].
Proof. vm_compute. reflexivity. Qed.
(** the hypotheses of C75_described_defined_partial hold of the project *)
Example C75_described_defined_ex : ∀ d info, document_of (pr_pkgs DF_) (documents df_msgs) df_p df_file d → info ∈ d_symbols d →
  (∃ o, o ∈ d_occs d ∧ is_def o ∧ oc_symbol o = i_symbol info) ∨ i_display_name info = "_" ∨
  (∃ f' i pos, f' ∈ p_syntax df_p ∧ unnamed f' i pos ∧ id_name i = i_display_name info ∧ (pos ≠ id_pos i ∨ ti_defs df_ti (id_ptr i) = None)).
Proof.
  intros d info. apply (C75_described_defined_partial DF_ df_msgs df_p df_file df_ti d info).
  - eapply indexed_with_indexed, df_indexed.
  - left.
  - left.
  - done.
  - intros f' Hf'. apply elem_of_list_singleton in Hf' as ->. apply df_recorded.
Qed.

(** The parameters and results of a function literal are described, but defined nowhere in the index. *)
Theorem C75_unnamed_refuted : ∃ digest P msgs p f ti ds i s,
  indexed_with digest P msgs ∧ p ∈ pr_pkgs P ∧ f ∈ p_syntax p ∧ p_info p = Some ti ∧ names_recorded P ti f ∧
  value_member (pr_fs P) f ds [] i ∧ unnamed f i (id_pos i) ∧ id_name i ≠ "_" ∧
  describes P msgs p f s ∧ (∀ d o, d ∈ documents msgs → o ∈ d_occs d → is_def o → oc_symbol o ≠ s).
Proof.
  exists p_digest, DF_, df_msgs, df_p, df_file, df_ti, [Desc "inline-1-80" Scip.Meta], df_result, "scip-go gomod ex.org v1.0.0 `ex.org/p`/inline-1-80:int.".
  split; [apply df_indexed|]. split; [left|]. split; [left|]. split; [done|]. split; [apply df_recorded|].
  split.
  { do 15 eexists. split; [reflexivity|]. split; [right; right; right; left|]. split; [by left|]. split; [left|]. split.
    - eapply (rc_value _ _ _ _ _ _ df_lit "inline-1-80" []); [right; left|vm_compute; apply (fu_many df_fs df_blank df_F [])|].
      eapply rc_part; [done|left|]. eapply rc_part; [done|right; right; left|]. apply rc_here.
    - eapply mem_embedded; [left|constructor|done]. }
  split.
  { exists "", "", (NIdent df_result). split; [rewrite elem_of_list_In; vm_compute; tauto|]. split; [constructor|by left]. }
  split; [done|]. split.
  - destruct (documents df_msgs !! 0) as [d|] eqn:Ed; [|vm_compute in Ed; discriminate].
    assert (H : match documents df_msgs !! 0 with
      | Some d => existsb (λ x, String.eqb (i_symbol x) "scip-go gomod ex.org v1.0.0 `ex.org/p`/inline-1-80:int.") (d_symbols d)
      | None => false end = true) by (vm_compute; reflexivity).
    rewrite Ed in H. apply existsb_exists in H as (x & Hx & Hs). exists d, x. split; [exists 0; split; [reflexivity|exact Ed]|].
    split; [by apply elem_of_list_In|by apply String.eqb_eq].
  - intros d o Hd Ho Hdef Hs.
    assert (H : forallb (λ d, negb (defined_in d "scip-go gomod ex.org v1.0.0 `ex.org/p`/inline-1-80:int.")) (documents df_msgs) = true) by (vm_compute; reflexivity).
    rewrite forallb_forall in H. specialize (H d (proj1 (elem_of_list_In _ _) Hd)).
    rewrite (proj2 (defined_in_spec d _)) in H; [done|]. by exists o.
Qed.
Print Assumptions C75_unnamed_refuted.
