(** Embedded fields of the types of type declarations, for C63.
    p.go:  package p
           type B struct{}
           type T struct { A []struct { *B } }
    q.go:  package p
           var t T
           var z = t.A[0].B *)
From Coq Require Import Ascii String.
From stdpp Require Import prelude strings gmap sorting.
From Verif Require Import GoStr Scip GoTypes Packages Symbols Document Lookup Pass1 Pass2 Paths
  Loader Index Ast SpecSymbol SpecDecl SpecLookup SpecOcc SpecIndex
  P_Symbols P_Pass1 P_Link P_Lookup P_Pass2 P_Occ P_Scope P_Index PropDecl PropOcc PropIndex PropDet PropAnon PropCross ExDecl ExOcc ExIndex ExCross PropNav PropLocal ExLocal PropMember PropTypeMember.
Open Scope string_scope.
Open Scope list_scope.

Definition td_name (p : Z) : option string :=
  if Z.leb p 200 then Some "/src/p.go" else if Z.leb p 300 then Some "/src/q.go" else None.
Definition td_fs : fset :=
  FSet (λ p, Position (match td_name p with Some n => n | None => "" end) 1 (p mod 201)) td_name.
Definition td_B : Ast.ident := mk 4 "B" 65.
Definition td_star : node := NStarExpr 64 (NIdent td_B).
Definition td_inner : node := NStructType 52 50 (NFieldList [NField "" "" [] td_star]).
Definition td_fields : list node := [NField "" "" [mk 3 "A" 45] (NArrayType 47 None td_inner)].
Definition td_struct : node := NStructType 51 36 (NFieldList td_fields).
Definition td_dB : node := NGenDecl 12 TYPE "" [NTypeSpec "" (mk 1 "B" 17) empty_fields (NStructType 50 19 (NFieldList []))].
Definition td_dT : node := NGenDecl 30 TYPE "" [NTypeSpec "" (mk 2 "T" 35) empty_fields td_struct].
Definition td_file1 : node := NFile 1 false "" (mk 0 "p" 9) [td_dB; td_dT].
Definition td_sel : node := NSelectorExpr (NOther 248 [NSelectorExpr (NIdent (mk 9 "t" 248)) (mk 10 "A" 250)]) (mk 11 "B" 255).
Definition td_dt : node := NGenDecl 220 VAR "" [NValueSpec "" "" [mk 6 "t" 224] (Some (NIdent (mk 7 "T" 226))) []].
Definition td_dz : node := NGenDecl 240 VAR "" [NValueSpec "" "" [mk 8 "z" 244] None [td_sel]].
Definition td_file2 : node := NFile 201 false "" (mk 5 "p" 210) [td_dt; td_dz].
Definition td_nB : tname := TName 1 (Some "ex.org/p") "B".
Definition td_tB : ty := TNamed td_nB [].
Definition td_nT : tname := TName 2 (Some "ex.org/p") "T".
Definition td_tT : ty := TNamed td_nT [].
Definition td_tpkg : tpkg := TPkg "ex.org/p" [SEntry "B" true td_tB; SEntry "T" true td_tT].
Definition td_oB : obj := Obj 1 "B" (Some td_tpkg) 17 OTypeName td_tB None.
Definition td_oT : obj := Obj 2 "T" (Some td_tpkg) 35 OTypeName td_tT None.
Definition td_oA : obj := Obj 3 "A" (Some td_tpkg) 45 (OVar true) (TSlice (TStruct [])) None.
Definition td_of : obj := Obj 4 "B" (Some td_tpkg) 65 (OVar true) (TPointer td_tB) None.
Definition td_ot : obj := Obj 5 "t" (Some td_tpkg) 224 (OVar false) td_tT None.
Definition td_oz : obj := Obj 6 "z" (Some td_tpkg) 244 (OVar false) (TPointer td_tB) None.
Definition td_objs (i : nat) : option obj := List.find (λ o, Nat.eqb (o_id o) i) [td_oB; td_oT; td_oA; td_of; td_ot; td_oz].
Definition td_defs : nat → option obj := tab [(1, td_oB); (2, td_oT); (3, td_oA); (4, td_of); (6, td_ot); (8, td_oz)].
Definition td_uses : nat → option obj := tab [(4, td_oB); (7, td_oT); (9, td_ot); (10, td_oA); (11, td_of)].
Definition td_ti : tinfo := TInfo td_defs td_uses (λ _, None) [] (λ r, if Nat.eqb r 52 then Some "struct{*B}" else None) (λ _, "sig").
Definition td_p : gpkg := GPkg 1 "ex.org/p" "p" (Some a_mod) [] [td_file1; td_file2] (Some td_tpkg) (Some td_ti).
Definition td_h : pheap := {[ 1 := td_p ]}.
Definition td_all : ptab := {[ "ex.org/p" := 1 ]}.
Definition TM_ : project := Project p_env td_objs td_fs td_h td_all td_all [td_p].

Lemma td_typed f : f ∈ [td_file1; td_file2] → typed_file td_fs td_ti (imports_of td_h td_p) td_objs f ∧ defs_at_idents td_ti f.
Proof.
  intros Hf. split.
  - split.
    2:{ intros ptr o Hu Hk. apply tab_in in Hu. cbn in Hu. repeat (destruct Hu as [Hu|Hu]; [injection Hu as <- <-; split; [reflexivity|reflexivity|reflexivity|first [by split|by constructor; [left|]]|done]|]). done. }
    2:{ intros o path Ho. enum Ho; subst o; done. }
    split.
    + enum Hf; subst f; by eexists _, _, _, _, _.
    + intros decl m c Hd Hm Hc.
      assert (H : forallb (λ f, forallb (λ decl, forallb (λ m, forallb (λ c, match c with NFuncDecl _ _ _ _ _ _ _ | NFile _ _ _ _ _ => false | _ => true end)
        (node_children m)) (subnodes decl)) (file_decls f)) [td_file1; td_file2] = true) by reflexivity.
      rewrite forallb_forall in H. specialize (H _ (proj1 (elem_of_list_In _ _) Hf)).
      rewrite forallb_forall in H. specialize (H _ (proj1 (elem_of_list_In _ _) Hd)).
      rewrite forallb_forall in H. specialize (H _ (proj1 (elem_of_list_In _ _) Hm)).
      rewrite forallb_forall in H. specialize (H _ (proj1 (elem_of_list_In _ _) Hc)). by destruct c.
    + intros decl Hd. enum Hf; subst f; enum Hd; by subst.
    + enum Hf; subst f; vm_compute; repeat (apply NoDup_cons; split; [intros H; enum H|]); constructor.
    + intros par i o path Hi Hu Hk. exfalso. apply tab_in in Hu. cbn in Hu.
      repeat (destruct Hu as [Hu|Hu]; [injection Hu as E' <-; discriminate|]). done.
    + intros ptr o path [H|H] Hk; apply tab_in in H; cbn in H;
        repeat (destruct H as [H|H]; [injection H as _ <-; try discriminate; done|]); done.
    + intros i Hi. rewrite <- elem_of_node_idents in Hi. enum Hf; subst f; enum Hi; subst i; fits.
    + intros d p e r nm t b H. enum Hf; subst f; enum H.
    + intros ptr nm p l path imp Hin Himp. enum Hf; subst f; enum Hin.
  - split.
    + intros i d Hi Hd. rewrite <- elem_of_node_idents in Hi. enum Hf; subst f; enum Hi; subst i; vm_compute in Hd; try discriminate; injection Hd as <-; reflexivity.
    + enum Hf; subst f; vm_compute; repeat (apply NoDup_cons; split; [intros H; enum H|]); constructor.
Qed.
Lemma td_indexable : indexable td_objs td_fs td_h td_all td_all [td_p].
Proof.
  split.
  - split; [|split].
    + intros k q H%x_in. enum H; injection H as <- <-; eexists _, _; by split_and!.
    + intros k q H%x_in. enum H; injection H as <- <-; eexists _, _; by split_and!.
    + intros k q p H%x_in Hh. enum H; injection H as <- <-; vm_compute in Hh; injection Hh as <-;
        eexists _, _; split; reflexivity || split; reflexivity.
  - split.
    + split; [|split].
      * intros k. cbn [map p_path td_p]. split.
        -- intros ->%elem_of_list_singleton. by eexists.
        -- intros [q H%x_in]. enum H; injection H as <- <-; left.
      * apply NoDup_singleton.
      * cbn. repeat constructor.
    + intros p Hp. enum Hp; subst p; eexists; by split.
  - split.
    + intros p f Hp Hf. apply elem_of_list_singleton in Hp as ->. destruct (td_typed f Hf) as [H1 H2].
      exists td_ti. cbn [p_syntax td_p] in Hf. enum Hf; subst f; eexists; repeat (split; [done|]); reflexivity.
    + intros i j p f q f' name Hi Hj Hf Hf'.
      assert (NoDup (map (λ e : gpkg * node, td_name (file_package_pos e.2)) (files_in_order [td_p]))) as Hnd.
      { vm_compute. repeat (apply NoDup_cons; split; [intros H; enum H|]). constructor. }
      eapply (NoDup_lookup _ i j (Some name) Hnd); rewrite list_lookup_fmap.
      * rewrite Hi. cbn. by f_equal.
      * rewrite Hj. cbn. by f_equal.
  - intros p f name i Hp Hf Hfn Hi. rewrite <- elem_of_node_idents in Hi.
    apply elem_of_list_singleton in Hp as ->. unfold file_of in Hfn. cbn [p_syntax td_p] in Hf.
    enum Hf; subst f; vm_compute in Hfn; injection Hfn as <-; enum Hi; subst i; reflexivity.
Qed.
Definition td_run : list message * Index.outcome :=
  Index.index p_digest p_env td_fs td_h (λ o, o_name o) x_mo (λ _ _, None) x_impl "" "/src" "v1.0.0" false x_meta
    (LoadOk td_all td_all) ["ex.org/p"] ["ex.org/p"] ["ex.org/p"].
Definition td_msgs : list message := td_run.1.
Lemma td_success : td_run = (td_msgs, Returned None).
Proof. vm_compute. reflexivity. Qed.
Lemma td_indexed : indexed_with p_digest TM_ td_msgs.
Proof.
  eexists (λ o, o_name o), x_mo, "/src", "v1.0.0", x_impl, "", ["ex.org/p"], ["ex.org/p"], ["ex.org/p"], false, x_meta, (λ _ _, None).
  split; [apply td_indexable|]. split; [apply x_mo_ok|].
  split; [unfold key_order; vm_compute; repeat constructor|]. split; [unfold key_order; vm_compute; repeat constructor|].
  split; [unfold key_order; vm_compute; repeat constructor|]. split; [|exact td_success].
  intros g g' k' exts _. unfold x_impl. intros [= <- <- <-]. split; [apply same_tables_refl|apply fresh_ok].
Qed.

Lemma td_wf : wf_pkg_pos td_p.
Proof. apply wf_pkgb_ok. vm_compute. reflexivity. Qed.
Definition td_sB : string := "scip-go gomod ex.org v1.0.0 `ex.org/p`/T#`$anon_struct{*B}`#B.".
Lemma td_declares : type_declares td_file1 (mk 2 "T" 35) [52] td_B.
Proof.
  eexists _, _, _, _, _, _, _, _, _, _, td_struct, 51, td_fields. split; [reflexivity|]. split; [right; left|]. split; [left|].
  split; [constructor|]. eapply (tm_in _ _ "" "" [mk 3 "A" 45] _ td_inner 52); [left|done|apply lt_elem; eapply lt_here; constructor|constructor|].
  eapply tm_embedded; [left|repeat constructor].
Qed.
Lemma td_use_B : use_of TM_ td_p (id_pos td_B) td_p td_file2 (mk 11 "B" 255).
Proof.
  split; [left|right; left| |by left].
  exists td_ti, (Some td_sel), td_of, td_tpkg. split; [done|]. split; [rewrite elem_of_list_In; vm_compute; tauto|].
  split. { split; [done|]. split; [|done]. intros o pp Hu. vm_compute in Hu. by injection Hu as <-. }
  split. { intros c Hc. by apply elem_of_nil in Hc. }
  do 6 (split; [done|]). intros c Hc. by apply elem_of_nil in Hc.
Qed.
Example C63_type_members_example : describes TM_ td_msgs td_p td_file1 td_sB ∧ defines TM_ td_msgs td_p td_file1 td_B td_sB ∧
  refers TM_ td_msgs td_p td_file2 (mk 11 "B" 255) td_sB.
Proof.
  destruct (C63_type_members p_digest TM_ td_msgs td_p td_file1 td_ti (mk 2 "T" 35) [52] ["struct{*B}"] td_B (Some td_star) td_of)
    as (m & Hm & H1 & H2 & H3).
  - apply td_indexed.
  - left.
  - left.
  - done.
  - apply td_wf.
  - apply td_declares.
  - constructor; [done|constructor].
  - done.
  - rewrite elem_of_list_In; vm_compute; tauto.
  - split; [done|]. split; [|done]. intros o pp Hu. vm_compute in Hu. by injection Hu as <-.
  - intros c Hc. by apply elem_of_nil in Hc.
  - done.
  - done.
  - injection Hm as <-.
    assert (E : anon_symbol p_digest (p_path td_p) a_mod [Desc "T" Type_] ["struct{*B}"] (id_name td_B) = td_sB) by (vm_compute; reflexivity).
    cbv zeta in *. cbn [id_name mk] in *. change (id_name td_B) with "B" in *. rewrite E in H1, H2, H3. split; [exact H1|]. split; [exact H2|]. exact (H3 _ _ _ td_use_B).
Qed.
Print Assumptions C63_type_members_example.
