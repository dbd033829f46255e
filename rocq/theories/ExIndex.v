(** An example project for the theorems about the whole run: the package ex.org/p of
    ExOcc.v, which imports fmt, and the package ex.org/r with the files r_test.go, doc.go and r.go:
    // R docs.
    package r
    import "ex.org/p"
    var y = p.F *)
From Coq Require Import Ascii String.
From stdpp Require Import prelude strings gmap sorting.
From Verif Require Import GoStr Scip GoTypes Ast Packages Symbols Document Lookup Pass1 Pass2 Paths
  Loader Index SpecSymbol SpecDecl SpecLookup SpecOcc SpecIndex
  P_Symbols P_Pass1 P_Link P_Lookup P_Pass2 P_Occ P_Scope P_Index PropDecl PropOcc ExDecl ExOcc PropIndex.
Open Scope string_scope.
Open Scope list_scope.

Definition x_name (p : Z) : option string :=
  if Z.leb p 200 then Some "/src/p.go" else if Z.leb p 300 then Some "/src/r/r_test.go"
  else if Z.leb p 400 then Some "/src/r/r.go" else if Z.leb p 500 then Some "/src/r/doc.go" else None.
Definition x_fs : fset :=
  FSet (λ p, Position (match x_name p with Some n => n | None => "" end) 1 (p mod 201)) x_name.
Definition r_file1 : node := NFile 201 true "Test notes." (mk 400 "r" 210) [].
Definition r_import : node := NGenDecl 312 IMPORT "" [NImportSpec 420 None 319 (String dquote ("ex.org/p" +:+ String dquote ""))].
Definition r_sel : node := NSelectorExpr (NIdent (mk 411 "p" 339)) (mk 412 "F" 341).
Definition r_var : node := NGenDecl 331 VAR "" [NValueSpec "" "" [mk 410 "y" 335] None [r_sel]].
Definition r_file2 : node := NFile 301 true "R docs." (mk 401 "r" 310) [r_import; r_var].
Definition r_file3 : node := NFile 401 true "All about r." (mk 402 "r" 410) [].
Definition r_tpkg : tpkg := TPkg "ex.org/r" [].
Definition o_p : obj := Obj 420 "p" (Some r_tpkg) 319 (OPkgName "ex.org/p") (TBasic BInvalid false) None.
Definition o_y : obj := Obj 410 "y" (Some r_tpkg) 335 (OVar false) (TSig [] [] false) None.
Definition r_uses : nat → option obj := tab [(411, o_p); (412, o_F)].
Definition r_ti : tinfo := TInfo (tab [(410, o_y)]) r_uses (λ i, if Nat.eqb i 420 then Some o_p else None) [] (λ _, None) (λ _, "var y func()").
Definition x_p : gpkg := GPkg 1 "ex.org/p" "p" (Some p_mod) [("fmt", 2)] [q_file] (Some q_tpkg) (Some q_ti).
Definition x_r : gpkg := GPkg 3 "ex.org/r" "r" (Some p_mod) [("ex.org/p", 1)] [r_file1; r_file2; r_file3] (Some r_tpkg) (Some r_ti).
Definition x_h : pheap := {[ 1 := x_p; 2 := fmt_pkg; 3 := x_r ]}.
Definition x_all : ptab := {[ "ex.org/p" := 1; "fmt" := 2; "ex.org/r" := 3 ]}.
Definition x_proj : ptab := {[ "ex.org/p" := 1; "ex.org/r" := 3 ]}.

Lemma x_imports path : imports_of x_h x_p path = q_imports path.
Proof.
  unfold imports_of, q_imports. cbn [p_imports x_p List.find fst].
  rewrite (String.eqb_sym path "fmt"). destruct (String.eqb "fmt" path); reflexivity.
Qed.
Ltac fits := vm_compute; intuition discriminate.
Lemma x_wf_p : wf_file x_fs q_ti (imports_of x_h x_p) q_file.
Proof.
  destruct q_wf as [H1 H2 H3 H4 H5 H6 _ _ _]. split; try assumption.
  - intros i Hi. rewrite <- elem_of_node_idents in Hi. enum Hi; subst i; fits.
  - intros d p e r nm t b H. enum H. injection H as <- <- <- <- <- <- <-. fits.
  - intros ptr nm p l path imp Hin Himp. rewrite x_imports in Himp.
    assert (imp = fmt_pkg) as ->. { unfold q_imports in Himp. destruct (String.eqb _ _); congruence. }
    enum Hin. injection Hin as <- <- <- <-. fits.
Qed.
Lemma x_typed_p : typed_file x_fs q_ti (imports_of x_h x_p) q_objs q_file.
Proof. split; [apply x_wf_p|apply q_go_object|]. intros o path H. by apply elem_of_nil in H. Qed.
Lemma x_typed_r f : f ∈ [r_file1; r_file2; r_file3] → typed_file x_fs r_ti (imports_of x_h x_r) q_objs f ∧ defs_at_idents r_ti f.
Proof.
  intros Hf. split.
  - split; [| |intros o path H; by apply elem_of_nil in H].
    2:{ intros ptr o Hu Hk. apply tab_in in Hu. cbn in Hu. destruct Hu as [Hu|[Hu|[]]].
        - injection Hu as <- <-. by destruct (Hk "ex.org/p").
        - injection Hu as <- <-. split; [reflexivity|reflexivity|reflexivity|by split|done]. }
    split.
    + enum Hf; subst f; by eexists _, _, _, _, _.
    + intros decl m c Hd Hm Hc.
      assert (H : forallb (λ f, forallb (λ decl, forallb (λ m, forallb (λ c, match c with NFuncDecl _ _ _ _ _ _ _ | NFile _ _ _ _ _ => false | _ => true end)
        (node_children m)) (subnodes decl)) (file_decls f)) [r_file1; r_file2; r_file3] = true) by reflexivity.
      rewrite forallb_forall in H. specialize (H _ (proj1 (elem_of_list_In _ _) Hf)).
      rewrite forallb_forall in H. specialize (H _ (proj1 (elem_of_list_In _ _) Hd)).
      rewrite forallb_forall in H. specialize (H _ (proj1 (elem_of_list_In _ _) Hm)).
      rewrite forallb_forall in H. specialize (H _ (proj1 (elem_of_list_In _ _) Hc)). by destruct c.
    + intros decl Hd. enum Hf; subst f; enum Hd; by subst.
    + enum Hf; subst f; vm_compute; repeat (apply NoDup_cons; split; [intros H; enum H|]); constructor.
    + intros par i o path Hi Hu Hk.
      destruct (decide (id_ptr i = 411)) as [E|E].
      * right. enum Hf; subst f; enum Hi; injection Hi as <- <-; try discriminate. by eexists.
      * exfalso. apply tab_in in Hu. cbn in Hu.
        repeat (destruct Hu as [Hu|Hu]; [injection Hu as E' <-; try discriminate; congruence|]). done.
    + intros ptr o path [H|H] Hk; apply tab_in in H; cbn in H;
        repeat (destruct H as [H|H]; [injection H as _ <-; try discriminate; done|]); done.
    + intros i Hi. rewrite <- elem_of_node_idents in Hi. enum Hf; subst f; enum Hi; subst i; fits.
    + intros d p e r nm t b H. enum Hf; subst f; enum H.
    + intros ptr nm p l path imp Hin Himp.
      assert (imp = x_p) as ->. { unfold imports_of in Himp. cbn [p_imports x_r List.find fst snd] in Himp. destruct (String.eqb _ _); [|done]. vm_compute in Himp. by injection Himp as <-. }
      enum Hf; subst f; enum Hin. injection Hin as <- <- <- <-. fits.
  - split.
    + intros i d Hi Hd. rewrite <- elem_of_node_idents in Hi. enum Hf; subst f; enum Hi; subst i; vm_compute in Hd; try discriminate; injection Hd as <-; reflexivity.
    + enum Hf; subst f; vm_compute; repeat (apply NoDup_cons; split; [intros H; enum H|]); constructor.
Qed.

Lemma x_in t (k : string) (q : nat) : t !! k = Some q → (k, q) ∈ map_to_list (t : ptab).
Proof. by intros ?%elem_of_map_to_list. Qed.
Lemma x_loaded : loaded_project x_h x_all x_proj.
Proof.
  split; [|split].
  - intros k q H%x_in. enum H; injection H as <- <-; eexists _, _; by split_and!.
  - intros k q H%x_in. enum H; injection H as <- <-; eexists _, _; by split_and!.
  - intros k q p H%x_in Hh. enum H; injection H as <- <-; vm_compute in Hh; injection Hh as <-;
      eexists _, _; split; reflexivity || split; reflexivity.
Qed.
Lemma x_order : project_in_order x_h x_proj [x_p; x_r].
Proof.
  split.
  - split; [|split].
    + intros k. cbn [map p_path x_p x_r]. split.
      * intros [->|[->|H%elem_of_nil]%elem_of_cons]%elem_of_cons; [| |done]; by eexists.
      * intros [q H%x_in]. enum H; injection H as <- <-; [left|right; left].
    + cbn. apply NoDup_cons. split; [|apply NoDup_singleton]. intros H. enum H.
    + cbn. repeat constructor.
  - intros p Hp. enum Hp; subst p; eexists; by split.
Qed.
Lemma x_files : typed_project q_objs x_fs x_h [x_p; x_r].
Proof.
  split.
  - intros p f Hp Hf. apply elem_of_cons in Hp as [->|Hp].
    + apply elem_of_list_singleton in Hf as ->. exists q_ti, "/src/p.go".
      split; [done|]. split; [apply x_typed_p|]. split; [apply q_defs_at|done].
    + apply elem_of_list_singleton in Hp as ->. destruct (x_typed_r f Hf) as [H1 H2].
      exists r_ti. enum Hf; subst f; eexists; repeat (split; [done|]); reflexivity.
  - intros i j p f q f' name Hi Hj Hf Hf'.
    assert (NoDup (map (λ e : gpkg * node, x_name (file_package_pos e.2)) (files_in_order [x_p; x_r]))) as Hnd.
    { vm_compute. repeat (apply NoDup_cons; split; [intros H; enum H|]). constructor. }
    eapply (NoDup_lookup _ i j (Some name) Hnd); rewrite list_lookup_fmap.
    + rewrite Hi. cbn. by f_equal.
    + rewrite Hj. cbn. by f_equal.
Qed.
Lemma x_indexable : indexable q_objs x_fs x_h x_all x_proj [x_p; x_r].
Proof.
  split; [apply x_loaded|apply x_order|apply x_files|].
  intros p f name i Hp Hf Hfn Hi. rewrite <- elem_of_node_idents in Hi.
  apply elem_of_cons in Hp as [->|Hp].
  - apply elem_of_list_singleton in Hf as ->. unfold file_of in Hfn. vm_compute in Hfn. injection Hfn as <-.
    enum Hi; subst i; reflexivity.
  - apply elem_of_list_singleton in Hp as ->. unfold file_of in Hfn.
    enum Hf; subst f; vm_compute in Hfn; injection Hfn as <-; enum Hi; subst i; reflexivity.
Qed.

(** the map iteration orders of gmap, which are as good as any *)
Definition x_mo : map_orders := MapOrders (λ _ t, map_to_list t) (λ _ l, map_to_list l).
Lemma x_mo_ok : orders_ok x_mo.
Proof. done. Qed.
Definition x_impl : global → caches → res (option (global * caches * list syminfo)) := λ g k, Ok (Some (g, k, [])).
Lemma x_impl_ok : impl_contract p_env q_objs "/src" "v1.0.0" x_h x_all x_proj x_impl.
Proof.
  intros g g' k' exts _. unfold x_impl. intros [= <- <- <-]. split; [apply same_tables_refl|apply fresh_ok].
Qed.
Definition x_po : list string := ["ex.org/r"; "ex.org/p"].
Definition x_ao : list string := ["fmt"; "ex.org/r"; "ex.org/p"].
Lemma x_po_ok : key_order x_proj x_po.
Proof. unfold key_order. vm_compute. repeat constructor. Qed.
Lemma x_ao_ok : key_order x_all x_ao.
Proof. 
  unfold key_order. apply NoDup_Permutation.
  - repeat (apply NoDup_cons; split; [intros H; enum H|]). constructor.
  - apply NoDup_fst_map_to_list.
  - intros k. rewrite !elem_of_list_In. vm_compute. tauto.
Qed.
Definition x_meta : metadata := Meta "file:///src" "scip-go" "v0" [].
Definition x_run (w : writer) : list message * Index.outcome :=
  index p_digest p_env x_fs x_h (λ o, o_name o) x_mo w x_impl "" "/src" "v1.0.0" false x_meta
    (LoadOk x_all x_proj) x_po x_ao x_po.
Definition x_msgs : list message := (x_run (λ _ _, None)).1.
Lemma x_success : x_run (λ _ _, None) = (x_msgs, Returned None).
Proof. vm_compute. reflexivity. Qed.

(** the paths, the numbers of occurrences and the symbols of the documents *)
Definition x_view : list (string * nat * list string) :=
  map (λ d, (d_path d, length (d_occs d), map i_symbol (d_symbols d))) (documents x_msgs).
Example x_documents : x_view =
  [("p.go", 14, ["scip-go gomod ex.org v1.0.0 `ex.org/p`/"; "scip-go gomod ex.org v1.0.0 `ex.org/p`/F().";
                 "local 2"; "local 3"; "local 0"; "local 1"]);
   ("r/r_test.go", 1, ["scip-go gomod ex.org v1.0.0 `ex.org/r`/"]);
   ("r/r.go", 5, ["scip-go gomod ex.org v1.0.0 `ex.org/r`/y."]); ("r/doc.go", 1, [])].
Proof. vm_compute. reflexivity. Qed.

(** the theorems about a run apply to it *)
Opaque x_msgs.
Notation on_x T := (T p_digest p_env q_objs x_fs x_h (λ o, o_name o) x_mo "/src" "v1.0.0" x_all x_proj [x_p; x_r]
  x_impl "" x_po x_ao x_po false x_meta (λ _ _, None) x_indexable x_mo_ok x_po_ok x_ao_ok x_po_ok x_impl_ok).
Example C21_index_no_crash_example : ∃ msgs err, x_run (λ _ _, None) = (msgs, Returned err).
Proof. apply (on_x C21_index_no_crash). intros _ g _. by eexists. Qed.
Example C38_emission_order_example : ∃ ds exts, x_msgs = MMeta x_meta :: map MDoc ds ++ map MExt exts.
Proof. destruct (on_x C38_emission_order x_msgs x_success) as (ds & exts & H & _). exists ds, exts. exact H. Qed.
Example C42_example : ∃ d, document_of [x_p; x_r] (documents x_msgs) x_r r_file3 d ∧ d_path d = "r/doc.go".
Proof.
  destruct (on_x C42_every_file_has_document x_msgs x_success x_r r_file3 "/src/r/doc.go") as (d & H1 & H2);
    [right; left|right; right; left|reflexivity|]. exists d. split; [exact H1|]. rewrite H2. reflexivity.
Qed.
Example C42_list_missing_example : list_missing p_digest p_env x_fs x_h "/src" x_proj x_po x_po = Ok [].
Proof. exact (C42_list_missing_empty p_digest p_env q_objs x_fs x_h "/src" x_all x_proj [x_p; x_r] x_indexable x_po x_po x_po_ok x_po_ok). Qed.
Example C20_example : ∃ i d,
  filter (λ i, i_symbol i = "scip-go gomod ex.org v1.0.0 `ex.org/r`/") (List.concat (map d_symbols (documents x_msgs))) = [i] ∧
  document_of [x_p; x_r] (documents x_msgs) x_r r_file1 d ∧ i ∈ d_symbols d ∧
  i_documentation i = ["All about r."; "R docs."; "Test notes."].
Proof.
  destruct (on_x C20_described_once x_msgs x_success x_r r_file1 [r_file2; r_file3] p_mod) as (i & d & H1 & H2 & H3 & H4 & _);
    [right; left|reflexivity|reflexivity| |].
  { intros p m Hp. enum Hp; subst p; intros [= <-]; by split. }
  exists i, d. split; [exact H1|]. split; [exact H2|]. split; [exact H3|]. rewrite H4. vm_compute. reflexivity.
Qed.
Example C53_example : ∃ m d, p_module x_p = Some m ∧ document_of [x_p; x_r] (documents x_msgs) x_p q_file d ∧
  (∃ info, info ∈ d_symbols d ∧ i_symbol info = "scip-go gomod ex.org v1.0.0 `ex.org/p`/F().") ∧
  (∃ o, o ∈ d_occs d ∧ is_def o ∧ oc_symbol o = "scip-go gomod ex.org v1.0.0 `ex.org/p`/F()." ∧ oc_range o = [0; 34; 35]%Z).
Proof.
  destruct (on_x C53_declarations_in_index x_msgs x_success x_p q_file (mk 103 "F" 35) (KeyFunc "F") q_F) as (m & d & H1 & H2 & H3 & H4).
  - left.
  - left.
  - exists 1%Z, false, "", (mk 100 "p" 9), [q_import; q_F], q_F. split; [done|]. split; [right; left|]. apply (dd_func _ _ _ (mk 103 "F" 35)).
  - apply wf_pkgb_ok. vm_compute. reflexivity.
  - done.
  - done.
  - exists m, d. split; [exact H1|]. split; [exact H2|]. cbn in H1. injection H1 as <-. split; [exact H3|].
    apply (H4 q_ti o_F); try done. intros o Ho. by apply elem_of_nil in Ho.
Qed.
(** p.F in r.go refers to the symbol of the declaration of F in p.go *)
Example C54_example : ∃ m d ref, p_module x_p = Some m ∧ document_of [x_p; x_r] (documents x_msgs) x_r r_file2 d ∧
  ref ∈ d_occs d ∧ oc_roles ref = role_read_access ∧ oc_symbol ref = "scip-go gomod ex.org v1.0.0 `ex.org/p`/F()." ∧
  oc_range ref = [0; 139; 140]%Z.
Proof.
  destruct (on_x C54_references_in_index x_msgs x_success x_p q_file (mk 103 "F" 35) (KeyFunc "F") q_F
    x_r r_file2 r_ti r_sel (mk 412 "F" 341) o_F q_tpkg) as (m & d & ref & H1 & H2 & H3 & H4 & H5 & H6).
  - left.
  - left.
  - exists 1%Z, false, "", (mk 100 "p" 9), [q_import; q_F], q_F. split; [done|]. split; [right; left|]. apply (dd_func _ _ _ (mk 103 "F" 35)).
  - apply wf_pkgb_ok. vm_compute. reflexivity.
  - done.
  - done.
  - right; left.
  - right; left.
  - done.
  - rewrite elem_of_list_In. vm_compute. tauto.
  - right. right. exists (mk 411 "p" 339), (mk 412 "F" 341), o_p, "ex.org/p". split; [done|]. split; [done|]. split; [done|]. by eexists.
  - done.
  - done.
  - done.
  - done.
  - done.
  - done.
  - done.
  - done.
  - done.
  - intros c Hc. by apply elem_of_nil in Hc.
  - right. intros i' Hi'. rewrite <- elem_of_node_idents in Hi'. enum Hi'; subst i'; done.
  - exists m, d, ref. split; [exact H1|]. split; [exact H2|]. split; [exact H3|]. split; [exact H4|].
    cbn in H1. injection H1 as <-. split; [rewrite H5; reflexivity|rewrite H6; reflexivity].
Qed.
(** a writer that fails at the third message: the metadata and one document are written *)
Definition third_fails : writer := λ sofar _, if Nat.eqb (length sofar) 2 then Some "disk full" else None.
Lemma x_len n : n <= 5 → length (take n x_msgs) = n.
Proof. intros H. rewrite take_length. replace (length x_msgs) with 5; [lia|]. vm_compute. reflexivity. Qed.
Example C38_write_failure_example : x_run third_fails = (take 2 x_msgs, Returned (Some "disk full")).
Proof.
  assert (is_Some (x_msgs !! 2)) as [m E].
  { apply lookup_lt_is_Some. pose proof (x_len 3 ltac:(lia)) as H. rewrite take_length in H. lia. }
  pose proof (proj2 (C38_write_failure p_digest p_env x_fs x_h (λ o, o_name o) x_mo x_impl "" "/src" "v1.0.0" false x_meta
    (LoadOk x_all x_proj) x_po x_ao x_po third_fails)) as H. cbv beta zeta in H. unfold x_run.
  change (index _ _ _ _ _ _ (λ _ _, None) _ _ _ _ _ _ _ _ _ _) with (x_run (λ _ _, None)) in H.
  rewrite x_success in H. cbn [fst] in H. apply (H 2 m); [exact E| |].
  - unfold third_fails. rewrite x_len by lia. reflexivity.
  - intros n' m' Hn Hm. unfold third_fails. rewrite x_len by lia.
    destruct n' as [|[|n']]; [reflexivity|reflexivity|lia].
Qed.
