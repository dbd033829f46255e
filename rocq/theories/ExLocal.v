(** A function literal as the value of a package-level variable, for C59.
    package p
    var f = func(x int) { { var x string; g(x) }; g(x) } *)
From Coq Require Import Ascii String.
From stdpp Require Import prelude strings gmap sorting.
From Verif Require Import GoStr Scip GoTypes Packages Symbols Document Lookup Pass1 Pass2 Paths
  Loader Index Ast SpecSymbol SpecDecl SpecLookup SpecOcc SpecIndex
  P_Symbols P_Pass1 P_Link P_Lookup P_Pass2 P_Occ P_Scope P_Index PropDecl PropOcc PropIndex PropDet PropCross ExDecl ExOcc ExIndex ExCross PropNav PropLocal.
Open Scope string_scope.
Open Scope list_scope.

(** the parameter x *)
Definition l_x1 : Ast.ident := mk 2 "x" 25.
(** the variable x of the inner block *)
Definition l_x2 : Ast.ident := mk 4 "x" 40.
Definition l_body : node := NBlockStmt 32
  [NBlockStmt 34 [NOther 36 [NGenDecl 36 VAR "" [NValueSpec "" "" [l_x2] (Some (NIdent (mk 5 "string" 42))) []]];
                  NOther 50 [NIdent (mk 6 "x" 52)]];
   NOther 60 [NIdent (mk 7 "x" 62)]].
Definition l_lit : node := NFuncLit
  (NFuncType 20 empty_fields (NFieldList [NField "" "" [l_x1] (NIdent (mk 3 "int" 27))]) empty_fields) l_body.
Definition l_file : node := NFile 1 false "" (mk 0 "p" 9) [NGenDecl 12 VAR "" [NValueSpec "" "" [mk 1 "f" 16] None [l_lit]]].
Definition l_tpkg : tpkg := TPkg "ex.org/p" [].
Definition l_of : obj := Obj 1 "f" (Some l_tpkg) 16 (OVar false) (TSig [] [] false) None.
Definition l_o1 : obj := Obj 2 "x" (Some l_tpkg) 25 (OVar false) (TBasic BInt false) None.
Definition l_o2 : obj := Obj 3 "x" (Some l_tpkg) 40 (OVar false) (TBasic BString false) None.
Definition l_oint : obj := Obj 6 "int" None 0 OTypeName (TBasic BInt false) None.
Definition l_ostr : obj := Obj 7 "string" None 0 OTypeName (TBasic BString false) None.
Definition l_objs (i : nat) : option obj := List.find (λ o, Nat.eqb (o_id o) i) [l_of; l_o1; l_o2; l_oint; l_ostr].
Definition l_defs : nat → option obj := tab [(1, l_of); (2, l_o1); (4, l_o2)].
Definition l_uses : nat → option obj := tab [(3, l_oint); (5, l_ostr); (6, l_o2); (7, l_o1)].
Definition l_ti : tinfo := TInfo l_defs l_uses (λ _, None) [] (λ _, None) (λ _, "sig").
Definition l_p : gpkg := GPkg 1 "ex.org/p" "p" (Some a_mod) [] [l_file] (Some l_tpkg) (Some l_ti).
Definition l_h : pheap := {[ 1 := l_p ]}.
Definition l_all : ptab := {[ "ex.org/p" := 1 ]}.
Definition L_ : project := Project p_env l_objs x_fs l_h l_all l_all [l_p].

Lemma l_typed : typed_file x_fs l_ti (imports_of l_h l_p) l_objs l_file ∧ defs_at_idents l_ti l_file.
Proof.
  split.
  - split.
    2:{ intros ptr o Hu Hk. apply tab_in in Hu. cbn in Hu. repeat (destruct Hu as [Hu|Hu]; [injection Hu as <- <-; split; [reflexivity|reflexivity|reflexivity|first [by split|by constructor; [left|]]|done]|]). done. }
    2:{ intros o path Ho. enum Ho; subst o; done. }
    split.
    + by eexists _, _, _, _, _.
    + intros decl m c Hd Hm Hc.
      assert (H : forallb (λ decl, forallb (λ m, forallb (λ c, match c with NFuncDecl _ _ _ _ _ _ _ | NFile _ _ _ _ _ => false | _ => true end)
        (node_children m)) (subnodes decl)) (file_decls l_file) = true) by reflexivity.
      rewrite forallb_forall in H. specialize (H _ (proj1 (elem_of_list_In _ _) Hd)).
      rewrite forallb_forall in H. specialize (H _ (proj1 (elem_of_list_In _ _) Hm)).
      rewrite forallb_forall in H. specialize (H _ (proj1 (elem_of_list_In _ _) Hc)). by destruct c.
    + intros decl Hd. enum Hd; by subst.
    + vm_compute; repeat (apply NoDup_cons; split; [intros H; enum H|]); constructor.
    + intros par i o path Hi Hu Hk. exfalso. apply tab_in in Hu. cbn in Hu.
      repeat (destruct Hu as [Hu|Hu]; [injection Hu as E' <-; discriminate|]). done.
    + intros ptr o path [H|H] Hk; apply tab_in in H; cbn in H;
        repeat (destruct H as [H|H]; [injection H as _ <-; try discriminate; done|]); done.
    + intros i Hi. rewrite <- elem_of_node_idents in Hi. enum Hi; subst i; fits.
    + intros d p e r nm t b H. enum H.
    + intros ptr nm p l path imp Hin Himp. enum Hin.
  - split.
    + intros i d Hi Hd. rewrite <- elem_of_node_idents in Hi. enum Hi; subst i; vm_compute in Hd; try discriminate; injection Hd as <-; reflexivity.
    + vm_compute; repeat (apply NoDup_cons; split; [intros H; enum H|]); constructor.
Qed.
Lemma l_indexable : indexable l_objs x_fs l_h l_all l_all [l_p].
Proof.
  split.
  - split; [|split].
    + intros k q H%x_in. enum H; injection H as <- <-; eexists _, _; by split_and!.
    + intros k q H%x_in. enum H; injection H as <- <-; eexists _, _; by split_and!.
    + intros k q p H%x_in Hh. enum H; injection H as <- <-; vm_compute in Hh; injection Hh as <-;
        eexists _, _; split; reflexivity || split; reflexivity.
  - split.
    + split; [|split].
      * intros k. cbn [map p_path l_p]. split.
        -- intros ->%elem_of_list_singleton. by eexists.
        -- intros [q H%x_in]. enum H; injection H as <- <-; left.
      * apply NoDup_singleton.
      * cbn. repeat constructor.
    + intros p Hp. enum Hp; subst p; eexists; by split.
  - split.
    + intros p f Hp Hf. apply elem_of_list_singleton in Hp as ->. apply elem_of_list_singleton in Hf as ->.
      exists l_ti, "/src/p.go". destruct l_typed. split; [done|]. split; [done|]. split; done.
    + intros i j p f q f' name Hi Hj Hf Hf'. destruct i as [|i]; [|by destruct i]. destruct j as [|j]; [done|by destruct j].
  - intros p f name i Hp Hf Hfn Hi. rewrite <- elem_of_node_idents in Hi.
    apply elem_of_list_singleton in Hp as ->. apply elem_of_list_singleton in Hf as ->. unfold file_of in Hfn. vm_compute in Hfn. injection Hfn as <-.
    enum Hi; subst i; reflexivity.
Qed.
Definition l_run : list message * Index.outcome :=
  Index.index p_digest p_env x_fs l_h (λ o, o_name o) x_mo (λ _ _, None) x_impl "" "/src" "v1.0.0" false x_meta
    (LoadOk l_all l_all) ["ex.org/p"] ["ex.org/p"] ["ex.org/p"].
Definition l_msgs : list message := l_run.1.
Lemma l_success : l_run = (l_msgs, Returned None).
Proof. vm_compute. reflexivity. Qed.
Lemma l_indexed : indexed L_ l_msgs.
Proof.
  eexists p_digest, (λ o, o_name o), x_mo, "/src", "v1.0.0", x_impl, "", ["ex.org/p"], ["ex.org/p"], ["ex.org/p"], false, x_meta, (λ _ _, None).
  split; [apply l_indexable|]. split; [apply x_mo_ok|].
  split; [unfold key_order; vm_compute; repeat constructor|]. split; [unfold key_order; vm_compute; repeat constructor|].
  split; [unfold key_order; vm_compute; repeat constructor|]. split; [|exact l_success].
  intros g g' k' exts _. unfold x_impl. intros [= <- <- <-]. split; [apply same_tables_refl|apply fresh_ok].
Qed.

Definition l_doc : document := match documents l_msgs with d :: _ => d | [] => Doc "" [] [] end.
Definition l_occ (k : nat) : occurrence := match d_occs l_doc !! k with Some o => o | None => Occ [] "" 0 [] [] end.
Definition l_sym : string := "scip-go gomod ex.org v1.0.0 `ex.org/p`/f:x.".

Lemma l_document : document_of (pr_pkgs L_) (documents l_msgs) l_p l_file l_doc.
Proof. exists 0. split; vm_compute; reflexivity. Qed.
Lemma occurs_at P msgs p f d k o r i s :
  document_of (pr_pkgs P) (documents msgs) p f d → d_occs d !! k = Some o → oc_roles o = r → oc_symbol o = s → oc_range o = ident_span (pr_fs P) i →
  ∃ d o, document_of (pr_pkgs P) (documents msgs) p f d ∧ o ∈ d_occs d ∧ oc_roles o = r ∧ oc_symbol o = s ∧ oc_range o = ident_span (pr_fs P) i.
Proof. intros H0 H H1 H2 H3. exists d, o. split; [exact H0|]. split; [exact (elem_of_list_lookup_2 _ _ _ H)|]. split; [exact H1|]. by split. Qed.

(** C59 fails inside function literals that initialise package-level variables: the parameter x and the
    variable x of the inner block, two different objects, are both defined, and referred to, as the global
    symbol p/f:x., so the references to one are listed as references to the other. *)
Theorem C59_function_literal_refuted : ∃ P msgs p f ti lit i1 d1 u1 i2 d2 u2 s,
  indexed P msgs ∧ p ∈ pr_pkgs P ∧ f ∈ p_syntax p ∧ p_info p = Some ti ∧ wf_pkg_pos p ∧
  (** both identifiers are inside a function literal of the file *)
  (match lit with NFuncLit _ _ => True | _ => False end) ∧ lit ∈ subnodes f ∧ NIdent i1 ∈ subnodes lit ∧ NIdent i2 ∈ subnodes lit ∧
  ti_defs ti (id_ptr i1) = Some d1 ∧ ti_defs ti (id_ptr i2) = Some d2 ∧ o_id d1 ≠ o_id d2 ∧ o_pos d1 ≠ o_pos d2 ∧
  ti_uses ti (id_ptr u1) = Some d1 ∧ ti_uses ti (id_ptr u2) = Some d2 ∧
  ¬ is_local s ∧ defines P msgs p f i1 s ∧ defines P msgs p f i2 s ∧ refers P msgs p f u1 s ∧ refers P msgs p f u2 s.
Proof.
  exists L_, l_msgs, l_p, l_file, l_ti, l_lit, l_x1, l_o1, (mk 7 "x" 62), l_x2, l_o2, (mk 6 "x" 52), l_sym.
  split; [apply l_indexed|]. split; [left|]. split; [left|]. split; [done|].
  split; [apply wf_pkgb_ok; vm_compute; reflexivity|].
  split; [done|]. split; [apply elem_of_list_In; vm_compute; tauto|]. split; [apply elem_of_list_In; vm_compute; tauto|]. split; [apply elem_of_list_In; vm_compute; tauto|].
  split; [done|]. split; [done|]. split; [done|]. split; [done|]. split; [done|]. split; [done|].
  split; [done|].
  split; [|split; [|split]].
  - apply (occurs_at L_ l_msgs l_p l_file l_doc 2 (l_occ 2)); [exact l_document|vm_compute; reflexivity..].
  - apply (occurs_at L_ l_msgs l_p l_file l_doc 3 (l_occ 3)); [exact l_document|vm_compute; reflexivity..].
  - apply (occurs_at L_ l_msgs l_p l_file l_doc 5 (l_occ 5)); [exact l_document|vm_compute; reflexivity..].
  - apply (occurs_at L_ l_msgs l_p l_file l_doc 4 (l_occ 4)); [exact l_document|vm_compute; reflexivity..].
Qed.
Print Assumptions C59_function_literal_refuted.

(** func F[S ~[]E, E any](s S) int { x := 1; ... } of ExOcc.v: the parameter s and the variable x *)
Example C59_example : ∃ s1 s2, s1 ≠ s2 ∧ defines A a_msgs a_p q_file (mk 108 "s" 52) s1 ∧ defines A a_msgs a_p q_file (mk 111 "x" 62) s2.
Proof.
  eapply (C59_distinct_locals_partial A a_msgs a_p q_file q_ti
    (take 17 (file_nodes q_file)) (Some (NField "" "" [mk 108 "s" 52] (NIdent (mk 109 "S" 54)))) (mk 108 "s" 52) o_s
    (take 6 (drop 18 (file_nodes q_file))) (Some (NOther 62 [NIdent (mk 111 "x" 62); NOther 67 []])) (mk 111 "x" 62) o_x (drop 25 (file_nodes q_file))).
  - apply a_indexed.
  - left.
  - left.
  - done.
  - apply wf_pkgb_ok. vm_compute. reflexivity.
  - vm_compute. reflexivity.
  - eexists _, _, _, _, _. split; [reflexivity|]. left. eexists _, _, _, _, _, _, _, _, _, _, _. split; [right; left|].
    split; [right; left|]. apply elem_of_list_In; vm_compute; tauto.
  - done.
  - split; [done|]. split; [|done]. intros o pp Hu. vm_compute in Hu. done.
  - intros c Hc. by apply elem_of_nil in Hc.
  - done.
  - eexists _, _, _, _, _. split; [reflexivity|]. left. eexists _, _, _, _, _, _, _, _, _, _, _. split; [right; left|].
    split; [right; right; left|]. apply elem_of_list_In; vm_compute; tauto.
  - done.
  - split; [done|]. split; [|done]. intros o pp Hu. vm_compute in Hu. done.
  - intros c Hc. by apply elem_of_nil in Hc.
  - done.
Qed.
