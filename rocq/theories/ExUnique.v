(** C70: examples.  The function F of ExIndex.v; and
    i.go:  package p
           func init() {}
           func init() {} *)
From Coq Require Import Ascii String.
From stdpp Require Import prelude strings gmap sorting.
From Verif Require Import GoStr Scip GoTypes Packages Symbols Document Lookup Pass1 Pass2 Paths
  Loader Index Ast SpecSymbol SpecDecl SpecLookup SpecOcc SpecIndex SpecPrecise
  P_Symbols P_Pass1 P_Link P_Lookup P_Pass2 P_Occ P_Scope P_Index P_Precise PropDecl PropOcc PropIndex PropCross ExDecl ExOcc ExIndex ExCross PropNav PropPrecise ExPrecise PropUnique.
Open Scope string_scope.
Open Scope list_scope.

Lemma x_declares_F : file_declares q_file (mk 103 "F" 35) (KeyFunc "F") q_F.
Proof. eexists _, _, _, _, _, q_F. split; [reflexivity|]. split; [right; left|]. apply dd_func. Qed.
Example C70_ex : indexed X x_msgs ∧ clean_modules X ∧ (∀ q, q ∈ pr_pkgs X → pkg_grammatical q) ∧
  declaration X x_p q_file (mk 103 "F" 35) (KeyFunc "F") ∧ introduced_once x_p (mk 103 "F" 35) (KeyFunc "F").
Proof.
  split; [exact x_indexed|]. split; [exact x_clean|]. split; [exact x_grammatical|]. split.
  - split; [left|left| | | |done|done|].
    + exists q_F. split; [exact x_declares_F|exact I].
    + apply wf_pkgb_ok. vm_compute. reflexivity.
    + discriminate.
    + exists q_ti, o_F. split; [done|]. split; [done|]. split; [done|]. intros o Ho. by apply elem_of_nil in Ho.
  - intros pos (j & [(pr & f & Hf & p & hd & dd & nm & decls & decl & E & Hdecl & Hd)|(f & p & doc & specs & sd & T & tps & t & _ & _ & _ & _ & E)] & <-); [|discriminate E].
    apply elem_of_list_singleton in Hf as ->. injection E as _ _ _ _ <-. enum Hdecl; subst decl; inversion Hd; subst; try done.
Qed.

Definition in_1 : Ast.ident := mk 1 "init" 16.
Definition in_2 : Ast.ident := mk 2 "init" 31.
Definition in_ft (p : Z) : node := NFuncType p empty_fields empty_fields empty_fields.
Definition in_d1 : node := NFuncDecl "" 11 25 None in_1 (in_ft 11) (Some (NBlockStmt 23 [])).
Definition in_d2 : node := NFuncDecl "" 26 40 None in_2 (in_ft 26) (Some (NBlockStmt 38 [])).
Definition in_file : node := NFile 1 false "" (mk 0 "p" 9) [in_d1; in_d2].
Definition in_tpkg : tpkg := TPkg "ex.org/p" [].
Definition in_o1 : obj := Obj 1 "init" (Some in_tpkg) 16 (OFunc (Some None)) (TSig [] [] false) None.
Definition in_o2 : obj := Obj 2 "init" (Some in_tpkg) 31 (OFunc (Some None)) (TSig [] [] false) None.
Definition in_ti : tinfo := TInfo (tab [(1, in_o1); (2, in_o2)]) (λ _, None) (λ _, None) [] (λ _, None) (λ _, "func init()").
Definition in_p : gpkg := GPkg 1 "ex.org/p" "p" (Some p_mod) [] [in_file] (Some in_tpkg) (Some in_ti).
Definition in_h : pheap := {[ 1 := in_p ]}.
Definition in_all : ptab := {[ "ex.org/p" := 1 ]}.
Definition in_objs (i : nat) : option obj := List.find (λ o, Nat.eqb (o_id o) i) [in_o1; in_o2].
Definition IN_ : project := Project p_env in_objs x_fs in_h in_all in_all [in_p].
Lemma in_typed : typed_file x_fs in_ti (imports_of in_h in_p) in_objs in_file ∧ defs_at_idents in_ti in_file.
Proof.
  split.
  - split; [|done|intros o path H; by apply elem_of_nil in H].
    split.
    + by eexists _, _, _, _, _.
    + intros decl m c Hd Hm Hc.
      assert (H : forallb (λ decl, forallb (λ m, forallb (λ c, match c with NFuncDecl _ _ _ _ _ _ _ | NFile _ _ _ _ _ => false | _ => true end)
        (node_children m)) (subnodes decl)) (file_decls in_file) = true) by reflexivity.
      rewrite forallb_forall in H. specialize (H _ (proj1 (elem_of_list_In _ _) Hd)).
      rewrite forallb_forall in H. specialize (H _ (proj1 (elem_of_list_In _ _) Hm)).
      rewrite forallb_forall in H. specialize (H _ (proj1 (elem_of_list_In _ _) Hc)). by destruct c.
    + intros decl Hd. enum Hd; by subst.
    + vm_compute; repeat (apply NoDup_cons; split; [intros H; enum H|]); constructor.
    + done.
    + intros ptr o path [H|H] Hk; [done|]. apply tab_in in H; cbn in H;
        repeat (destruct H as [H|H]; [injection H as _ <-; try discriminate; done|]); done.
    + intros i Hi. rewrite <- elem_of_node_idents in Hi. enum Hi; subst i; fits.
    + intros d p e r nm t b H. enum H; injection H as <- <- <- <- <- <- <-; fits.
    + intros ptr nm p l path imp Hin Himp. enum Hin.
  - split.
    + intros i d Hi Hd. rewrite <- elem_of_node_idents in Hi. enum Hi; subst i; vm_compute in Hd; try discriminate; injection Hd as <-; reflexivity.
    + vm_compute; repeat (apply NoDup_cons; split; [intros H; enum H|]); constructor.
Qed.
Lemma in_indexable : indexable in_objs x_fs in_h in_all in_all [in_p].
Proof.
  split.
  - split; [|split].
    + intros k q H%x_in. enum H; injection H as <- <-; eexists _, _; by split_and!.
    + intros k q H%x_in. enum H; injection H as <- <-; eexists _, _; by split_and!.
    + intros k q p H%x_in Hh. enum H; injection H as <- <-; vm_compute in Hh; injection Hh as <-;
        eexists _, _; split; reflexivity || split; reflexivity.
  - split.
    + split; [|split].
      * intros k. cbn [map p_path in_p]. split.
        -- intros ->%elem_of_list_singleton. by eexists.
        -- intros [q H%x_in]. enum H; injection H as <- <-; left.
      * apply NoDup_singleton.
      * cbn. repeat constructor.
    + intros p Hp. enum Hp; subst p; eexists; by split.
  - split.
    + intros p f Hp Hf. apply elem_of_list_singleton in Hp as ->. apply elem_of_list_singleton in Hf as ->. destruct in_typed as [H1 H2].
      exists in_ti. eexists; repeat (split; [done|]); reflexivity.
    + intros i j p f q f' name Hi Hj Hf Hf'.
      assert (NoDup (map (λ e : gpkg * node, x_name (file_package_pos e.2)) (files_in_order [in_p]))) as Hnd.
      { vm_compute. repeat (apply NoDup_cons; split; [intros H; enum H|]). constructor. }
      eapply (NoDup_lookup _ i j (Some name) Hnd); rewrite list_lookup_fmap.
      * rewrite Hi. cbn. by f_equal.
      * rewrite Hj. cbn. by f_equal.
  - intros p f name i Hp Hf Hfn Hi. rewrite <- elem_of_node_idents in Hi.
    apply elem_of_list_singleton in Hp as ->. apply elem_of_list_singleton in Hf as ->. unfold file_of in Hfn.
    vm_compute in Hfn; injection Hfn as <-; enum Hi; subst i; reflexivity.
Qed.
Definition in_run : list message * Index.outcome :=
  Index.index p_digest p_env x_fs in_h (λ o, o_name o) x_mo (λ _ _, None) x_impl "" "/src" "v1.0.0" false x_meta
    (LoadOk in_all in_all) ["ex.org/p"] ["ex.org/p"] ["ex.org/p"].
Definition in_msgs : list message := in_run.1.
Lemma in_success : in_run = (in_msgs, Returned None).
Proof. vm_compute. reflexivity. Qed.
Lemma in_indexed : indexed IN_ in_msgs.
Proof.
  eexists p_digest, (λ o, o_name o), x_mo, "/src", "v1.0.0", x_impl, "", ["ex.org/p"], ["ex.org/p"], ["ex.org/p"], false, x_meta, (λ _ _, None).
  split; [apply in_indexable|]. split; [apply x_mo_ok|].
  split; [unfold key_order; vm_compute; repeat constructor|]. split; [unfold key_order; vm_compute; repeat constructor|].
  split; [unfold key_order; vm_compute; repeat constructor|]. split; [|exact in_success].
  intros g g' k' exts _. unfold x_impl. intros [= <- <- <-]. split; [apply same_tables_refl|apply fresh_ok].
Qed.
Lemma in_declaration i d o : In (i, d, o) [(in_1, in_d1, in_o1); (in_2, in_d2, in_o2)] → declaration IN_ in_p in_file i (KeyFunc "init").
Proof.
  intros Hi. split; [left|left| | | | | |].
  - exists d. split; [|by destruct Hi as [Hi|[Hi|[]]]; injection Hi as <- <- <-].
    eexists _, _, _, _, _, d. split; [reflexivity|]. destruct Hi as [Hi|[Hi|[]]]; injection Hi as <- <- <-.
    + split; [left|]. apply dd_func.
    + split; [right; left|]. apply dd_func.
  - apply wf_pkgb_ok. vm_compute. reflexivity.
  - discriminate.
  - by destruct Hi as [Hi|[Hi|[]]]; injection Hi as <- <- <-.
  - by destruct Hi as [Hi|[Hi|[]]]; injection Hi as <- <- <-.
  - exists in_ti, o. split; [done|]. split; [|split; [done|intros c Hc; by apply elem_of_nil in Hc]].
    by destruct Hi as [Hi|[Hi|[]]]; injection Hi as <- <- <-.
Qed.
Example C70_init_ex : indexed IN_ in_msgs ∧ declaration IN_ in_p in_file in_1 (KeyFunc "init") ∧
  declaration IN_ in_p in_file in_2 (KeyFunc "init") ∧ ident_span (pr_fs IN_) in_1 ≠ ident_span (pr_fs IN_) in_2.
Proof.
  split; [exact in_indexed|]. split; [eapply (in_declaration in_1 in_d1 in_o1); cbn; tauto|].
  split; [eapply (in_declaration in_2 in_d2 in_o2); cbn; tauto|]. vm_compute. discriminate.
Qed.
