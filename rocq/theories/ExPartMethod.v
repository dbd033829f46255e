(** C81 for interface methods: package ex.org/p declares
      type I interface { N() }
      var V I
    and package ex.org/r, r.go, has  var y = p.V.N *)
From Coq Require Import Ascii String.
From stdpp Require Import prelude strings gmap sorting.
From Verif Require Import GoStr Scip GoTypes Packages Symbols Document Lookup Pass1 Pass2 Paths
  Loader Index Ast SpecSymbol SpecDecl SpecLookup SpecOcc SpecIndex
  P_Symbols P_Pass1 P_Link P_Lookup P_Pass2 P_Occ P_Scope P_Index PropDecl PropOcc PropIndex PropCross ExDecl ExOcc ExIndex ExCross PropNav PropMember PropEnd PropPartMethod.
Open Scope string_scope.
Open Scope list_scope.

Definition im_dI : node := NGenDecl 12 TYPE "" [NTypeSpec "" (mk 1 "I" 17) empty_fields
   (NInterfaceType 2 19 (NFieldList [NField "" "" [mk 3 "N" 31] (NFuncType 32 empty_fields empty_fields empty_fields)]))].
Definition im_dV : node := NGenDecl 41 VAR "" [NValueSpec "" "" [mk 4 "V" 45] (Some (NIdent (mk 5 "I" 47))) []].
Definition im_file : node := NFile 1 false "" (mk 0 "p" 9) [im_dI; im_dV].
Definition im_sel : node := NSelectorExpr (NIdent (mk 411 "p" 339)) (mk 412 "V" 341).
Definition im_rfile : node := NFile 301 true "R docs." (mk 401 "r" 310) [r_import;
  NGenDecl 331 VAR "" [NValueSpec "" "" [mk 410 "y" 335] None [NSelectorExpr im_sel (mk 413 "N" 343)]]].
Definition im_tpkg : tpkg := TPkg "ex.org/p" [].
Definition im_tI : ty := TNamed (TName 1 (Some "ex.org/p") "I") [].
Definition im_I : obj := Obj 1 "I" (Some im_tpkg) 17 OTypeName im_tI None.
Definition im_V (pos : Z) : obj := Obj 2 "V" (Some im_tpkg) pos (OVar false) im_tI None.
Definition im_N (pos : Z) : obj := Obj 3 "N" (Some im_tpkg) pos (OFunc (Some (Some im_tI))) (TSig [] [] false) None.
Definition im_ti : tinfo := TInfo (tab [(1, im_I); (3, im_N 31); (4, im_V 45)]) (tab [(5, im_I)]) (λ _, None) [] (λ _, None) (λ _, "sig").
(** the positions d + 45 and d + 31 of V and N: d is 0 in the source, 9000 in export data *)
Definition im_uses (d : Z) : list (nat * obj) := [(411, o_p); (412, im_V (d + 45)); (413, im_N (d + 31))].
Definition im_rti (d : Z) : tinfo := TInfo (tab [(410, o_y)]) (tab (im_uses d)) (λ i, if Nat.eqb i 420 then Some o_p else None) [] (λ _, None) (λ _, "var y func()").
Definition im_objs (d : Z) (i : nat) : option obj := List.find (λ o, Nat.eqb (o_id o) i) [im_I; im_V (d + 45); im_N (d + 31); o_p; o_y].
Definition im_p : gpkg := GPkg 1 "ex.org/p" "p" (Some p_mod) [] [im_file] (Some im_tpkg) (Some im_ti).
Definition im_dep : gpkg := GPkg 1 "ex.org/p" "p" (Some p_mod) [] [] (Some im_tpkg) None.
Definition im_r (d : Z) : gpkg := GPkg 3 "ex.org/r" "r" (Some p_mod) [("ex.org/p", 1)] [im_rfile] (Some r_tpkg) (Some (im_rti d)).
Definition im_h : pheap := {[ 1 := im_p; 3 := im_r 0 ]}.
Definition im_hq : pheap := {[ 1 := im_dep; 3 := im_r 9000 ]}.
Definition im_all : ptab := {[ "ex.org/p" := 1; "ex.org/r" := 3 ]}.
Definition im_proj : ptab := {[ "ex.org/r" := 3 ]}.
Definition IMP : project := Project p_env (im_objs 0) x_fs im_h im_all im_all [im_p; im_r 0].
Definition IMQ : project := Project p_env (im_objs 9000) x_fs im_hq im_all im_proj [im_r 9000].

Lemma im_typed_p : typed_file x_fs im_ti (imports_of im_h im_p) (im_objs 0) im_file ∧ defs_at_idents im_ti im_file.
Proof.
  split.
  - split; [| |intros o path H; by apply elem_of_nil in H].
    2:{ intros ptr o Hu Hk. apply tab_in in Hu. cbn in Hu. destruct Hu as [Hu|[]].
        injection Hu as <- <-. split; [reflexivity|reflexivity|reflexivity|split; discriminate|done]. }
    split.
    + by eexists _, _, _, _, _.
    + intros decl m c Hd Hm Hc.
      assert (H : forallb (λ decl, forallb (λ m, forallb (λ c, match c with NFuncDecl _ _ _ _ _ _ _ | NFile _ _ _ _ _ => false | _ => true end)
        (node_children m)) (subnodes decl)) (file_decls im_file) = true) by reflexivity.
      rewrite forallb_forall in H. specialize (H _ (proj1 (elem_of_list_In _ _) Hd)).
      rewrite forallb_forall in H. specialize (H _ (proj1 (elem_of_list_In _ _) Hm)).
      rewrite forallb_forall in H. specialize (H _ (proj1 (elem_of_list_In _ _) Hc)). by destruct c.
    + intros decl Hd. enum Hd; by subst.
    + vm_compute; repeat (apply NoDup_cons; split; [intros H; enum H|]); constructor.
    + intros par i o path Hi Hu Hk. exfalso. apply tab_in in Hu. cbn in Hu.
      repeat (destruct Hu as [Hu|Hu]; [injection Hu as E' <-; discriminate|]). done.
    + intros ptr o path [H|H] Hk; apply tab_in in H; cbn in H;
        repeat (destruct H as [H|H]; [injection H as _ <-; try discriminate; done|]); done.
    + intros i Hi. rewrite <- elem_of_node_idents in Hi. enum Hi; subst i; fits.
    + intros d p e r nm t b H. enum H.
    + intros ptr nm p l path imp Hin Himp. enum Hin.
  - split.
    + intros i d Hi Hd. rewrite <- elem_of_node_idents in Hi. enum Hi; subst i; vm_compute in Hd; try discriminate; injection Hd as <-; reflexivity.
    + vm_compute; repeat (apply NoDup_cons; split; [intros H; enum H|]); constructor.
Qed.
Lemma im_typed_r d h : d = 0%Z ∧ h = im_h ∨ d = 9000%Z ∧ h = im_hq →
  typed_file x_fs (im_rti d) (imports_of h (im_r d)) (im_objs d) im_rfile ∧ defs_at_idents (im_rti d) im_rfile.
Proof.
  intros Hd. split.
  - split; [| |intros o path H; by apply elem_of_nil in H].
    2:{ intros ptr o Hu Hk. apply tab_in in Hu. cbn in Hu. destruct Hu as [Hu|[Hu|[Hu|[]]]].
        - injection Hu as <- <-. by destruct (Hk "ex.org/p").
        - injection Hu as <- <-. split; [reflexivity|reflexivity|reflexivity|split; discriminate|done].
        - injection Hu as <- <-. split; [reflexivity|reflexivity|reflexivity|split; discriminate|done]. }
    split.
    + by eexists _, _, _, _, _.
    + intros decl m c Hdd Hm Hc.
      assert (H : forallb (λ decl, forallb (λ m, forallb (λ c, match c with NFuncDecl _ _ _ _ _ _ _ | NFile _ _ _ _ _ => false | _ => true end)
        (node_children m)) (subnodes decl)) (file_decls im_rfile) = true) by reflexivity.
      rewrite forallb_forall in H. specialize (H _ (proj1 (elem_of_list_In _ _) Hdd)).
      rewrite forallb_forall in H. specialize (H _ (proj1 (elem_of_list_In _ _) Hm)).
      rewrite forallb_forall in H. specialize (H _ (proj1 (elem_of_list_In _ _) Hc)). by destruct c.
    + intros decl Hdd. enum Hdd; by subst.
    + vm_compute; repeat (apply NoDup_cons; split; [intros H; enum H|]); constructor.
    + intros par i o path Hi Hu Hk.
      destruct (decide (id_ptr i = 411)) as [E|E].
      * right. enum Hi; injection Hi as <- <-; try discriminate. by eexists.
      * exfalso. apply tab_in in Hu. cbn in Hu.
        repeat (destruct Hu as [Hu|Hu]; [injection Hu as E' <-; try discriminate; congruence|]). done.
    + intros ptr o path [H|H] Hk; apply tab_in in H; cbn in H;
        repeat (destruct H as [H|H]; [injection H as _ <-; try discriminate; done|]); done.
    + intros i Hi. rewrite <- elem_of_node_idents in Hi. enum Hi; subst i; fits.
    + intros d' p e r nm t b H. enum H.
    + intros ptr nm p l path imp Hin Himp. enum Hin. injection Hin as <- <- <- <-.
      assert (imp = im_p ∨ imp = im_dep) as Hi. { unfold imports_of in Himp. cbn [p_imports im_r List.find fst snd] in Himp. destruct (String.eqb _ _); [|done].
        destruct Hd as [[-> ->]|[-> ->]]; vm_compute in Himp; injection Himp as <-; [by left|by right]. }
      destruct Hi as [-> | ->]; fits.
  - split.
    + intros i d' Hi Hdd. rewrite <- elem_of_node_idents in Hi. enum Hi; subst i; vm_compute in Hdd; try discriminate; injection Hdd as <-; reflexivity.
    + vm_compute; repeat (apply NoDup_cons; split; [intros H; enum H|]); constructor.
Qed.
Lemma im_loaded h proj : h = im_h ∨ h = im_hq → proj = im_all ∨ proj = im_proj → loaded_project h im_all proj.
Proof.
  intros Hh Hpr. split; [|split].
  - intros k q H%x_in. enum H; injection H as <- <-; destruct Hh as [-> | ->]; eexists _, _; by split_and!.
  - intros k q H%x_in. destruct Hpr as [-> | ->]; enum H; injection H as <- <-; destruct Hh as [-> | ->]; eexists _, _; by split_and!.
  - intros k q p H%x_in E. destruct Hpr as [-> | ->]; enum H; injection H as <- <-; destruct Hh as [-> | ->]; vm_compute in E; injection E as <-;
      eexists _, _; split; reflexivity || split; reflexivity.
Qed.
Lemma im_indexable : indexable (im_objs 0) x_fs im_h im_all im_all [im_p; im_r 0].
Proof.
  split; [apply im_loaded; by left| | |].
  - split.
    + split; [|split].
      * intros k. cbn [map p_path im_p im_r]. split.
        -- intros [->|[->|H%elem_of_nil]%elem_of_cons]%elem_of_cons; [| |done]; by eexists.
        -- intros [q H%x_in]. enum H; injection H as <- <-; [left|right; left].
      * cbn. apply NoDup_cons. split; [|apply NoDup_singleton]. intros H. enum H.
      * cbn. repeat constructor.
    + intros p Hp. apply elem_of_cons in Hp as [->|Hp]; [|apply elem_of_list_singleton in Hp as ->]; eexists; by split.
  - split.
    + intros p f Hp Hf. apply elem_of_cons in Hp as [->|Hp].
      * apply elem_of_list_singleton in Hf as ->. exists im_ti, "/src/p.go". destruct im_typed_p. by split_and!.
      * apply elem_of_list_singleton in Hp as ->. apply elem_of_list_singleton in Hf as ->. exists (im_rti 0), "/src/r/r.go".
        destruct (im_typed_r 0 im_h) as [H1 H2]; [by left|]. by split_and!.
    + intros i j p f q f' name Hi Hj Hf Hf'.
      assert (NoDup (map (λ e : gpkg * node, x_name (file_package_pos e.2)) (files_in_order [im_p; im_r 0]))) as Hnd.
      { vm_compute. repeat (apply NoDup_cons; split; [intros H; enum H|]). constructor. }
      eapply (NoDup_lookup _ i j (Some name) Hnd); rewrite list_lookup_fmap.
      * rewrite Hi. cbn. by f_equal.
      * rewrite Hj. cbn. by f_equal.
  - intros p f name i Hp Hf Hfn Hi. rewrite <- elem_of_node_idents in Hi. unfold file_of in Hfn.
    apply elem_of_cons in Hp as [->|Hp]; [|apply elem_of_list_singleton in Hp as ->]; apply elem_of_list_singleton in Hf as ->;
      vm_compute in Hfn; injection Hfn as <-; enum Hi; subst i; reflexivity.
Qed.
Lemma im_indexable_part : indexable (im_objs 9000) x_fs im_hq im_all im_proj [im_r 9000].
Proof.
  split; [apply im_loaded; by right| | |].
  - split.
    + split; [|split].
      * intros k. cbn [map p_path im_r]. split.
        -- intros ->%elem_of_list_singleton. by eexists.
        -- intros [q H%x_in]. enum H; injection H as <- <-; left.
      * apply NoDup_singleton.
      * cbn. repeat constructor.
    + intros p Hp. apply elem_of_list_singleton in Hp as ->; eexists; by split.
  - split.
    + intros p f Hp Hf. apply elem_of_list_singleton in Hp as ->. apply elem_of_list_singleton in Hf as ->. exists (im_rti 9000), "/src/r/r.go".
      destruct (im_typed_r 9000 im_hq) as [H1 H2]; [by right|]. by split_and!.
    + intros i j p f q f' name Hi Hj Hf Hf'. destruct i as [|i]; [|by destruct i]. destruct j as [|j]; [done|by destruct j].
  - intros p f name i Hp Hf Hfn Hi. rewrite <- elem_of_node_idents in Hi. unfold file_of in Hfn.
    apply elem_of_list_singleton in Hp as ->; apply elem_of_list_singleton in Hf as ->; vm_compute in Hfn; injection Hfn as <-; enum Hi; subst i; reflexivity.
Qed.
Definition im_run (h : pheap) (proj : ptab) (ks : list string) : list message * Index.outcome :=
  Index.index p_digest p_env x_fs h (λ o, o_name o) x_mo (λ _ _, None) x_impl "" "/src" "v1.0.0" false x_meta
    (LoadOk im_all proj) ks ["ex.org/r"; "ex.org/p"] ks.
Definition im_msgs : list message := (im_run im_h im_all ["ex.org/r"; "ex.org/p"]).1.
Definition im_part_msgs : list message := (im_run im_hq im_proj ["ex.org/r"]).1.
Lemma im_success : im_run im_h im_all ["ex.org/r"; "ex.org/p"] = (im_msgs, Returned None) ∧ im_run im_hq im_proj ["ex.org/r"] = (im_part_msgs, Returned None).
Proof. split; vm_compute; reflexivity. Qed.
Lemma im_key_order : key_order im_all ["ex.org/r"; "ex.org/p"].
Proof. unfold key_order. vm_compute. first [by constructor|apply Permutation_swap|repeat constructor]. Qed.
Lemma im_indexed : indexed IMP im_msgs.
Proof.
  eexists p_digest, (λ o, o_name o), x_mo, "/src", "v1.0.0", x_impl, "", ["ex.org/r"; "ex.org/p"], ["ex.org/r"; "ex.org/p"], ["ex.org/r"; "ex.org/p"], false, x_meta, (λ _ _, None).
  split; [apply im_indexable|]. split; [apply x_mo_ok|]. do 3 (split; [apply im_key_order|]). split; [|apply im_success].
  intros g g' k' exts _. unfold x_impl. intros [= <- <- <-]. split; [apply same_tables_refl|apply fresh_ok].
Qed.
Lemma im_indexed_part : indexed IMQ im_part_msgs.
Proof.
  eexists p_digest, (λ o, o_name o), x_mo, "/src", "v1.0.0", x_impl, "", ["ex.org/r"], ["ex.org/r"; "ex.org/p"], ["ex.org/r"], false, x_meta, (λ _ _, None).
  split; [apply im_indexable_part|]. split; [apply x_mo_ok|].
  split; [unfold key_order; vm_compute; repeat constructor|]. split; [apply im_key_order|]. split; [unfold key_order; vm_compute; repeat constructor|]. split; [|apply im_success].
  intros g g' k' exts _. unfold x_impl. intros [= <- <- <-]. split; [apply same_tables_refl|apply fresh_ok].
Qed.
Lemma im_declaration : declaration IMP im_p im_file (mk 3 "N" 31) (KeyMember "I" "N").
Proof.
  split; [left|left| | |discriminate|done|done|].
  - exists (NField "" "" [mk 3 "N" 31] (NFuncType 32 empty_fields empty_fields empty_fields)). split; [|exact I].
    eexists _, _, _, _, _, im_dI. split; [reflexivity|]. split; [left|].
    unfold im_dI. change (KeyMember "I" "N") with (KeyMember (id_name (mk 1 "I" 17)) (id_name (mk 3 "N" 31))).
    eapply dd_imethod; [left|left|left].
  - apply wf_pkgb_ok. vm_compute. reflexivity.
  - exists im_ti, (im_N 31). split; [done|]. split; [done|]. split; [done|]. intros o Ho. by apply elem_of_nil in Ho.
Qed.
Lemma im_used : used_in_both IMQ IMP (im_r 9000) im_rfile (mk 413 "N" 343) (im_N 9031) im_dep (im_r 0) im_p im_file (mk 3 "N" 31) (KeyMember "I" "N").
Proof.
  split; [| |exact im_declaration|done|done|done].
  - split; [left|left| |done|by split_and!| |].
    + exists (im_rti 9000), (NSelectorExpr im_sel (mk 413 "N" 343)). split; [done|]. split; [rewrite elem_of_list_In; vm_compute; tauto|]. split; [by left|].
      split; [done|]. intros c Hc. by apply elem_of_nil in Hc.
    + exists im_tpkg, 1. by repeat split.
    + intros i' Hi'. rewrite <- elem_of_node_idents in Hi'. enum Hi'; subst i'; done.
  - split; [right; left|left| |right].
    + exists (im_rti 0), (Some (NSelectorExpr im_sel (mk 413 "N" 343))), (im_N 31), im_tpkg. split; [done|]. split; [rewrite elem_of_list_In; vm_compute; tauto|].
      split; [split; [done|]; split; [|exact I]|].
      { intros o pp Hu. vm_compute in Hu. injection Hu as <-. discriminate. }
      split; [intros c Hc; by apply elem_of_nil in Hc|]. do 4 (split; [done|]). split; [done|]. split; [done|]. intros c Hc. by apply elem_of_nil in Hc.
    + intros i' Hi'. rewrite <- elem_of_node_idents in Hi'. enum Hi'; subst i'; done.
Qed.
Example C81_interface_method_example : ∃ s s', refers IMQ im_part_msgs (im_r 9000) im_rfile (mk 413 "N" 343) s ∧ refers IMP im_msgs (im_r 0) im_rfile (mk 413 "N" 343) s' ∧
  defines IMP im_msgs im_p im_file (mk 3 "N" 31) s' ∧ s ≠ s'.
Proof.
  eapply (C81_interface_method_refuted IMQ IMP im_part_msgs im_msgs (im_r 9000) im_rfile (mk 413 "N" 343) (im_N 9031) im_dep (im_r 0) im_p im_file (mk 3 "N" 31) "I" "N" p_mod im_tI (TName 1 (Some "ex.org/p") "I")).
  - exact im_indexed_part.
  - exact im_indexed.
  - exact im_used.
  - done.
  - by vm_compute.
  - done.
  - done.
  - constructor.
  - done.
Qed.
(** the two symbols *)
Example C81_interface_method_symbols :
  (option_map d_occs (documents im_part_msgs !! 0) ≫= last) = Some (Reference "scip-go gomod ex.org v1.0.0 `ex.org/p`/I#N()." [0; 141; 142]%Z false) ∧
  (option_map d_occs (documents im_msgs !! 1) ≫= last) = Some (Reference "scip-go gomod ex.org v1.0.0 `ex.org/p`/I#N." [0; 141; 142]%Z false).
Proof. split; vm_compute; reflexivity. Qed.
