(** Two repositories for C56.  In the first, module ex.org at /src, the package ex.org/p of ExOcc.v
    (which declares func F); in the second the module other.net, which requires ex.org v1.0.0:
    package r
    import "ex.org/p"
    var y = p.F *)
From Coq Require Import Ascii String.
From stdpp Require Import prelude strings gmap sorting.
From Verif Require Import GoStr Scip GoTypes Packages Symbols Document Lookup Pass1 Pass2 Paths
  Regex Semver SpecSemver P_Semver Loader Index Ast SpecSymbol SpecDecl SpecLookup SpecOcc SpecIndex
  P_Symbols P_Pass1 P_Link P_Lookup P_Pass2 P_Occ P_Scope P_Paths PropPaths P_Index PropDecl PropOcc PropIndex PropModule PropCross ExDecl ExOcc ExIndex.
Open Scope string_scope.
Open Scope list_scope.

(** *** the module ex.org *)
Definition a_raw_mod : gmodule := GMod "ex.org" "" "/src" "/src/go.mod" None.
Definition a_mod : gmodule := GMod "ex.org" "v1.0.0" "/src" "/src/go.mod" None.
Definition a_raw : gpkg := GPkg 1 "ex.org/p" "p" (Some a_raw_mod) [("fmt", 2)] [q_file] (Some q_tpkg) (Some q_ti).
Definition a_p : gpkg := GPkg 1 "ex.org/p" "p" (Some a_mod) [("fmt", 2)] [q_file] (Some q_tpkg) (Some q_ti).
Definition a_h : pheap := {[ 1 := a_p; 2 := fmt_pkg ]}.
Definition a_all : ptab := {[ "ex.org/p" := 1; "fmt" := 2 ]}.
Definition a_proj : ptab := {[ "ex.org/p" := 1 ]}.
Definition a_opts : index_opts := IOpts "/src" "v1.0.0" "ex.org" "go1.25" false false false [].
Definition a_world : world := World (λ _, GoModUnreadable) (λ _, None).
Definition A : project := Project p_env q_objs x_fs a_h a_all a_proj [a_p].

Lemma a_imports path : imports_of a_h a_p path = q_imports path.
Proof.
  unfold imports_of, q_imports. cbn [p_imports a_p List.find fst].
  rewrite (String.eqb_sym path "fmt"). destruct (String.eqb "fmt" path); reflexivity.
Qed.
Lemma a_typed : typed_file x_fs q_ti (imports_of a_h a_p) q_objs q_file.
Proof.
  destruct x_typed_p as [H1 H2 H3]. split; [|exact H2|exact H3]. destruct H1. split; try assumption.
  intros ptr nm p l path imp Hin Himp. rewrite a_imports, <- x_imports in Himp. eauto.
Qed.
Lemma a_indexable : indexable q_objs x_fs a_h a_all a_proj [a_p].
Proof.
  split.
  - split; [|split].
    + intros k q H%x_in. enum H; injection H as <- <-; eexists _, _; by split_and!.
    + intros k q H%x_in. enum H; injection H as <- <-; eexists _, _; by split_and!.
    + intros k q p H%x_in Hh. enum H; injection H as <- <-; vm_compute in Hh; injection Hh as <-;
        eexists _, _; split; reflexivity || split; reflexivity.
  - split.
    + split; [|split].
      * intros k. cbn [map p_path a_p]. split.
        -- intros ->%elem_of_list_singleton. by eexists.
        -- intros [q H%x_in]. enum H; injection H as <- <-; left.
      * apply NoDup_singleton.
      * cbn. repeat constructor.
    + intros p Hp. enum Hp; subst p; eexists; by split.
  - split.
    + intros p f Hp Hf. apply elem_of_list_singleton in Hp as ->. apply elem_of_list_singleton in Hf as ->.
      exists q_ti, "/src/p.go". split; [done|]. split; [apply a_typed|]. split; [apply q_defs_at|done].
    + intros i j p f q f' name Hi Hj Hf Hf'. destruct i as [|i]; [|by destruct i]. destruct j as [|j]; [done|by destruct j].
  - intros p f name i Hp Hf Hfn Hi. rewrite <- elem_of_node_idents in Hi.
    apply elem_of_list_singleton in Hp as ->. apply elem_of_list_singleton in Hf as ->. unfold file_of in Hfn. vm_compute in Hfn. injection Hfn as <-.
    enum Hi; subst i; reflexivity.
Qed.
Definition a_run : list message * Index.outcome :=
  Index.index p_digest p_env x_fs a_h (λ o, o_name o) x_mo (λ _ _, None) x_impl "" "/src" "v1.0.0" false x_meta
    (LoadOk a_all a_proj) ["ex.org/p"] ["fmt"; "ex.org/p"] ["ex.org/p"].
Definition a_msgs : list message := a_run.1.
Lemma a_success : a_run = (a_msgs, Returned None).
Proof. vm_compute. reflexivity. Qed.
Lemma a_indexed : indexed A a_msgs.
Proof.
  eexists p_digest, (λ o, o_name o), x_mo, "/src", "v1.0.0", x_impl, "", ["ex.org/p"], ["fmt"; "ex.org/p"], ["ex.org/p"], false, x_meta, (λ _ _, None).
  split; [apply a_indexable|]. split; [apply x_mo_ok|].
  split; [unfold key_order; vm_compute; repeat constructor|]. split; [unfold key_order; vm_compute; repeat constructor|].
  split; [unfold key_order; vm_compute; repeat constructor|]. split; [|exact a_success].
  intros g g' k' exts _. unfold x_impl. intros [= <- <- <-]. split; [apply same_tables_refl|apply fresh_ok].
Qed.
Lemma a_main : main_module a_opts a_raw a_raw_mod ∧ normalize_package a_opts a_world a_raw = Ok a_p.
Proof.
  split; [|vm_compute; reflexivity]. split; [by repeat split|]. do 4 (split; [done|]).
  assert (H : Forall name_ok ["src"]) by (repeat constructor; done).
  split; [right; by exists ["src"]|]. split; [right; by exists ["src"]|].
  exists ["src"], ["src"]. repeat (split; [done|]). left. by exists [].
Qed.
Lemma a_declaration : declaration A a_p q_file (mk 103 "F" 35) (KeyFunc "F").
Proof.
  split.
  - left.
  - left.
  - exists q_F. split; [|done]. exists 1%Z, false, "", (mk 100 "p" 9), [q_import; q_F], q_F. split; [done|]. split; [right; left|]. apply (dd_func _ _ _ (mk 103 "F" 35)).
  - apply wf_pkgb_ok. vm_compute. reflexivity.
  - done.
  - done.
  - done.
  - exists q_ti, o_F. split; [done|]. split; [done|]. split; [done|]. intros o Ho. by apply elem_of_nil in Ho.
Qed.

(** *** the module other.net *)
Definition b_mod : gmodule := GMod "other.net" "v0.1.0" "/home/b" "/home/b/go.mod" None.
Definition b_dep_mod : gmodule := GMod "ex.org" "v1.0.0" "/go/pkg/mod/ex.org@v1.0.0" "" None.
Definition b_tpkg : tpkg := TPkg "other.net/r" [].
Definition b_o_p : obj := Obj 420 "p" (Some b_tpkg) 319 (OPkgName "ex.org/p") (TBasic BInvalid false) None.
Definition b_y : obj := Obj 410 "y" (Some b_tpkg) 335 (OVar false) (TSig [] [] false) None.
(** F as export data describes it *)
Definition b_F : obj := Obj 203 "F" (Some q_tpkg) 9035 (OFunc (Some None)) (TSig [] [] false) None.
Definition b_objs (i : nat) : option obj := List.find (λ o, Nat.eqb (o_id o) i) [b_o_p; b_y; b_F].
Definition b_ti : tinfo := TInfo (tab [(410, b_y)]) (tab [(411, b_o_p); (412, b_F)]) (λ i, if Nat.eqb i 420 then Some b_o_p else None) [] (λ _, None) (λ _, "var y func()").
Definition b_dep : gpkg := GPkg 1 "ex.org/p" "p" (Some b_dep_mod) [] [] (Some q_tpkg) None.
Definition b_r : gpkg := GPkg 3 "other.net/r" "r" (Some b_mod) [("ex.org/p", 1)] [r_file2] (Some b_tpkg) (Some b_ti).
Definition b_h : pheap := {[ 1 := b_dep; 3 := b_r ]}.
Definition b_all : ptab := {[ "ex.org/p" := 1; "other.net/r" := 3 ]}.
Definition b_proj : ptab := {[ "other.net/r" := 3 ]}.
Definition b_opts : index_opts := IOpts "/src" "v0.1.0" "other.net" "go1.25" false false false [].
Definition B : project := Project p_env b_objs x_fs b_h b_all b_proj [b_r].
Lemma b_typed : typed_file x_fs b_ti (imports_of b_h b_r) b_objs r_file2 ∧ defs_at_idents b_ti r_file2.
Proof.
  split.
  - split; [| |intros o path H; by apply elem_of_nil in H].
    2:{ intros ptr o Hu Hk. apply tab_in in Hu. cbn in Hu. destruct Hu as [Hu|[Hu|[]]].
        - injection Hu as <- <-. by destruct (Hk "ex.org/p").
        - injection Hu as <- <-. split; [reflexivity|reflexivity|reflexivity|by split|done]. }
    split.
    + by eexists _, _, _, _, _.
    + intros decl m c Hd Hm Hc.
      assert (H : forallb (λ f, forallb (λ decl, forallb (λ m, forallb (λ c, match c with NFuncDecl _ _ _ _ _ _ _ | NFile _ _ _ _ _ => false | _ => true end)
        (node_children m)) (subnodes decl)) (file_decls f)) [r_file2] = true) by reflexivity.
      rewrite forallb_forall in H. specialize (H r_file2 (or_introl eq_refl)).
      rewrite forallb_forall in H. specialize (H _ (proj1 (elem_of_list_In _ _) Hd)).
      rewrite forallb_forall in H. specialize (H _ (proj1 (elem_of_list_In _ _) Hm)).
      rewrite forallb_forall in H. specialize (H _ (proj1 (elem_of_list_In _ _) Hc)). by destruct c.
    + intros decl Hd. enum Hd; by subst.
    + vm_compute; repeat (apply NoDup_cons; split; [intros H; enum H|]); constructor.
    + intros par i o path Hi Hu Hk.
      destruct (decide (id_ptr i = 411)) as [E|E].
      * right. enum Hi; injection Hi as <- <-; try discriminate. by eexists.
      * exfalso. apply tab_in in Hu. cbn in Hu.
        repeat (destruct Hu as [Hu|Hu]; [injection Hu as E' <-; try discriminate; congruence|]). done.
    + intros ptr o path [H|H] Hk; apply tab_in in H; cbn in H;
        repeat (destruct H as [H|H]; [injection H as _ <-; try discriminate; done|]); done.
    + intros i Hi. rewrite <- elem_of_node_idents in Hi. enum Hi; subst i; fits.
    + intros d p e r nm t b H. enum H.
    + intros ptr nm p l path imp Hin Himp.
      assert (imp = b_dep) as ->. { unfold imports_of in Himp. cbn [p_imports b_r List.find fst snd] in Himp. destruct (String.eqb _ _); [|done]. vm_compute in Himp. by injection Himp as <-. }
      enum Hin. injection Hin as <- <- <- <-. fits.
  - split.
    + intros i d Hi Hd. rewrite <- elem_of_node_idents in Hi. enum Hi; subst i; vm_compute in Hd; try discriminate; injection Hd as <-; reflexivity.
    + vm_compute; repeat (apply NoDup_cons; split; [intros H; enum H|]); constructor.
Qed.
Lemma b_indexable : indexable b_objs x_fs b_h b_all b_proj [b_r].
Proof.
  split.
  - split; [|split].
    + intros k q H%x_in. enum H; injection H as <- <-; eexists _, _; by split_and!.
    + intros k q H%x_in. enum H; injection H as <- <-; eexists _, _; by split_and!.
    + intros k q p H%x_in Hh. enum H; injection H as <- <-; vm_compute in Hh; injection Hh as <-;
        eexists _, _; split; reflexivity || split; reflexivity.
  - split.
    + split; [|split].
      * intros k. cbn [map p_path b_r]. split.
        -- intros ->%elem_of_list_singleton. by eexists.
        -- intros [q H%x_in]. enum H; injection H as <- <-; left.
      * apply NoDup_singleton.
      * cbn. repeat constructor.
    + intros p Hp. enum Hp; subst p; eexists; by split.
  - split.
    + intros p f Hp Hf. apply elem_of_list_singleton in Hp as ->. apply elem_of_list_singleton in Hf as ->.
      exists b_ti, "/src/r/r.go". destruct b_typed. split; [done|]. split; [done|]. split; done.
    + intros i j p f q f' name Hi Hj Hf Hf'. destruct i as [|i]; [|by destruct i]. destruct j as [|j]; [done|by destruct j].
  - intros p f name i Hp Hf Hfn Hi. rewrite <- elem_of_node_idents in Hi.
    apply elem_of_list_singleton in Hp as ->. apply elem_of_list_singleton in Hf as ->. unfold file_of in Hfn. vm_compute in Hfn. injection Hfn as <-.
    enum Hi; subst i; reflexivity.
Qed.
Definition b_run : list message * Index.outcome :=
  Index.index p_digest p_env x_fs b_h (λ o, o_name o) x_mo (λ _ _, None) x_impl "" "/src" "v0.1.0" false x_meta
    (LoadOk b_all b_proj) ["other.net/r"] ["other.net/r"; "ex.org/p"] ["other.net/r"].
Definition b_msgs : list message := b_run.1.
Lemma b_success : b_run = (b_msgs, Returned None).
Proof. vm_compute. reflexivity. Qed.
Lemma b_indexed : indexed B b_msgs.
Proof.
  eexists p_digest, (λ o, o_name o), x_mo, "/src", "v0.1.0", x_impl, "", ["other.net/r"], ["other.net/r"; "ex.org/p"], ["other.net/r"], false, x_meta, (λ _ _, None).
  split; [apply b_indexable|]. split; [apply x_mo_ok|].
  split; [unfold key_order; vm_compute; repeat constructor|]. split; [unfold key_order; vm_compute; repeat constructor|].
  split; [unfold key_order; vm_compute; repeat constructor|]. split; [|exact b_success].
  intros g g' k' exts _. unfold x_impl. intros [= <- <- <-]. split; [apply same_tables_refl|apply fresh_ok].
Qed.
Lemma b_use : dependency_use B b_r r_file2 (mk 412 "F" 341) b_F b_dep.
Proof.
  split.
  - left.
  - left.
  - exists b_ti, r_sel. split; [done|]. split; [rewrite elem_of_list_In; vm_compute; tauto|]. split.
    + right. right. exists (mk 411 "p" 339), (mk 412 "F" 341), b_o_p, "ex.org/p". split; [done|]. split; [done|]. split; [done|]. by eexists.
    + split; [done|]. intros c Hc. by apply elem_of_nil in Hc.
  - done.
  - done.
  - exists q_tpkg, 1. by repeat split.
  - intros i' Hi'. rewrite <- elem_of_node_idents in Hi'. enum Hi'; subst i'; done.
Qed.
Example C56_example : ∃ s, defines A a_msgs a_p q_file (mk 103 "F" 35) s ∧ refers B b_msgs b_r r_file2 (mk 412 "F" 341) s.
Proof.
  destruct a_main as [HA NA].
  eapply (C56_cross_repository A a_msgs a_opts a_world a_raw a_raw_mod a_p q_file (mk 103 "F" 35) (KeyFunc "F")
    B b_msgs b_opts a_world b_dep b_dep_mod b_dep b_r r_file2 (mk 412 "F" 341) b_F).
  - apply a_indexed.
  - apply b_indexed.
  - done.
  - done.
  - apply a_declaration.
  - by repeat split.
  - vm_compute. reflexivity.
  - apply b_use.
  - done.
  - done.
  - apply N_keep; [done| |].
    + rewrite <- is_pseudo_iff. vm_compute. done.
    + rewrite <- has_build_iff. vm_compute. tauto.
  - split; [done|]. exists q_tpkg. done.
Qed.
