(** A whole project with implementations, for C57 and for the theorems of PropImpl about a whole run.
      package p
      type I interface { N() }
      type T struct { }
      func (T) N() { }

      package fmt (a dependency)
      type Buf struct{}
      func ( *Buf) N() {} *)
From Coq Require Import Ascii String.
From stdpp Require Import prelude strings gmap sorting.
From Verif Require Import GoStr Scip GoTypes Ast Packages Symbols Document Lookup Pass1 Pass2 Paths Loader Index
  SpecSymbol SpecDecl SpecLookup SpecOcc SpecIndex P_Symbols P_Pass1 P_Lookup P_Pass2 P_Occ P_Index PropIndex
  Quote Fingerprint SpecTypes P_Finger PropFinger Impls P_Rel P_Ident SpecImpl P_Filter P_Mem P_Extract P_Impl PropImpl PropDet ExDecl ExOcc ExIndex ExImpl.
Open Scope string_scope.
Open Scope list_scope.

Definition y_dI : node := NGenDecl 12 TYPE "" [NTypeSpec "" (mk 1 "I" 17) empty_fields
   (NInterfaceType 2 19 (NFieldList [NField "" "" [mk 3 "N" 31] (NFuncType 32 empty_fields empty_fields empty_fields)]))].
Definition y_dT : node := NGenDecl 41 TYPE "" [NTypeSpec "" (mk 4 "T" 46) empty_fields (NStructType 5 48 empty_fields)].
Definition y_dN : node := NFuncDecl "" 60 80 (Some (NFieldList [NField "" "" [] (NIdent (mk 6 "T" 66))]))
   (mk 7 "N" 69) (NFuncType 60 empty_fields empty_fields empty_fields) (Some (NBlockStmt 74 [])).
Definition y_file : node := NFile 1 false "" (mk 0 "p" 9) [y_dI; y_dT; y_dN].
Definition y_I := w_type 1 "I" w_p 17.
Definition y_T := w_type 2 "T" w_p 46.
Definition y_Buf := w_type 3 "Buf" w_fmt 920.
Definition y_I_N := w_meth 4 "N" w_p 31 (o_type y_I) w_void.
Definition y_T_N := w_meth 5 "N" w_p 69 (o_type y_T) w_void.
Definition y_Buf_N := w_meth 6 "N" w_fmt 921 (TPointer (o_type y_Buf)) w_void.
Definition y_objects : list obj := [y_I; y_T; y_Buf; y_I_N; y_T_N; y_Buf_N].
Definition y_objs (i : nat) : option obj := List.find (λ o, Nat.eqb (o_id o) i) y_objects.
Definition y_defs : list (nat * obj) := [(1, y_I); (3, y_I_N); (4, y_T); (7, y_T_N)].
Definition y_ti : tinfo := TInfo (tab y_defs) (tab [(6, y_T)]) (λ _, None) [] (λ _, None) (λ _, "sig").
Definition y_p : gpkg := GPkg 1 "ex.org/p" "p" (Some w_mod) [] [y_file] (Some w_p) (Some y_ti).
Definition y_h : pheap := {[1 := y_p; 3 := w_pkg_fmt]}.
Definition y_all : ptab := {["ex.org/p" := 1; "fmt" := 3]}.
Definition y_proj : ptab := {["ex.org/p" := 1]}.
Definition y_env : tenv := λ tn _, if Nat.eqb (tn_id tn) 1 then TInterface [("N", w_void)] "" else TStruct [].
Definition y_mset_of (id : nat) : list obj := match id with 1 => [y_I_N] | 2 => [y_T_N] | _ => [] end.
Definition y_pmset_of (id : nat) : list obj := match id with 2 => [y_T_N] | 3 => [y_Buf_N] | _ => [] end.
Definition y_mset (t : ty) : list obj :=
  match t with TNamed tn _ => y_mset_of (tn_id tn) | TPointer (TNamed tn _) => y_pmset_of (tn_id tn) | _ => [] end.
Definition y_scope (p : gpkg) : list obj := if String.eqb (p_path p) "fmt" then [y_Buf] else [].

Lemma y_object o : o ∈ y_objects → go_object y_objs o.
Proof. intros H. enum H; subst o; (split; [reflexivity|reflexivity|reflexivity|split; discriminate|intros p; discriminate]). Qed.
Lemma y_mset_cases t m : m ∈ y_mset t → m ∈ y_objects.
Proof.
  assert (H1 : ∀ n, y_mset_of n ⊆ y_objects).
  { intros n. do 4 (destruct n as [|n]; [apply list_subseteq_nil || (intros x Hx; enum Hx; subst x; apply elem_of_list_In; vm_compute; tauto)|]). apply list_subseteq_nil. }
  assert (H2 : ∀ n, y_pmset_of n ⊆ y_objects).
  { intros n. do 4 (destruct n as [|n]; [apply list_subseteq_nil || (intros x Hx; enum Hx; subst x; apply elem_of_list_In; vm_compute; tauto)|]). apply list_subseteq_nil. }
  destruct t; cbn [y_mset]; try (by intros ?%elem_of_nil); [apply H1|]. destruct t; try (by intros ?%elem_of_nil). apply H2.
Qed.
Lemma y_methods : method_sets y_env y_mset y_objs.
Proof.
  split.
  - intros t. destruct t; try constructor; cbn [y_mset].
    + destruct tn as [n ? ?]; cbn [tn_id]. do 4 (destruct n as [|n]; [vm_compute; repeat constructor; set_solver|]). constructor.
    + destruct t; try constructor. destruct tn as [n ? ?]; cbn [tn_id]. do 4 (destruct n as [|n]; [vm_compute; repeat constructor; set_solver|]). constructor.
  - intros [n ? ?] args m. unfold is_interface. cbn [underlying y_env tn_id y_mset]. intros Hi.
    do 4 (destruct n as [|n]; [try discriminate Hi; (intros ?%elem_of_nil; done) || (intros Hm; apply elem_of_list_singleton in Hm; subst m; apply elem_of_list_In; vm_compute; tauto)|]).
    by intros ?%elem_of_nil.
  - intros [n ? ?] args ms s. cbn [y_env tn_id y_mset]. intros Hi.
    do 4 (destruct n as [|n]; [try discriminate Hi; injection Hi as <- <-; reflexivity|]). discriminate Hi.
  - intros t m Hm. by apply y_object, (y_mset_cases t).
Qed.
Lemma y_proj_in k q : y_proj !! k = Some q → k = "ex.org/p" ∧ q = 1.
Proof. unfold y_proj. rewrite lookup_singleton_Some. intros [<- <-]; tauto. Qed.
Lemma y_all_in k q : y_all !! k = Some q → k = "ex.org/p" ∧ q = 1 ∨ k = "fmt" ∧ q = 3.
Proof. unfold y_all. rewrite !lookup_insert_Some, lookup_singleton_Some. intros [[<- <-]|[_ [<- <-]]]; tauto. Qed.
Lemma y_dependencies : dependencies y_all y_proj w_deps.
Proof.
  intros key q. unfold w_deps. rewrite lookup_singleton_Some. split.
  - intros [<- <-]. split; reflexivity.
  - intros [H1 H2]. destruct (y_all_in _ _ H1) as [[-> ->]|[-> ->]]; done.
Qed.
Lemma y_analysable : analysable y_env y_mset y_objs y_scope y_h y_all y_proj.
Proof.
  split.
  - apply y_methods.
  - intros k q H. destruct (y_all_in _ _ H) as [[-> ->]|[-> ->]]; eexists _, _; split; [reflexivity|done|reflexivity|done].
  - intros k q H. destruct (y_proj_in _ _ H) as [-> ->]; eexists _, _, _; (split; [reflexivity|done]).
  - intros k q p o H Hn Hp Ho. destruct (y_all_in _ _ H) as [[-> ->]|[-> ->]]; [done|]. injection Hp as <-.
    enum Ho; subst o; (split; [apply y_object, elem_of_list_In; vm_compute; tauto|by eexists]).
Qed.

Lemma y_wf : wf_file x_fs y_ti (imports_of y_h y_p) y_file.
Proof.
  split.
  - by eexists _, _, _, _, _.
  - intros decl m c Hd Hm Hc.
    assert (H : forallb (λ decl, forallb (λ m, forallb (λ c, match c with NFuncDecl _ _ _ _ _ _ _ | NFile _ _ _ _ _ => false | _ => true end)
       (node_children m)) (subnodes decl)) (file_decls y_file) = true) by reflexivity.
    rewrite forallb_forall in H. specialize (H _ (proj1 (elem_of_list_In _ _) Hd)).
    rewrite forallb_forall in H. specialize (H _ (proj1 (elem_of_list_In _ _) Hm)).
    rewrite forallb_forall in H. specialize (H _ (proj1 (elem_of_list_In _ _) Hc)). by destruct c.
  - intros decl Hd. enum Hd; by subst.
  - vm_compute. repeat (apply NoDup_cons; split; [intros H; enum H|]). constructor.
  - intros par i o path Hi Hu Hk. exfalso. apply tab_in in Hu. cbn in Hu.
    repeat (destruct Hu as [Hu|Hu]; [injection Hu as E' <-; discriminate|]). done.
  - intros ptr o path [H|H] Hk; apply tab_in in H; cbn in H;
      repeat (destruct H as [H|H]; [injection H as _ <-; try discriminate; done|]); done.
  - intros i Hi. rewrite <- elem_of_node_idents in Hi. enum Hi; subst i; fits.
  - intros d p e r nm t b H. enum H. injection H as <- <- <- <- <- <- <-. fits.
  - intros ptr nm p l path imp Hin Himp. enum Hin.
Qed.
Lemma y_typed : typed_file x_fs y_ti (imports_of y_h y_p) y_objs y_file.
Proof.
  split; [apply y_wf| |intros o path H; by apply elem_of_nil in H].
  intros ptr o Hu Hk. apply tab_in in Hu. cbn in Hu. destruct Hu as [[= <- <-]|[]]. apply y_object. right. by left.
Qed.
Lemma y_defs_at : defs_at_idents y_ti y_file.
Proof.
  split.
  - intros i d Hi Hd. rewrite <- elem_of_node_idents in Hi. enum Hi; subst i; vm_compute in Hd; try discriminate; injection Hd as <-; reflexivity.
  - vm_compute. repeat (apply NoDup_cons; split; [intros H; enum H|]). constructor.
Qed.
Lemma y_indexable : indexable y_objs x_fs y_h y_all y_proj [y_p].
Proof.
  split.
  - split; [|split].
    + intros k q H. destruct (y_all_in _ _ H) as [[-> ->]|[-> ->]]; eexists _, _; by split_and!.
    + intros k q H. destruct (y_proj_in _ _ H) as [-> ->]; eexists _, _; by split_and!.
    + intros k q p H Hh. destruct (y_proj_in _ _ H) as [-> ->]. injection Hh as <-. by eexists _, _.
  - split.
    + split; [|split].
      * intros k. cbn [map p_path y_p]. split; [intros ->%elem_of_list_singleton; by eexists|].
        intros [q H]. destruct (y_proj_in _ _ H) as [-> _]. left.
      * apply NoDup_singleton.
      * repeat constructor.
    + intros p ->%elem_of_list_singleton. by eexists.
  - split.
    + intros p f ->%elem_of_list_singleton ->%elem_of_list_singleton. exists y_ti, "/src/p.go".
      split; [done|]. split; [apply y_typed|]. split; [apply y_defs_at|done].
    + intros i j p f q f' name Hi Hj _ _. apply lookup_lt_Some in Hi, Hj. cbn in Hi, Hj. lia.
  - intros p f name i ->%elem_of_list_singleton ->%elem_of_list_singleton Hfn Hi. rewrite <- elem_of_node_idents in Hi.
    unfold file_of in Hfn. vm_compute in Hfn. injection Hfn as <-. enum Hi; subst i; reflexivity.
Qed.

(** two ways of iterating over the maps *)
Definition y_o : orders :=
  Orders (λ t, map fst (map_to_list t)) (λ p, match p_info p with Some _ => map snd y_defs | None => [] end)
    (λ _ d, map_to_list d) (λ _ _ d, map_to_list d) (λ _ _ _ d, map_to_list d) (λ _ _ d, map_to_list d) (λ d, map_to_list d).
Definition y_o' : orders :=
  Orders (λ t, reverse (map fst (map_to_list t))) (λ p, reverse (or_defs y_o p))
    (λ _ d, reverse (map_to_list d)) (λ _ _ d, reverse (map_to_list d)) (λ _ _ _ d, reverse (map_to_list d)) (λ _ _ d, reverse (map_to_list d)) (λ d, reverse (map_to_list d)).
Definition y_it : iteration := Iteration x_mo y_o ["ex.org/p"] ["ex.org/p"; "fmt"] ["ex.org/p"].
Definition y_it' : iteration :=
  Iteration (MapOrders (λ _ t, reverse (map_to_list t)) (λ _ l, reverse (map_to_list l))) y_o' ["ex.org/p"] ["fmt"; "ex.org/p"] ["ex.org/p"].
Lemma y_heap q p : y_h !! q = Some p → p = y_p ∨ p = w_pkg_fmt.
Proof. unfold y_h. rewrite !lookup_insert_Some, lookup_singleton_Some. naive_solver. Qed.
Lemma y_iterations : iteration_ok y_h y_all y_proj y_it ∧ iteration_ok y_h y_all y_proj y_it'.
Proof.
  assert (X : ∀ q p ti ob, y_h !! q = Some p → p_info p = Some ti → ob ∈ or_defs y_o p ↔ ∃ i, ti_defs ti i = Some ob).
  { intros q p ti ob Hq Hp. destruct (y_heap _ _ Hq) as [->| ->]; [|done]; injection Hp as <-; cbn [y_ti ti_defs]; split.
    - intros H. enum H; subst ob; [by exists 1|by exists 3|by exists 4|by exists 7].
    - intros [i H]. apply tab_in in H. apply elem_of_list_In, (List.in_map snd _ _ H). }
  assert (K : ["ex.org/p"; "fmt"] ≡ₚ map fst (map_to_list y_all)).
  { apply NoDup_Permutation; [|apply NoDup_fst_map_to_list|].
    - repeat (apply NoDup_cons; split; [intros H; enum H|]). constructor.
    - intros k. rewrite !elem_of_list_In. vm_compute. tauto. }
  assert (K1 : key_order y_proj ["ex.org/p"]) by (unfold key_order; vm_compute; repeat constructor).
  split; (split; [split; intros; try done; apply reverse_Permutation|]); (split; [|split; [exact K1|split; [|exact K1]]]).
  - split; [split; intros; done|]. intros q p ti ob Hq Hp. by eapply X.
  - exact K.
  - split; [split; intros; try done; apply reverse_Permutation|]. intros q p ti ob Hq Hp. cbn [y_it' it_search y_o' or_defs]. rewrite elem_of_reverse. by eapply X.
  - unfold key_order. rewrite <- K. apply (reverse_Permutation ["ex.org/p"; "fmt"]).
Qed.

(** the tables of the first pass *)
Definition y_tbl : ptable :=
  match visit_package_table p_digest y_ti x_fs y_env y_p with
  | Ok t => pset t 9 (Info (package_symbol w_mod "ex.org/p") (find_package_docs x_fs y_p) [] KPackage "p" (Some ("package " +:+ "p")) "")
  | Panic _ => ∅ end.
Lemma y_recorded g : tables_ok p_digest y_env x_fs y_h y_all [y_p] g → ∀ pos i, recorded g "ex.org/p" pos i → y_tbl !! pos = Some i.
Proof.
  intros Ht pos i (p & t & Hg & Hi). destruct (tk_proj _ _ _ _ _ _ _ Ht y_p) as (t' & Hg' & Hp); [left|].
  cbn [p_path y_p] in Hg'. rewrite Hg in Hg'. injection Hg' as -> <-. unfold pass1_table in Hp. cbn [p_syntax y_p p_info] in Hp.
  destruct Hp as (tbl0 & m & H1 & H2 & ->). injection H2 as <-. unfold y_tbl. fold y_p in H1. rewrite H1. exact Hi.
Qed.
Notation y_candidate g := (candidate y_env y_mset w_level y_scope "/src" "v1" y_h g).
Notation y_distinct g := (distinct_symbols y_env y_mset w_level y_scope "/src" "v1" y_h g).
Lemma y_proj_cands g c : tables_ok p_digest y_env x_fs y_h y_all [y_p] g → y_candidate g y_proj c →
  c = Cand y_p y_I "scip-go gomod ex.org v1 `ex.org/p`/I#" ∨ c = Cand y_p y_T "scip-go gomod ex.org v1 `ex.org/p`/T#".
Proof.
  intros Ht [key q p ti i o tn args info H1 H2 H3 H4 H5 H6 H7 H8 H9 H10|key q p tp o tn args H1 H2 H3 H4 H5 H6 H7 H8 H9 H10 H11];
    destruct (y_proj_in _ _ H1) as [-> ->]; injection H2 as <-; [|done]. injection H4 as <-. cbn [y_ti ti_defs] in H5. apply tab_in in H5.
  apply (y_recorded g Ht) in H9. cbn [In y_defs] in H5. repeat destruct H5 as [[= <- <-]|H5]; try done; vm_compute in H9; injection H9 as <-; [by left|by right].
Qed.
Lemma y_deps_cands g c : y_candidate g w_deps c → c = Cand w_pkg_fmt y_Buf (composed y_env "/src" "v1" w_pkg_fmt y_Buf).
Proof.
  intros [key q p ti i o tn args info H1 H2 H3 H4 H5 H6 H7 H8 H9 H10|key q p tp o tn args H1 H2 H3 H4 H5 H6 H7 H8 H9 H10 H11];
    unfold w_deps in H1; apply lookup_singleton_Some in H1 as [<- <-]; injection H2 as <-; [done|].
  apply elem_of_list_singleton in H6. by subst o.
Qed.
Lemma y_all_distinct g : tables_ok p_digest y_env x_fs y_h y_all [y_p] g → y_distinct g y_proj ∧ y_distinct g w_deps.
Proof.
  intros Ht. split; intros c c' H1 H2 E.
  - destruct (y_proj_cands g c Ht H1) as [->| ->], (y_proj_cands g c' Ht H2) as [->| ->]; try done; vm_compute in E; discriminate E.
  - by rewrite (y_deps_cands g c H1), (y_deps_cands g c' H2).
Qed.

Definition y_run (it : iteration) : list message * Index.outcome :=
  Index.index p_digest y_env x_fs y_h (λ o, o_name o) (it_maps it) (λ _ _, None)
    (impl_phase y_env x_u w_crc y_mset w_cok w_level y_scope (it_search it) y_h y_proj y_all) "" "/src" "v1" false x_meta
    (LoadOk y_all y_proj) (it_proj it) (it_all it) (it_proj2 it).
Definition y_view (r : list message * Index.outcome) : list (list (string * list string)) * list (string * list string) * Index.outcome :=
  let rels := map (λ i, (i_symbol i, map r_symbol (i_relationships i))) in
  (map (λ d, rels (d_symbols d)) (documents r.1), rels (externals r.1), r.2).
(** The two runs list the symbols in different orders; the external symbol is fmt.Buf. *)
Example y_runs :
  let p s := "scip-go gomod ex.org v1 `ex.org/p`/" +:+ s in
  let exts := [("scip-go gomod github.com/golang/go/src go1.25 fmt/Buf#", [p "I#"])] in
  y_view (y_run y_it) = ([[(p "T#", [p "I#"]); (p "", []); (p "I#", []); (p "T#N().", [p "I#N."]); (p "I#N.", [])]], exts, Returned None) ∧
  y_view (y_run y_it') = ([[(p "I#N.", []); (p "T#N().", [p "I#N."]); (p "I#", []); (p "", []); (p "T#", [p "I#"])]], exts, Returned None).
Proof. vm_compute. split; reflexivity. Qed.
Lemma y_success it : y_run it = ((y_run it).1, (y_run it).2).
Proof. by destruct (y_run it). Qed.
Example C57_example : same_index (y_run y_it).1 (y_run y_it').1.
Proof.
  destruct y_iterations as [I1 I2].
  eapply (C57_deterministic p_digest y_env x_u w_crc y_mset w_cok y_objs w_level y_scope x_fs (λ o, o_name o) "/src" "v1" y_h y_all y_proj [y_p]
    y_indexable y_analysable "" false x_meta y_it y_it' (λ _ _, None) (λ _ _, None) w_deps _ _ I1 I2 y_dependencies y_all_distinct).
  - assert (E : (y_run y_it).2 = Returned None) by (vm_compute; reflexivity). rewrite <- E. apply (y_success y_it).
  - assert (E : (y_run y_it').2 = Returned None) by (vm_compute; reflexivity). rewrite <- E. apply (y_success y_it').
Qed.
(** the whole-run theorems of PropImpl apply to it *)
Example C34_documents_example : ∃ g0, tables_ok p_digest y_env x_fs y_h y_all [y_p] g0 ∧
  ext_spec y_env y_mset w_cok w_level y_scope "/src" "v1" y_h g0 y_proj w_deps (externals (y_run y_it).1).
Proof.
  destruct y_iterations as [(H1 & H2 & H3 & H4 & H5) _].
  destruct (C34_documents y_env x_u w_crc y_mset w_cok y_objs w_level y_scope "/src" "v1" y_h y_all y_proj y_analysable p_digest x_fs (λ o, o_name o) x_mo [y_p] ""
    ["ex.org/p"] ["ex.org/p"; "fmt"] ["ex.org/p"] x_meta (λ _ _, None) y_o y_indexable H1 H3 H4 H5 H2 w_deps (y_run y_it).1 y_dependencies) as (g0 & Ht & H).
  { assert (E : (y_run y_it).2 = Returned None) by (vm_compute; reflexivity). rewrite <- E. apply (y_success y_it). }
  exists g0. split; [done|]. destruct (y_all_distinct g0 Ht) as [D1 D2]. by apply (H D1 D2).
Qed.
