(** A concrete program for the theorems of PropImpl, and what the search does not find.
      package p
      type I interface { m() }
      type Base struct{}
      func (Base) m() {}
      type J interface { F() }
      type E struct { J }

      package q
      type T struct { p.Base }
      func ( *T) F() {}
      func ( *T) String() string

      package fmt (a dependency)
      type Stringer interface { String() string }
      type Buf struct{}
      func ( *Buf) F() {}
      func ( *Buf) String() string *)
From Coq Require Import Ascii String.
From stdpp Require Import prelude strings gmap sorting.
From Verif Require Import GoStr Scip GoTypes Ast Packages Symbols Document Lookup Pass1 Pass2 Paths Loader Index
  SpecSymbol SpecDecl SpecLookup SpecOcc SpecIndex P_Symbols P_Lookup P_Index PropIndex
  Quote Fingerprint SpecTypes P_Finger PropFinger Impls P_Rel P_Ident SpecImpl P_Filter P_Mem P_Extract P_Impl PropImpl ExDecl ExOcc.
Open Scope string_scope.
Open Scope list_scope.

Definition w_p : tpkg := TPkg "ex.org/p" [].
Definition w_q : tpkg := TPkg "ex.org/q" [].
Definition w_fmt : tpkg := TPkg "fmt" [].
Definition w_tn (id : nat) (pkg name : string) : ty := TNamed (TName id (Some pkg) name) [].
Definition w_void : ty := TSig [] [] false.
Definition w_str : ty := TSig [] [TBasic BString false] false.
Definition w_type (id : nat) (name : string) (p : tpkg) (pos : Z) : obj := Obj id name (Some p) pos OTypeName (w_tn id (tp_path p) name) None.
Definition w_meth (id : nat) (name : string) (p : tpkg) (pos : Z) (recv sig : ty) : obj := Obj id name (Some p) pos (OFunc (Some (Some recv))) sig None.

Definition w_I := w_type 1 "I" w_p 10.
Definition w_Base := w_type 2 "Base" w_p 20.
Definition w_J := w_type 3 "J" w_p 30.
Definition w_E := w_type 14 "E" w_p 50.
Definition w_T := w_type 7 "T" w_q 40.
Definition w_Stringer := w_type 10 "Stringer" w_fmt 910.
Definition w_Buf := w_type 12 "Buf" w_fmt 920.
Definition w_I_m := w_meth 4 "m" w_p 11 (o_type w_I) w_void.
Definition w_Base_m := w_meth 5 "m" w_p 21 (o_type w_Base) w_void.
Definition w_J_F := w_meth 6 "F" w_p 31 (o_type w_J) w_void.
Definition w_T_F := w_meth 8 "F" w_q 41 (TPointer (o_type w_T)) w_void.
Definition w_T_S := w_meth 9 "String" w_q 42 (TPointer (o_type w_T)) w_str.
Definition w_Str_S := w_meth 11 "String" w_fmt 911 (o_type w_Stringer) w_str.
Definition w_Buf_F := w_meth 13 "F" w_fmt 921 (TPointer (o_type w_Buf)) w_void.
Definition w_Buf_S := w_meth 15 "String" w_fmt 922 (TPointer (o_type w_Buf)) w_str.

Definition w_env : tenv := λ tn _,
  match tn_id tn with
  | 1 => TInterface [("ex.org/p.m", w_void)] ""
  | 3 => TInterface [("F", w_void)] ""
  | 10 => TInterface [("String", w_str)] ""
  | _ => TStruct []
  end.
(** the method sets of types and of pointers to them *)
Definition w_mset_of (id : nat) : list obj :=
  match id with 1 => [w_I_m] | 2 => [w_Base_m] | 3 => [w_J_F] | 7 => [w_Base_m] | 10 => [w_Str_S] | 14 => [w_J_F] | _ => [] end.
Definition w_pmset_of (id : nat) : list obj :=
  match id with 2 => [w_Base_m] | 7 => [w_T_F; w_T_S; w_Base_m] | 12 => [w_Buf_F; w_Buf_S] | 14 => [w_J_F] | _ => [] end.
Definition w_mset (t : ty) : list obj :=
  match t with
  | TNamed tn _ => w_mset_of (tn_id tn)
  | TPointer (TNamed tn _) => w_pmset_of (tn_id tn)
  | _ => []
  end.
Definition w_objects : list obj :=
  [w_I; w_Base; w_J; w_E; w_T; w_Stringer; w_Buf; w_I_m; w_Base_m; w_J_F; w_T_F; w_T_S; w_Str_S; w_Buf_F; w_Buf_S].
Definition w_objs (i : nat) : option obj := List.find (λ o, Nat.eqb (o_id o) i) w_objects.
Definition w_pdefs : list (nat * obj) := [(101, w_I); (102, w_Base); (103, w_J); (104, w_I_m); (105, w_Base_m); (106, w_J_F); (114, w_E)].
Definition w_qdefs : list (nat * obj) := [(107, w_T); (108, w_T_F); (109, w_T_S)].
Definition w_ti (defs : list (nat * obj)) : tinfo := TInfo (tab defs) (λ _, None) (λ _, None) [] (λ _, None) (λ _, "").
Definition w_mod : gmodule := GMod "ex.org" "v1" "/src" "" None.
Definition w_pkg_p : gpkg := GPkg 1 "ex.org/p" "p" (Some w_mod) [] [] (Some w_p) (Some (w_ti w_pdefs)).
Definition w_pkg_q : gpkg := GPkg 2 "ex.org/q" "q" (Some w_mod) [] [] (Some w_q) (Some (w_ti w_qdefs)).
Definition w_pkg_fmt : gpkg := GPkg 3 "fmt" "fmt" (Some fmt_mod) [] [] (Some w_fmt) None.
Definition w_h : pheap := {[1 := w_pkg_p; 2 := w_pkg_q; 3 := w_pkg_fmt]}.
Definition w_all : ptab := {["ex.org/p" := 1; "ex.org/q" := 2; "fmt" := 3]}.
Definition w_proj : ptab := {["ex.org/p" := 1; "ex.org/q" := 2]}.
Definition w_deps : ptab := {["fmt" := 3]}.
Definition w_level (p : gpkg) (o : obj) : bool := is_type_name o.
Definition w_scope (p : gpkg) : list obj := if String.eqb (p_path p) "fmt" then [w_Buf; w_Stringer] else [].
Definition w_sym (p : gpkg) (o : obj) : string := composed w_env "root" "v0" p o.
Definition w_table (p : gpkg) (l : list (nat * obj)) : ptable :=
  list_to_map (map (λ d : nat * obj, (o_pos d.2, Info (w_sym p d.2) [] [] KUnspecified "" None "")) l).
Definition w_g : global :=
  Global {["ex.org/p" := (w_pkg_p, w_table w_pkg_p w_pdefs); "ex.org/q" := (w_pkg_q, w_table w_pkg_q w_qdefs); "fmt" := (w_pkg_fmt, ∅)]} ∅.
Definition w_crc (s : string) : N := N.of_nat (slen s).
Definition w_cok (t i : ty) : bool := true.
Definition w_o : orders :=
  Orders (λ t, map fst (map_to_list t)) (λ p, match p_info p with Some _ => map snd (if String.eqb (p_path p) "ex.org/p" then w_pdefs else w_qdefs) | None => [] end)
    (λ _ d, map_to_list d) (λ _ _ d, map_to_list d) (λ _ _ _ d, map_to_list d) (λ _ _ d, map_to_list d) (λ d, map_to_list d).
(** the same maps, iterated backwards *)
Definition w_o' : orders :=
  Orders (λ t, reverse (map fst (map_to_list t))) (λ p, reverse (or_defs w_o p))
    (λ _ d, reverse (map_to_list d)) (λ _ _ d, reverse (map_to_list d)) (λ _ _ _ d, reverse (map_to_list d)) (λ _ _ d, reverse (map_to_list d)) (λ d, reverse (map_to_list d)).

Lemma w_object o : o ∈ w_objects → go_object w_objs o.
Proof.
  intros H. enum H; subst o; (split; [reflexivity|reflexivity|reflexivity|split; discriminate|intros p; discriminate]).
Qed.
Lemma w_mset_cases t m : m ∈ w_mset t → m ∈ w_objects.
Proof.
  assert (H1 : ∀ n, w_mset_of n ⊆ w_objects).
  { intros n. do 15 (destruct n as [|n]; [apply list_subseteq_nil || (intros x Hx; enum Hx; subst x; apply elem_of_list_In; vm_compute; tauto)|]). apply list_subseteq_nil. }
  assert (H2 : ∀ n, w_pmset_of n ⊆ w_objects).
  { intros n. do 15 (destruct n as [|n]; [apply list_subseteq_nil || (intros x Hx; enum Hx; subst x; apply elem_of_list_In; vm_compute; tauto)|]). apply list_subseteq_nil. }
  destruct t; cbn [w_mset]; try (by intros ?%elem_of_nil); [apply H1|]. destruct t; try (by intros ?%elem_of_nil). apply H2.
Qed.
Lemma w_methods : method_sets w_env w_mset w_objs.
Proof.
  split.
  - intros t. destruct t; try constructor; cbn [w_mset].
    + destruct tn as [n ? ?]; cbn [tn_id]. do 15 (destruct n as [|n]; [vm_compute; repeat constructor; set_solver|]). constructor.
    + destruct t; try constructor. destruct tn as [n ? ?]; cbn [tn_id]. do 15 (destruct n as [|n]; [vm_compute; repeat constructor; set_solver|]). constructor.
  - intros [n ? ?] args m. unfold is_interface. cbn [underlying w_env tn_id w_mset]. intros Hi.
    do 15 (destruct n as [|n]; [try discriminate Hi; (intros ?%elem_of_nil; done) || (intros Hm; apply elem_of_list_singleton in Hm; subst m; apply elem_of_list_In; vm_compute; tauto)|]).
    by intros ?%elem_of_nil.
  - intros [n ? ?] args ms s. cbn [w_env tn_id w_mset]. intros Hi.
    do 15 (destruct n as [|n]; [try discriminate Hi; injection Hi as <- <-; reflexivity|]). discriminate Hi.
  - intros t m Hm. by apply w_object, (w_mset_cases t).
Qed.
Lemma w_proj_in k q : w_proj !! k = Some q → k = "ex.org/p" ∧ q = 1 ∨ k = "ex.org/q" ∧ q = 2.
Proof. unfold w_proj. rewrite lookup_insert_Some, lookup_singleton_Some. intros [[<- <-]|[_ [<- <-]]]; tauto. Qed.
Lemma w_all_in k q : w_all !! k = Some q → k = "ex.org/p" ∧ q = 1 ∨ k = "ex.org/q" ∧ q = 2 ∨ k = "fmt" ∧ q = 3.
Proof. unfold w_all. rewrite !lookup_insert_Some, lookup_singleton_Some. intros [[<- <-]|[_ [[<- <-]|[_ [<- <-]]]]]; tauto. Qed.
Lemma w_dependencies : dependencies w_all w_proj w_deps.
Proof.
  intros key q. unfold w_deps. rewrite lookup_singleton_Some. split.
  - intros [<- <-]. split; reflexivity.
  - intros [H1 H2]. destruct (w_all_in _ _ H1) as [[-> ->]|[[-> ->]|[-> ->]]]; done.
Qed.
Lemma w_analysable : analysable w_env w_mset w_objs w_scope w_h w_all w_proj.
Proof.
  split.
  - apply w_methods.
  - intros k q H. destruct (w_all_in _ _ H) as [[-> ->]|[[-> ->]|[-> ->]]]; eexists _, _; split; [reflexivity|done|reflexivity|done|reflexivity|done].
  - intros k q H. destruct (w_proj_in _ _ H) as [[-> ->]|[-> ->]]; eexists _, _, _; (split; [reflexivity|done]).
  - intros k q p o H Hn Hp Ho. destruct (w_all_in _ _ H) as [[-> ->]|[[-> ->]|[-> ->]]]; [done|done|]. injection Hp as <-.
    enum Ho; subst o; (split; [apply w_object, elem_of_list_In; vm_compute; tauto|by eexists]).
Qed.
Lemma w_initial : initial_tables w_h w_all w_proj w_g.
Proof.
  split.
  - intros k q p H Hn Hp. destruct (w_all_in _ _ H) as [[-> ->]|[[-> ->]|[-> ->]]]; [done|done|]. injection Hp as <-. reflexivity.
  - intros id pos i (p & t & Hg & Hi). unfold w_g in Hg. cbn [g_symbols] in Hg. rewrite !lookup_insert_Some, lookup_singleton_Some in Hg.
    assert (X : ∀ p l, w_table p l !! pos = Some i → i_relationships i = []).
    { intros p' l. unfold w_table. intros H%elem_of_list_to_map_2. apply elem_of_list_fmap in H as (d & [= -> ->] & _). done. }
    destruct Hg as [[_ [= <- <-]]|[_ [[_ [= <- <-]]|[_ [_ [= <- <-]]]]]]; [by eapply X|by eapply X|done].
Qed.
Lemma w_heap q p : w_h !! q = Some p → p = w_pkg_p ∨ p = w_pkg_q ∨ p = w_pkg_fmt.
Proof. unfold w_h. rewrite !lookup_insert_Some, lookup_singleton_Some. naive_solver. Qed.
Lemma w_iterates : iterates w_h w_o ∧ iterates w_h w_o'.
Proof.
  assert (X : ∀ q p ti ob, w_h !! q = Some p → p_info p = Some ti → ob ∈ or_defs w_o p ↔ ∃ i, ti_defs ti i = Some ob).
  { intros q p ti ob Hq Hp. destruct (w_heap _ _ Hq) as [->|[->| ->]]; [| |done]; injection Hp as <-; cbn [w_ti ti_defs]; split.
    - intros H. enum H; subst ob; [by exists 101|by exists 102|by exists 103|by exists 104|by exists 105|by exists 106|by exists 114].
    - intros [i H]. apply tab_in in H. apply elem_of_list_In, (List.in_map snd _ _ H).
    - intros H. enum H; subst ob; [by exists 107|by exists 108|by exists 109].
    - intros [i H]. apply tab_in in H. apply elem_of_list_In, (List.in_map snd _ _ H). }
  split; (split; [split; intros; try done; apply reverse_Permutation|]); intros q p ti ob Hq Hp.
  - by eapply X.
  - cbn [w_o' or_defs]. rewrite elem_of_reverse. by eapply X.
Qed.
Definition w_cand (p : gpkg) (o : obj) : cand := Cand p o (w_sym p o).
Definition w_pcands : list cand := [w_cand w_pkg_p w_I; w_cand w_pkg_p w_Base; w_cand w_pkg_p w_J; w_cand w_pkg_p w_E; w_cand w_pkg_q w_T].
Definition w_dcands : list cand := [w_cand w_pkg_fmt w_Stringer; w_cand w_pkg_fmt w_Buf].
Notation w_candidate := (candidate w_env w_mset w_level w_scope "root" "v0" w_h w_g).
Lemma w_recorded_p pos i : recorded w_g "ex.org/p" pos i → w_table w_pkg_p w_pdefs !! pos = Some i.
Proof. intros (p & t & [= <- <-] & H). done. Qed.
Lemma w_recorded_q pos i : recorded w_g "ex.org/q" pos i → w_table w_pkg_q w_qdefs !! pos = Some i.
Proof. intros (p & t & [= <- <-] & H). done. Qed.
Lemma w_proj_cands c : w_candidate w_proj c ↔ c ∈ w_pcands.
Proof.
  split.
  - intros [key q p ti i o tn args info H1 H2 H3 H4 H5 H6 H7 H8 H9 H10|key q p tp o tn args H1 H2 H3 H4 H5 H6 H7 H8 H9 H10 H11].
    + destruct (w_proj_in _ _ H1) as [[-> ->]|[-> ->]]; injection H2 as <-; injection H4 as <-; cbn [w_ti ti_defs] in H5; apply tab_in in H5; cbn [p_path w_pkg_p w_pkg_q] in H9;
        [apply w_recorded_p in H9|apply w_recorded_q in H9]; cbn [In w_pdefs w_qdefs] in H5;
        repeat destruct H5 as [[= <- <-]|H5]; try done; vm_compute in H9; injection H9 as <-; apply elem_of_list_In; vm_compute; tauto.
    + destruct (w_proj_in _ _ H1) as [[-> ->]|[-> ->]]; injection H2 as <-; done.
  - intros H. apply elem_of_list_In in H. cbn [In w_pcands] in H.
    assert (X : ∀ key q p ti i o tn args m, w_proj !! key = Some q → w_h !! q = Some p → p_name p ≠ "builtin" → p_info p = Some ti → ti_defs ti i = Some o → o_kind o = OTypeName →
      w_level p o = true → o_type o = TNamed tn args → recorded w_g (p_path p) (o_pos o) (Info (w_sym p o) [] [] KUnspecified "" None "") → has_method w_env w_mset (o_type o) m →
      w_candidate w_proj (w_cand p o)).
    { intros key q p ti i o tn args m Y1 Y2 Y3 Y4 Y5 Y6 Y7 Y8 Y9 Y10. unfold w_cand.
      change (w_sym p o) with (i_symbol (Info (w_sym p o) [] [] KUnspecified "" None "")). eapply cand_source; eauto. }
    destruct H as [<-|[<-|[<-|[<-|[<-|[]]]]]];
      [eapply (X "ex.org/p" 1 _ _ 101 _ _ _ w_I_m)|eapply (X "ex.org/p" 1 _ _ 102 _ _ _ w_Base_m)|eapply (X "ex.org/p" 1 _ _ 103 _ _ _ w_J_F)
      |eapply (X "ex.org/p" 1 _ _ 114 _ _ _ w_J_F)|eapply (X "ex.org/q" 2 _ _ 107 _ _ _ w_Base_m)]; try reflexivity; try done;
      try (eexists _, _; split; [reflexivity|vm_compute; reflexivity]); left; apply elem_of_list_In; vm_compute; tauto.
Qed.
Lemma w_deps_cands c : w_candidate w_deps c ↔ c ∈ w_dcands.
Proof.
  split.
  - intros [key q p ti i o tn args info H1 H2 H3 H4 H5 H6 H7 H8 H9 H10|key q p tp o tn args H1 H2 H3 H4 H5 H6 H7 H8 H9 H10 H11];
      unfold w_deps in H1; apply lookup_singleton_Some in H1 as [<- <-]; injection H2 as <-; [done|].
    enum H6; subst o; apply elem_of_list_In; vm_compute; tauto.
  - intros H. apply elem_of_list_In in H. cbn [In w_dcands] in H. destruct H as [<-|[<-|[]]]; (eapply (cand_export _ _ _ _ _ _ _ _ w_deps "fmt" 3 w_pkg_fmt); [reflexivity|reflexivity|done|reflexivity|reflexivity| | |reflexivity|reflexivity|by vm_compute|]).
    + right. by left.
    + done.
    + exists w_Str_S. left. by left.
    + by left.
    + done.
    + exists w_Buf_F. right. split; [done|]. by left.
Qed.
Lemma w_distinct : distinct_symbols w_env w_mset w_level w_scope "root" "v0" w_h w_g w_proj ∧ distinct_symbols w_env w_mset w_level w_scope "root" "v0" w_h w_g w_deps.
Proof.
  split; intros c c'; [rewrite !w_proj_cands|rewrite !w_deps_cands]; rewrite !elem_of_list_In; cbn [In w_pcands w_dcands]; intros H1 H2 E;
    repeat destruct H1 as [<-|H1]; try done; repeat destruct H2 as [<-|H2]; try done; vm_compute in E; discriminate E.
Qed.
Notation w_search o := (add_implementation_relationships w_env x_u w_crc w_mset w_cok w_level w_scope o w_h w_proj w_all w_g (fresh_caches "root" "v0")).
Definition w_rels (o : orders) : option (list (list (string * list string)) * list (string * list string) * (nat * nat)) :=
  match w_search o with
  | Ok (g, _, exts, n) => Some (map (λ pt : string * (gpkg * ptable), map (λ e : Z * syminfo, (i_symbol e.2, map r_symbol (i_relationships e.2))) (map_to_list pt.2.2)) (map_to_list (g_symbols g)),
      map (λ i, (i_symbol i, map r_symbol (i_relationships i))) exts, n)
  | Panic _ => None
  end.
Definition w_Isym := "scip-go gomod ex.org v1 `ex.org/p`/I#".
Definition w_Jsym := "scip-go gomod ex.org v1 `ex.org/p`/J#".
(** The hypotheses of C34-C36, C41 and C21_search_no_crash hold of this program, and the search
    finds: Base -> I, E -> J, T -> J and fmt.Stringer, Base.m -> I.m, T.F -> J.F, T.String ->
    Stringer.String, and the external symbol fmt.Buf -> J. *)
Example C34_example :
  analysable w_env w_mset w_objs w_scope w_h w_all w_proj ∧ initial_tables w_h w_all w_proj w_g ∧ iterates w_h w_o ∧ iterates w_h w_o' ∧
  caches_ok w_env w_objs w_g "root" "v0" (fresh_caches "root" "v0") ∧ dependencies w_all w_proj w_deps ∧
  distinct_symbols w_env w_mset w_level w_scope "root" "v0" w_h w_g w_proj ∧ distinct_symbols w_env w_mset w_level w_scope "root" "v0" w_h w_g w_deps ∧
  w_rels w_o = Some
   ([[];
     [("scip-go gomod ex.org v1 `ex.org/p`/Base#", [w_Isym]);
      (w_Isym, []);
      ("scip-go gomod ex.org v1 `ex.org/p`/E#", [w_Jsym]);
      (w_Jsym, []);
      ("scip-go gomod ex.org v1 `ex.org/p`/Base#m().", ["scip-go gomod ex.org v1 `ex.org/p`/I#m()."]);
      ("scip-go gomod ex.org v1 `ex.org/p`/I#m().", []);
      ("scip-go gomod ex.org v1 `ex.org/p`/J#F().", ["scip-go gomod ex.org v1 `ex.org/p`/J#F()."])];
     [("scip-go gomod ex.org v1 `ex.org/q`/T#", [w_Jsym; "scip-go gomod github.com/golang/go/src go1.25 fmt/Stringer#"]);
      ("scip-go gomod ex.org v1 `ex.org/q`/T#String().", ["scip-go gomod github.com/golang/go/src go1.25 fmt/Stringer#String()."]);
      ("scip-go gomod ex.org v1 `ex.org/q`/T#F().", ["scip-go gomod ex.org v1 `ex.org/p`/J#F()."])]],
    [("scip-go gomod github.com/golang/go/src go1.25 fmt/Buf#", [w_Jsym])], (7, 7)).
Proof.
  split; [apply w_analysable|]. split; [apply w_initial|]. split; [apply w_iterates|]. split; [apply w_iterates|]. split; [apply fresh_ok|].
  split; [apply w_dependencies|]. split; [apply w_distinct|]. split; [apply w_distinct|]. vm_compute. reflexivity.
Qed.
(** the hypothesis of C21_search_no_crash *)
Example C21_search_example : ∀ c m, w_candidate w_proj c ∨ w_candidate w_deps c → has_method w_env w_mset (c_type c) m → type_ok x_u (o_type m).
Proof.
  intros c m _ Hm. assert (H : m ∈ w_objects) by (destruct Hm as [Hm|[_ Hm]]; by eapply w_mset_cases).
  assert (K : match o_kind m with OFunc _ => True | _ => False end).
  { assert (X : ∀ t, forallb (λ m, match o_kind m with OFunc _ => true | _ => false end) (w_mset t) = true).
    { intros t. destruct t; try reflexivity.
      - destruct tn as [n ? ?]. do 15 (destruct n as [|n]; [reflexivity|]). reflexivity.
      - destruct t; try reflexivity. destruct tn as [n ? ?]. do 15 (destruct n as [|n]; [reflexivity|]). reflexivity. }
    destruct Hm as [Hm|[_ Hm]]; [pose proof (X (c_type c)) as Y|pose proof (X (TPointer (c_type c))) as Y];
      rewrite forallb_forall in Y; apply elem_of_list_In in Hm; specialize (Y _ Hm); destruct (o_kind m); done. }
  enum H; subst m; cbn in K; try done; unfold w_void, w_str; cbn [o_type w_meth w_I_m w_Base_m w_J_F w_T_F w_T_S w_Str_S w_Buf_F w_Buf_S]; type_ok.
Qed.

(** C32, C33: the definitions the extractor builds; T satisfies J and passes the filters, and T
    also satisfies I (its method m comes from Base) but is rejected: it is in another package. *)
Definition w_def (o : obj) (pkg : string) : impldef :=
  let l := intuitive_method_set w_env w_mset (o_type o) in
  ImplDef (CNew 0) "" (o_type o) ∅ (match method_mask x_u w_crc l with Ok m => m | Panic _ => 0%N end) (length l) (has_unexported_methods l) pkg.
Lemma w_describes o pkg : o ∈ [w_I; w_J; w_T; w_E; w_Base] → describes w_env x_u w_crc w_mset (w_def o pkg) (o_type o) pkg.
Proof.
  intros H. split; [done|]. split; [done|]. split; [|done]. enum H; subst o; vm_compute; reflexivity.
Qed.
Lemma w_T_satisfies : satisfies w_env w_mset w_cok (o_type w_T) (o_type w_J) ∧ satisfies w_env w_mset w_cok (o_type w_T) (o_type w_I).
Proof.
  split; eexists _, _; (split; [reflexivity|]).
  - right. split; [|done]. intros id t H. apply elem_of_list_singleton in H as [= -> ->]. exists w_T_F. split; [by left|]. split; [done|]. apply identicalb_spec. reflexivity.
  - left. split; [|done]. intros id t H. apply elem_of_list_singleton in H as [= -> ->]. exists w_Base_m. split; [by left|]. split; [done|]. apply identicalb_spec. reflexivity.
Qed.
Example C32_example : named (o_type w_T) ∧ is_interface w_env (o_type w_T) = false ∧ named (o_type w_J) ∧ satisfies w_env w_mset w_cok (o_type w_T) (o_type w_J) ∧
  method_mask x_u w_crc (intuitive_method_set w_env w_mset (o_type w_T)) = Ok 38663094272%N ∧
  method_mask x_u w_crc (intuitive_method_set w_env w_mset (o_type w_J)) = Ok 8388608%N ∧
  ¬ sealed w_env w_mset (o_type w_J) ∧ passes w_env w_mset w_cok (w_def w_T "ex.org/q") (w_def w_J "ex.org/p") = true.
Proof.
  split; [by eexists _, _|]. split; [done|]. split; [by eexists _, _|]. split; [apply w_T_satisfies|]. split; [vm_compute; reflexivity|]. split; [vm_compute; reflexivity|].
  split; [|vm_compute; reflexivity]. intros (m & [Hm|[? _]] & Hx); [|done]. apply elem_of_list_singleton in Hm. by subst m.
Qed.
(** the hypotheses of C33_unexported_filter_partial: Base implements I *)
Example C33_example : own_unexported w_env w_mset (o_type w_Base) "ex.org/p" ∧ own_unexported w_env w_mset (o_type w_I) "ex.org/p" ∧
  satisfies w_env w_mset w_cok (o_type w_Base) (o_type w_I) ∧ sealed w_env w_mset (o_type w_I).
Proof.
  split; [|split; [|split]].
  - intros m [Hm|[_ Hm]] _; apply elem_of_list_singleton in Hm; subst m; by eexists.
  - intros m [Hm|[? _]] _; [|done]. apply elem_of_list_singleton in Hm. subst m. by eexists.
  - eexists _, _. split; [reflexivity|]. left. split; [|done]. intros id t H. apply elem_of_list_singleton in H as [= -> ->]. exists w_Base_m. split; [by left|]. split; [done|].
    apply identicalb_spec. reflexivity.
  - exists w_I_m. split; [by left; left|done].
Qed.
Lemma res_check {A} (x : res A) (f : A → bool) : match x with Ok r => f r | Panic _ => false end = true → ∃ r, x = Ok r ∧ f r = true.
Proof. destruct x as [r|]; [|done]. by exists r. Qed.
Lemma w_checked : ∃ r, w_search w_o = Ok r ∧
  (match get_info_by_path r.1.1.1 "ex.org/q" 40 with Some i => forallb (λ r, negb (String.eqb (r_symbol r) w_Isym)) (i_relationships i) | None => false end
   && match get_info_by_path r.1.1.1 "ex.org/p" 31 with Some i => existsb (λ r, String.eqb (r_symbol r) (i_symbol i)) (i_relationships i) | None => false end)%bool = true.
Proof. apply res_check. vm_compute. reflexivity. Qed.
(** C33 fails in general: a type that implements an interface of the project gets no relationship
    to it, because the unexported method of the interface comes from an embedded type of another package. *)
Theorem C33_embedded_refuted : ∃ env u crc mset constraint_ok objs package_level scope_objects root version h all proj deps g o g' k' exts count t i info,
  analysable env mset objs scope_objects h all proj ∧ initial_tables h all proj g ∧ iterates h o ∧ dependencies all proj deps ∧
  add_implementation_relationships env u crc mset constraint_ok package_level scope_objects o h proj all g (fresh_caches root version) = Ok (g', k', exts, count) ∧
  compared env mset package_level scope_objects root version h g proj deps t i ∧ satisfies env mset constraint_ok (c_type t) (c_type i) ∧
  recorded g' (p_path (c_pkg t)) (o_pos (c_obj t)) info ∧ ∀ r, r ∈ i_relationships info → r_symbol r ≠ c_symbol i.
Proof.
  exists w_env, x_u, w_crc, w_mset, w_cok, w_objs, w_level, w_scope, "root", "v0", w_h, w_all, w_proj, w_deps, w_g, w_o.
  destruct w_checked as ([[[g' k'] exts] count] & E & G). cbn [fst] in G. apply andb_true_iff in G as [G G'].
  exists g', k', exts, count, (w_cand w_pkg_q w_T), (w_cand w_pkg_p w_I).
  destruct (get_info_by_path g' "ex.org/q" 40) as [info|] eqn:Ei; [|done]. exists info.
  split; [apply w_analysable|]. split; [apply w_initial|]. split; [apply w_iterates|]. split; [apply w_dependencies|]. split; [done|].
  split. { apply compare_local; [apply w_proj_cands; right; right; right; right; by left|left; apply w_proj_cands; by left|done|done]. }
  split; [apply w_T_satisfies|]. split; [by apply get_info_recorded|]. intros r Hr Hs. rewrite forallb_forall in G. apply elem_of_list_In in Hr. specialize (G r Hr).
  rewrite Hs in G. vm_compute in G. done.
Qed.
Print Assumptions C33_embedded_refuted.
(** A method of an embedded interface becomes an implementation of itself (E embeds J, so its method
    F is the method F of J). *)
Theorem C34_irreflexive_refuted : ∃ env u crc mset constraint_ok objs package_level scope_objects root version h all proj g o g' k' exts count id pos info r,
  analysable env mset objs scope_objects h all proj ∧ initial_tables h all proj g ∧ iterates h o ∧
  add_implementation_relationships env u crc mset constraint_ok package_level scope_objects o h proj all g (fresh_caches root version) = Ok (g', k', exts, count) ∧
  recorded g' id pos info ∧ r ∈ i_relationships info ∧ r_symbol r = i_symbol info.
Proof.
  exists w_env, x_u, w_crc, w_mset, w_cok, w_objs, w_level, w_scope, "root", "v0", w_h, w_all, w_proj, w_g, w_o.
  destruct w_checked as ([[[g' k'] exts] count] & E & G). cbn [fst] in G. apply andb_true_iff in G as [G G'].
  exists g', k', exts, count, "ex.org/p", 31%Z.
  destruct (get_info_by_path g' "ex.org/p" 31) as [info|] eqn:Ei; [|done]. apply existsb_exists in G' as (r & Hr & Es). exists info, r.
  split; [apply w_analysable|]. split; [apply w_initial|]. split; [apply w_iterates|]. split; [done|]. split; [by apply get_info_recorded|].
  split; [by apply elem_of_list_In|by apply String.eqb_eq].
Qed.
Print Assumptions C34_irreflexive_refuted.
