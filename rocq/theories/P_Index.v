(** Proofs about the indexing pipeline. *)
From Coq Require Import Ascii String.
From stdpp Require Import prelude strings gmap sorting.
From Verif Require Import GoStr Scip GoTypes Ast Packages Symbols Document Lookup Pass1 Pass2 Paths
  Loader Index SpecSymbol SpecDecl SpecLookup SpecOcc SpecIndex P_Symbols P_Pass1 P_Doc P_Link P_Lookup
  P_Pass2 P_Occ P_Sort P_Loader PropLoader P_Scope.
Open Scope string_scope.
Open Scope list_scope.

(** *** Stable sorting by class *)
Lemma insert_by_perm {A} key (x : A) l : insert_by key x l ≡ₚ x :: l.
Proof.
  induction l as [|y l IH]; [done|]. cbn [insert_by]. destruct (Nat.leb _ _); [done|].
  rewrite IH. apply perm_swap.
Qed.
(** the elements of class c keep their order *)
Lemma insert_by_filter {A} (key : A → nat) c x l :
  List.filter (λ a, Nat.eqb (key a) c) (insert_by key x l) =
  List.filter (λ a, Nat.eqb (key a) c) (x :: l).
Proof.
  induction l as [|y l IH]; [done|]. cbn [insert_by]. destruct (Nat.leb (key x) (key y)) eqn:E; [done|].
  apply Nat.leb_gt in E. cbn [List.filter] in *. rewrite IH.
  destruct (Nat.eqb (key y) c) eqn:E1, (Nat.eqb (key x) c) eqn:E2; try done.
  apply Nat.eqb_eq in E1, E2. lia.
Qed.
Lemma stable_sort_filter {A} (key : A → nat) c l :
  List.filter (λ a, Nat.eqb (key a) c) (stable_sort key l) = List.filter (λ a, Nat.eqb (key a) c) l.
Proof.
  induction l as [|x l IH]; [done|]. unfold stable_sort in *. cbn [foldr].
  rewrite insert_by_filter. cbn [List.filter]. by rewrite IH.
Qed.
Definition by_key {A} (key : A → nat) (a b : A) : Prop := key a <= key b.
Lemma insert_by_sorted {A} (key : A → nat) x l :
  StronglySorted (by_key key) l → StronglySorted (by_key key) (insert_by key x l).
Proof.
  induction 1 as [|y l Hs IH Hy]; cbn [insert_by]; [repeat constructor|].
  destruct (Nat.leb (key x) (key y)) eqn:E.
  - apply Nat.leb_le in E. constructor; [by constructor|]. constructor; [done|].
    eapply Forall_impl; [exact Hy|]. unfold by_key. intros; lia.
  - apply Nat.leb_gt in E. constructor; [done|].
    rewrite insert_by_perm. constructor; [unfold by_key; lia|done].
Qed.
Lemma stable_sort_sorted {A} (key : A → nat) l : StronglySorted (by_key key) (stable_sort key l).
Proof. induction l as [|x l IH]; [constructor|]. by apply insert_by_sorted. Qed.
Lemma stable_sort_perm {A} (key : A → nat) l : stable_sort key l ≡ₚ l.
Proof. induction l as [|x l IH]; [done|]. unfold stable_sort in *. cbn. by rewrite insert_by_perm, IH. Qed.

(** a sorted list is the concatenation of its classes *)
Lemma sorted_classes {A} (key : A → nat) l n : StronglySorted (by_key key) l → Forall (λ a, key a < n) l →
  l = List.concat (map (λ c, List.filter (λ a, Nat.eqb (key a) c) l) (List.seq 0 n)).
Proof.
  revert l. induction n as [|n IH]; intros l Hs Hl.
  - destruct l as [|a l]; [done|]. apply Forall_cons in Hl as [? _]. lia.
  - rewrite List.seq_S, List.map_app, List.concat_app. cbn. rewrite List.app_nil_r.
    assert (∃ l1 l2, l = l1 ++ l2 ∧ Forall (λ a, key a < n) l1 ∧ Forall (λ a, key a = n) l2) as (l1 & l2 & -> & H1 & H2).
    { clear IH. induction Hs as [|a l Hs IH Ha]; [by exists [], []|].
      apply Forall_cons in Hl as [Hk Hl]. destruct (decide (key a < n)) as [H|H].
      - destruct (IH Hl) as (l1 & l2 & -> & H1 & H2). exists (a :: l1), l2. split; [done|]. split; [by constructor|done].
      - exists [], (a :: l). split; [done|]. split; [constructor|]. constructor; [lia|].
        apply Forall_forall. intros b Hb. rewrite Forall_forall in Ha, Hl. specialize (Ha b Hb). specialize (Hl b Hb).
        unfold by_key in Ha. lia. }
    assert (Hf0 : ∀ c (l : list A), Forall (λ a, key a ≠ c) l → List.filter (λ a, Nat.eqb (key a) c) l = []).
    { intros c l. induction 1 as [|a l Ha Hl' IH']; [done|]. cbn. destruct (Nat.eqb_spec (key a) c); [done|]. done. }
    assert (Hf1 : ∀ c (l : list A), Forall (λ a, key a = c) l → List.filter (λ a, Nat.eqb (key a) c) l = l).
    { intros c l. induction 1 as [|a l Ha Hl' IH']; [done|]. cbn. rewrite Ha, Nat.eqb_refl. by rewrite IH'. }
    rewrite List.filter_app, (Hf0 n l1), (Hf1 n l2); [|done|eapply Forall_impl; [exact H1|cbn; lia]]. cbn [app].
    f_equal. rewrite (IH l1) at 1; [|clear -Hs|done].
    + f_equal. apply map_ext_in. intros c Hc. apply in_seq in Hc. rewrite List.filter_app, (Hf0 c l2).
      * by rewrite List.app_nil_r.
      * eapply Forall_impl; [exact H2|]. cbn. lia.
    + induction l1 as [|a l1 IH]; [constructor|]. cbn in Hs. apply StronglySorted_inv in Hs as [Hs Ha].
      constructor; [by apply IH|]. by apply Forall_app in Ha as [Ha _].
Qed.

Lemma relevance_bound pkg name : file_relevance pkg name < 4.
Proof. unfold file_relevance. repeat case_match; lia. Qed.

Lemma package_docs_classes fs p :
  find_package_docs fs p =
  List.concat (map (λ c, map file_doc (List.filter
     (λ f, (file_has_doc f && Nat.eqb (file_relevance (p_name p) (pos_file (fs_position fs (file_package_pos f)))) c)%bool)
     (p_syntax p))) [0; 1; 2; 3]).
Proof.
  unfold find_package_docs. set (key := λ f, file_relevance _ _).
  set (l := List.filter file_has_doc (p_syntax p)).
  rewrite (sorted_classes key (stable_sort key l) 4) at 1; [|apply stable_sort_sorted|].
  - rewrite concat_map, map_map. f_equal. apply map_ext. intros c. f_equal.
    rewrite stable_sort_filter. unfold l. induction (p_syntax p) as [|f fs' IH]; [done|]. cbn.
    destruct (file_has_doc f); cbn; [|done]. destruct (Nat.eqb _ _); [by rewrite IH|done].
  - rewrite stable_sort_perm. apply Forall_forall. intros f _. apply relevance_bound.
Qed.

(** path.Base and path.Ext of a Go file *)
Lemma str_forallb_drop (P : ascii → bool) n s : str_forallb P s = true → str_forallb P (str_drop n s) = true.
Proof.
  revert s. induction n as [|n IH]; intros [|c s]; try done. cbn. intros [_ H]%andb_true_iff. by apply IH.
Qed.
Definition no_slash (s : string) : Prop := str_forallb (λ a, negb (Ascii.eqb a "/")) s = true.
Lemma split_last_slash s : no_slash s ∨ ∃ d t, s = d +:+ "/" +:+ t ∧ no_slash t.
Proof.
  induction s as [|c s IH]; [by left|]. destruct IH as [IH|(d & t & -> & Ht)].
  - destruct (Ascii.eqb c "/") eqn:E.
    + apply Ascii.eqb_eq in E as ->. right. by exists "", s.
    + left. unfold no_slash. cbn. by rewrite E.
  - right. exists (String c d), t. split; [|done]. by rewrite app_cons.
Qed.
Lemma no_slash_app a b : no_slash (a +:+ b) ↔ no_slash a ∧ no_slash b.
Proof.
  unfold no_slash. induction a as [|c a IH]; [by rewrite app_nil_l; split; [|intros [_ ?]]|].
  rewrite app_cons. cbn. rewrite !andb_true_iff, IH. tauto.
Qed.
Lemma slash_split_inj d t d' t' : no_slash t → no_slash t' → d +:+ "/" +:+ t = d' +:+ "/" +:+ t' → d = d' ∧ t = t'.
Proof.
  intros Ht Ht' E. assert (slen d = slen d') as Hl.
  { pose proof (last_index_app_sep "/" d t Ht) as E1. pose proof (last_index_app_sep "/" d' t' Ht') as E2.
    change (String "/" t) with ("/" +:+ t) in E1. change (String "/" t') with ("/" +:+ t') in E2. congruence. }
  clear Ht Ht'. revert d' Hl E. induction d as [|c d IH]; intros [|c' d'] Hl E; try done.
  - by injection E as ->.
  - rewrite !app_cons in E. injection E as -> E. cbn in Hl. destruct (IH d') as [-> ->]; [|done|done].
    unfold slen in *. cbn in Hl. lia.
Qed.
Lemma strip_nonslash s c : Ascii.eqb c "/" = false → strip_trailing_slash (s +:+ String c "") = s +:+ String c "".
Proof.
  intros Hc. induction s as [|a s IH].
  - rewrite app_nil_l. cbn [strip_trailing_slash]. by rewrite Hc.
  - rewrite app_cons. cbn [strip_trailing_slash]. rewrite IH. by destruct s.
Qed.
Lemma str_drop_app s t : str_drop (slen s) (s +:+ t) = t.
Proof. induction s as [|c s IH]; [done|]. rewrite app_cons. apply IH. Qed.
Lemma no_dot_ext stem : last_index "." (stem +:+ ".go") = Some (slen stem).
Proof. apply (last_index_app_sep "." stem "go"). reflexivity. Qed.

Lemma go_file_base dir stem : no_slash stem → dir = "" ∨ (∃ d, dir = d +:+ "/") →
  path_base (dir +:+ stem +:+ ".go") = stem +:+ ".go" ∧ path_ext (dir +:+ stem +:+ ".go") = ".go".
Proof.
  intros Hs Hd. assert (Hn : no_slash (stem +:+ ".go")) by by apply no_slash_app.
  assert (Hst : strip_trailing_slash (dir +:+ stem +:+ ".go") = dir +:+ stem +:+ ".go").
  { replace (dir +:+ stem +:+ ".go") with ((dir +:+ stem +:+ ".g") +:+ String "o" "").
    - by apply strip_nonslash.
    - by rewrite <-!app_assoc. }
  assert (Hl : match last_index "/" (dir +:+ stem +:+ ".go") with
               | Some i => str_drop (S i) (dir +:+ stem +:+ ".go") | None => dir +:+ stem +:+ ".go" end = stem +:+ ".go").
  { destruct Hd as [->|[d ->]].
    - rewrite app_nil_l, last_index_none by done. done.
    - replace ((d +:+ "/") +:+ stem +:+ ".go") with (d +:+ String "/" (stem +:+ ".go")) by by rewrite <-app_assoc.
      rewrite last_index_app_sep by done. 
      replace (d +:+ String "/" (stem +:+ ".go")) with ((d +:+ "/") +:+ stem +:+ ".go") by by rewrite <-app_assoc.
      replace (S (slen d)) with (slen (d +:+ "/")) by (rewrite slen_app; cbn; lia). apply str_drop_app. }
  split.
  - unfold path_base. rewrite Hst, Hl. destruct (dir +:+ stem +:+ ".go") eqn:E.
    + apply (f_equal slen) in E. rewrite !slen_app in E. cbn in E. lia.
    + destruct (stem +:+ ".go") eqn:E'; [|done]. apply (f_equal slen) in E'. rewrite slen_app in E'. cbn in E'. lia.
  - unfold path_ext. rewrite Hl, no_dot_ext. apply str_drop_app.
Qed.

Lemma go_file_called dir stem b : no_slash stem → dir = "" ∨ (∃ d, dir = d +:+ "/") → no_slash b →
  file_called (dir +:+ stem +:+ ".go") (b +:+ ".go") ↔ stem = b.
Proof.
  intros Hs Hd Hb. split.
  - assert (Hb' : no_slash (b +:+ ".go")) by by apply no_slash_app.
    assert (Hs' : no_slash (stem +:+ ".go")) by by apply no_slash_app.
    intros Hc. assert (stem +:+ ".go" = b +:+ ".go") as E.
    { destruct Hd as [->|[d ->]], Hc as [Hc|[d' Hc]].
      - done.
      - rewrite app_nil_l in Hc. rewrite Hc in Hs'. apply no_slash_app in Hs' as [_ [Hx _]%no_slash_app]. done.
      - rewrite <-Hc in Hb'. rewrite <-app_assoc in Hb'. apply no_slash_app in Hb' as [_ [Hx _]%no_slash_app]. done.
      - rewrite <-app_assoc in Hc. by apply slash_split_inj in Hc as [_ ?]. }
    pose proof (f_equal (λ s, trim_suffix s ".go") E) as E'. cbn beta in E'. by rewrite !trim_suffix_app in E'.
  - intros ->. destruct Hd as [->|[d ->]]; [by left|]. right. exists d. by rewrite <-app_assoc.
Qed.
(** a Go file name is a directory and a stem *)
Lemma go_file_split name : has_suffix name ".go" = true →
  ∃ dir stem, name = dir +:+ stem +:+ ".go" ∧ no_slash stem ∧ (dir = "" ∨ ∃ d, dir = d +:+ "/").
Proof.
  intros [r ->]%has_suffix_spec. destruct (split_last_slash r) as [H|(d & t & -> & Ht)].
  - exists "", r. split; [done|]. split; [done|]. by left.
  - exists (d +:+ "/"), t. split; [by rewrite <-!app_assoc|]. split; [done|]. right. by exists d.
Qed.

Lemma file_relevance_spec pkg name : has_suffix name ".go" = true → no_slash pkg →
  relevance pkg name (file_relevance pkg name) ∧ ∀ c, relevance pkg name c → c = file_relevance pkg name.
Proof.
  intros (dir & stem & -> & Hs & Hd)%go_file_split Hp.
  destruct (go_file_base dir stem Hs Hd) as [Hb He].
  pose proof (go_file_called dir stem "doc" Hs Hd eq_refl) as Hdoc.
  pose proof (go_file_called dir stem pkg Hs Hd Hp) as Hpk.
  change ("doc" +:+ ".go") with "doc.go" in Hdoc.
  unfold file_relevance. rewrite Hb, He, trim_suffix_app.
  set (name := dir +:+ stem +:+ ".go") in *.
  assert (H0 : String.eqb (stem +:+ ".go") "doc.go" = true ↔ file_called name "doc.go").
  { rewrite Hdoc, String.eqb_eq. split; [|by intros ->].
    intros E. pose proof (f_equal (λ s, trim_suffix s ".go") E) as E'. cbn beta in E'. by rewrite trim_suffix_app in E'. }
  assert (H1 : String.eqb stem pkg = true ↔ file_called name (pkg +:+ ".go")) by by rewrite Hpk, String.eqb_eq.
  assert (H2 : has_suffix name "_test.go" = true ↔ ∃ s, name = s +:+ "_test.go") by apply has_suffix_spec.
  destruct (String.eqb (stem +:+ ".go") "doc.go") eqn:E0.
  { assert (file_called name "doc.go") as Hy by by apply H0. split; [by constructor|].
    intros c Hc. by destruct Hc. }
  assert (¬ file_called name "doc.go") as Hn0 by (intros Hy%H0; done).
  destruct (String.eqb stem pkg) eqn:E1.
  { assert (file_called name (pkg +:+ ".go")) as Hy by by apply H1. split; [by constructor|].
    intros c Hc. by destruct Hc. }
  assert (¬ file_called name (pkg +:+ ".go")) as Hn1 by (intros Hy%H1; done).
  destruct (has_suffix name "_test.go") eqn:E2; cbn [negb].
  - destruct (proj1 H2 eq_refl) as [s Es]. split; [by apply (rel_test _ _ s)|].
    intros c Hc. destruct Hc as [| |? ? Hno|]; try done. exfalso. apply Hno. eauto.
  - assert (¬ ∃ s, name = s +:+ "_test.go") as Hn2 by (intros Hy%H2; done).
    split; [by constructor|]. intros c Hc. destruct Hc as [| | |s ? ? Hs']; try done. exfalso. apply Hn2. eauto.
Qed.

(** *** The first pass *)
Section FirstPass.
  Context (digest : string → string) (env : tenv) (fs : fset) (h : pheap) (root : string).

  Definition named (p : gpkg) : Prop := ∀ f, f ∈ p_syntax p → is_Some (fs_file fs (file_package_pos f)).
  Definition entry_name (e : gpkg * node) : string :=
    match fs_file fs (file_package_pos e.2) with Some n => n | None => "" end.
  (** the last file with a name *)
  Definition last_named (n : string) (l : list (gpkg * node)) : option (gpkg * node) :=
    List.find (λ e, String.eqb (entry_name e) n) (rev l).
  Lemma last_named_app n l1 l2 : last_named n (l1 ++ l2) =
    match last_named n l2 with Some e => Some e | None => last_named n l1 end.
  Proof.
    unfold last_named. rewrite rev_app_distr. induction (rev l2) as [|e l IH]; [done|]. cbn.
    destruct (String.eqb _ _); [done|apply IH].
  Qed.
  Lemma last_named_none n l : last_named n l = None ↔ n ∉ map entry_name l.
  Proof.
    unfold last_named. split.
    - intros H (e & -> & He)%elem_of_list_fmap.
      apply elem_of_list_In, in_rev in He. apply (List.find_none _ _ H e) in He.
      by rewrite String.eqb_refl in He.
    - intros H. destruct (List.find _ _) as [e|] eqn:E; [|done].
      apply List.find_some in E as [E1 E2]. exfalso. apply H. apply String.eqb_eq in E2.
      apply elem_of_list_fmap. exists e. split; [done|]. apply in_rev in E1. by apply elem_of_list_In.
  Qed.
  Lemma last_named_some n l e : last_named n l = Some e → e ∈ l ∧ entry_name e = n.
  Proof.
    intros [E1 E2]%List.find_some. apply String.eqb_eq in E2. apply in_rev in E1. split; [|done].
    by apply elem_of_list_In.
  Qed.
  Lemma last_named_nodup l e : NoDup (map entry_name l) → e ∈ l → last_named (entry_name e) l = Some e.
  Proof.
    intros Hn He. destruct (last_named _ _) as [e'|] eqn:E.
    - apply last_named_some in E as [He' E]. f_equal.
      apply elem_of_list_lookup in He as [i Hi], He' as [j Hj].
      assert (i = j) as ->; [|congruence].
      eapply (NoDup_lookup _ i j (entry_name e) Hn); rewrite list_lookup_fmap.
      + by rewrite Hi.
      + rewrite Hj. cbn. by rewrite E.
    - apply last_named_none in E. exfalso. apply E. by apply elem_of_list_fmap_1.
  Qed.

  Notation files p := (map (λ f, (p, f)) (p_syntax p)).
  Lemma add_documents p l (docs : docmap) : (∀ f, f ∈ l → is_Some (fs_file fs (file_package_pos f))) →
    ∃ docs', res_fold (add_document fs root) docs l = Ok docs' ∧
      ∀ n, docs' !! n = match last_named n (map (λ f, (p, f)) l) with
                        | Some _ => Some (SDoc (doc_relative_path root n) None)
                        | None => docs !! n end.
  Proof.
    revert docs. induction l as [|f l IH]; intros docs Hl; [by exists docs|].
    destruct (Hl f) as [n0 Hn0]; [left|].
    destruct (IH (<[n0 := SDoc (doc_relative_path root n0) None]> docs)) as (docs' & E & H).
    { intros f' Hf'. apply Hl. by right. }
    exists docs'. cbn [res_fold]. unfold add_document at 1, file_name. rewrite Hn0. split; [done|].
    intros n. rewrite H. cbn [map]. change ((p, f) :: map (λ f, (p, f)) l) with ([(p, f)] ++ map (λ f, (p, f)) l).
    rewrite last_named_app. destruct (last_named n (map _ l)); [done|].
    unfold last_named. cbn. unfold entry_name. cbn. rewrite Hn0.
    destruct (String.eqb_spec n0 n) as [->|Hne]; [by rewrite lookup_insert|by rewrite lookup_insert_ne].
  Qed.
  Lemma set_occurrences g p l (docs : docmap) : (∀ f, f ∈ l → ∃ n, fs_file fs (file_package_pos f) = Some n ∧ is_Some (docs !! n)) →
    ∃ docs', res_fold (set_package_occurrence fs g p) docs l = Ok docs' ∧
      ∀ n, docs' !! n = match last_named n (map (λ f, (p, f)) l) with
                        | Some e => (λ d, SDoc (sd_path d) (Some (package_occurrence fs g p e.2))) <$> docs !! n
                        | None => docs !! n end.
  Proof.
    revert docs. induction l as [|f l IH]; intros docs Hl; [by exists docs|].
    destruct (Hl f) as (n0 & Hn0 & [d Hd]); [left|].
    destruct (IH (<[n0 := SDoc (sd_path d) (Some (package_occurrence fs g p f))]> docs)) as (docs' & E & H).
    { intros f' Hf'. destruct (Hl f') as (n1 & Hn1 & Hd1); [by right|]. exists n1. split; [done|].
      destruct (decide (n1 = n0)) as [->|Hne]; [by rewrite lookup_insert|by rewrite lookup_insert_ne]. }
    exists docs'. cbn [res_fold]. unfold set_package_occurrence at 1, file_name. rewrite Hn0. cbn [res_bind].
    rewrite Hd. split; [done|].
    intros n. rewrite H. cbn [map]. change ((p, f) :: map (λ f, (p, f)) l) with ([(p, f)] ++ map (λ f, (p, f)) l).
    rewrite last_named_app. destruct (last_named n (map _ l)) as [e|].
    - destruct (decide (n = n0)) as [->|Hne].
      + rewrite lookup_insert, Hd. done.
      + by rewrite lookup_insert_ne.
    - unfold last_named. cbn. unfold entry_name. cbn. rewrite Hn0.
      destruct (String.eqb_spec n0 n) as [->|Hne]; [by rewrite lookup_insert, Hd|by rewrite lookup_insert_ne].
  Qed.

  Definition pkg_ready (p : gpkg) : Prop :=
    named p ∧ is_Some (p_module p) ∧ (p_syntax p ≠ [] → is_Some (p_info p)).
  (** the table of a project package after the first pass, before relationships are added *)
  Definition pass1_table (p : gpkg) (tbl : ptable) : Prop :=
    match p_syntax p, p_info p with
    | [], _ => tbl = ∅
    | _, None => False
    | first :: _, Some ti => ∃ tbl0 m, visit_package_table digest ti fs env p = Ok tbl0 ∧ p_module p = Some m ∧
        tbl = pset tbl0 (id_pos (file_ident first))
          (Info (package_symbol m (p_path p)) (find_package_docs fs p) [] KPackage (p_name p)
                (Some ("package " +:+ p_name p)) "")
    end.

  Lemma visit_table_ok ti p : is_Some (p_module p) → ∃ tbl, visit_package_table digest ti fs env p = Ok tbl.
  Proof.
    intros [m Hm]. unfold visit_package_table. rewrite (res_fold_put ti env p m) by done. eauto.
  Qed.

  Lemma visit_project_package_ok p (docs : docmap) g m :
    pkg_ready p → p_module p = Some m → g_pkgsyms g !! p_path p = Some (package_symbol m (p_path p)) →
    ∃ docs' tbl, visit_project_package digest env fs root (docs, g) p =
        Ok (docs', Global (<[p_path p := (p, tbl)]> (g_symbols g)) (g_pkgsyms g)) ∧
      pass1_table p tbl ∧
      ∀ n, docs' !! n = match last_named n (files p) with
                        | Some e => Some (SDoc (doc_relative_path root n) (Some (package_occurrence fs g p e.2)))
                        | None => docs !! n end.
  Proof.
    intros (Hn & Hmod & Hti) Hm Hg. unfold visit_project_package, visit_package_syntax, pass1_table.
    destruct (p_syntax p) as [|first rest] eqn:Hsy.
    { exists docs, ∅. split; [done|]. split; [done|]. done. }
    destruct Hti as [ti Hti]; [done|]. rewrite Hti.
    destruct (visit_table_ok ti p Hmod) as [tbl Htbl]. rewrite Htbl. cbn [res_bind].
    destruct (add_documents p (p_syntax p) docs) as (docs1 & E1 & H1); [done|].
    rewrite Hsy in E1, H1. cbn [fst snd]. rewrite E1. cbn [res_bind fst snd].
    destruct (Hn first) as [n0 Hn0]; [rewrite Hsy; left|].
    unfold file_name at 1. rewrite Hn0. cbn [res_bind].
    assert (Hin : ∀ f, f ∈ first :: rest → ∃ n, fs_file fs (file_package_pos f) = Some n ∧ is_Some (docs1 !! n)).
    { intros f Hf. destruct (Hn f) as [n Hfn]; [by rewrite Hsy|]. exists n. split; [done|].
      rewrite H1. destruct (last_named n _) eqn:E; [done|]. apply last_named_none in E. exfalso. apply E.
      apply elem_of_list_fmap. exists (p, f). split; [unfold entry_name; cbn; by rewrite Hfn|].
      by apply elem_of_list_fmap_1. }
    destruct (Hin first) as (n0' & Hn0' & [d0 Hd0]); [left|]. assert (n0' = n0) as -> by congruence. rewrite Hd0.
    set (info := package_info fs (g_add g p tbl) p).
    assert (info = Info (package_symbol m (p_path p)) (find_package_docs fs p) [] KPackage (p_name p)
      (Some ("package " +:+ p_name p)) "") as Hinfo.
    { unfold info, package_info, get_pkg_symbol, get_pkg_symbol_by_id. cbn [g_add g_pkgsyms]. by rewrite Hg. }
    assert (Hset : g_set (g_add g p tbl) p (id_pos (file_ident first)) info =
      Global (<[p_path p := (p, pset tbl (id_pos (file_ident first)) info)]> (g_symbols g)) (g_pkgsyms g)).
    { unfold g_set, g_add. cbn [g_symbols g_pkgsyms]. rewrite lookup_insert. by rewrite insert_insert. }
    rewrite Hset.
    destruct (set_occurrences (Global (<[p_path p:=(p, pset tbl (id_pos (file_ident first)) info)]> (g_symbols g)) (g_pkgsyms g))
      p (first :: rest) docs1 Hin) as (docs2 & E2 & H2).
    rewrite E2. cbn [res_bind]. eexists docs2, _. split; [done|]. split.
    { rewrite Hinfo. eauto. }
    intros n. rewrite H2, H1. destruct (last_named n _) as [e|]; [done|done].
  Qed.

  Definition docs_of g (docs0 docs : docmap) (items : list (gpkg * node)) : Prop :=
    ∀ n, docs !! n = match last_named n items with
                     | Some e => Some (SDoc (doc_relative_path root n) (Some (package_occurrence fs g e.1 e.2)))
                     | None => docs0 !! n end.
  Lemma package_occurrence_ext g g' p f : g_pkgsyms g = g_pkgsyms g' →
    package_occurrence fs g p f = package_occurrence fs g' p f.
  Proof. intros E. unfold package_occurrence, get_pkg_symbol, get_pkg_symbol_by_id. by rewrite E. Qed.

  Lemma visit_all ps : ∀ (docs : docmap) g,
    NoDup (map p_path ps) →
    (∀ p, p ∈ ps → pkg_ready p ∧ ∃ m, p_module p = Some m ∧ g_pkgsyms g !! p_path p = Some (package_symbol m (p_path p))) →
    ∃ docs' g', res_fold (visit_project_package digest env fs root) (docs, g) ps = Ok (docs', g') ∧
      g_pkgsyms g' = g_pkgsyms g ∧
      (∀ p, p ∈ ps → ∃ tbl, g_symbols g' !! p_path p = Some (p, tbl) ∧ pass1_table p tbl) ∧
      (∀ k, k ∉ map p_path ps → g_symbols g' !! k = g_symbols g !! k) ∧
      docs_of g docs docs' (files_in_order ps).
  Proof.
    induction ps as [|p ps IH]; intros docs g Hnd Hps.
    { exists docs, g. split_and!; try done. intros p Hp. by apply elem_of_nil in Hp. }
    cbn [map] in Hnd. apply NoDup_cons in Hnd as [Hnp Hnd].
    destruct (Hps p) as (Hr & m & Hm & Hg); [left|].
    destruct (visit_project_package_ok p docs g m Hr Hm Hg) as (docs1 & tbl & E1 & Htbl & Hd1).
    cbn [res_fold]. rewrite E1. cbn [res_bind].
    destruct (IH docs1 (Global (<[p_path p:=(p, tbl)]> (g_symbols g)) (g_pkgsyms g)) Hnd) as (docs2 & g2 & E2 & Hps2 & Ht2 & Ho2 & Hd2).
    { intros q Hq. apply (Hps q). by right. }
    exists docs2, g2. cbn [g_pkgsyms g_symbols] in *. split; [done|]. split; [done|]. split_and!.
    - intros q [->|Hq]%elem_of_cons; [|by apply Ht2]. exists tbl. split; [|done].
      rewrite Ho2; [by rewrite lookup_insert|]. done.
    - intros k Hk. cbn [map] in Hk. apply not_elem_of_cons in Hk as [Hk1 Hk2]. rewrite Ho2 by done.
      by rewrite lookup_insert_ne.
    - intros n. rewrite Hd2. unfold files_in_order. cbn [map List.concat]. rewrite last_named_app.
      unfold files_in_order. destruct (last_named n (List.concat _)) as [e|].
      + by do 3 f_equal.
      + rewrite Hd1. destruct (last_named n (files p)) as [e|] eqn:E; [|done].
        assert (e.1 = p) as ->; [|done]. apply last_named_some in E as [E _].
        apply elem_of_list_fmap in E as (f & -> & _). done.
  Qed.
End FirstPass.

(** *** The order of the packages *)
Lemma packages_of_order (h : pheap) (proj : ptab) order :
  keyed h proj → order ≡ₚ map fst (map_to_list proj) → project_in_order h proj (packages_of h proj order).
Proof.
  intros Hk Ho. pose proof (sorted_keys_lists proj order Ho) as Hl.
  unfold packages_of. set (ks := sorted_keys order) in *.
  set (pick := λ k : string, match proj !! k with Some q => h !! q | None => None end).
  assert (Hm : ∀ ks : list string, (∀ k, k ∈ ks → is_Some (proj !! k)) →
    map p_path (omap pick ks) = ks ∧
    ∀ p : gpkg, p ∈ omap pick ks → ∃ q, proj !! p_path p = Some q ∧ h !! q = Some p).
  { clear -Hk. intros ks. induction ks as [|k ks IH]; intros Hks; [split; [done|]; intros p Hp; by apply elem_of_nil in Hp|].
    destruct IH as [IH1 IH2]; [intros k' Hk'; apply Hks; by right|].
    destruct (Hks k) as [q Hq]; [left|]. destruct (Hk _ _ Hq) as (p & m & Hp & Hpk & _).
    assert (pick k = Some p) as Epk by (unfold pick; by rewrite Hq).
    cbn [omap list_omap]. rewrite Epk. cbn [map]. rewrite IH1, Hpk. split; [done|].
    intros p' [->|Hp']%elem_of_cons; [|by apply IH2]. exists q. by rewrite Hpk. }
  destruct (Hm ks) as [H1 H2]; [intros k Hk'; by apply Hl|]. split; [by rewrite H1|done].
Qed.

(** *** The writer *)
Definition never_fails : writer := λ _ _, None.
(** [w] accepts the messages [l] after [sofar] *)
Definition accepts (w : writer) (sofar l : list message) : Prop :=
  ∀ i m, l !! i = Some m → w (sofar ++ take i l) m = None.
(** [w] fails with [e] at message [i] of [l], and not before *)
Definition fails_at (w : writer) (sofar l : list message) (i : nat) (e : string) : Prop :=
  ∃ m, l !! i = Some m ∧ w (sofar ++ take i l) m = Some e ∧ accepts w sofar (take i l).

Lemma accepts_nil w sofar : accepts w sofar [].
Proof. intros i m H. by rewrite lookup_nil in H. Qed.
Lemma accepts_cons w sofar m l : accepts w sofar (m :: l) ↔ w sofar m = None ∧ accepts w (sofar ++ [m]) l.
Proof.
  split.
  - intros H. split.
    + specialize (H 0 m eq_refl). cbn in H. by rewrite List.app_nil_r in H.
    + intros i m' Hi. specialize (H (S i) m' Hi). cbn in H. by rewrite <-List.app_assoc.
  - intros [H1 H2] [|i] m' Hi; cbn in *.
    + injection Hi as ->. by rewrite List.app_nil_r.
    + specialize (H2 i m' Hi). by rewrite <-List.app_assoc in H2.
Qed.
Lemma accepts_app w sofar l1 l2 : accepts w sofar (l1 ++ l2) ↔ accepts w sofar l1 ∧ accepts w (sofar ++ l1) l2.
Proof.
  revert sofar. induction l1 as [|m l1 IH]; intros sofar; cbn [app].
  - rewrite List.app_nil_r. split; [|by intros [_ ?]]. intros H. split; [apply accepts_nil|done].
  - rewrite !accepts_cons, IH. rewrite <-List.app_assoc. cbn. tauto.
Qed.
Lemma fails_at_cons_S w sofar m l i e : w sofar m = None → fails_at w (sofar ++ [m]) l i e → fails_at w sofar (m :: l) (S i) e.
Proof.
  intros Hw (m' & H1 & H2 & H3). exists m'. split; [done|]. rewrite <-List.app_assoc in H2. split; [done|].
  cbn. by apply accepts_cons.
Qed.
Lemma fails_at_cons_0 w sofar m l e : w sofar m = Some e → fails_at w sofar (m :: l) 0 e.
Proof.
  intros Hw. exists m. split; [done|]. split; [cbn; by rewrite List.app_nil_r|apply accepts_nil].
Qed.
Lemma fails_at_app_l w sofar l1 l2 i e : fails_at w sofar l1 i e → fails_at w sofar (l1 ++ l2) i e.
Proof.
  intros (m & H1 & H2 & H3). pose proof (lookup_lt_Some _ _ _ H1) as Hlt.
  exists m. split; [by apply lookup_app_l_Some|]. rewrite !take_app_le by lia. done.
Qed.
Lemma fails_at_app_r w sofar l1 l2 i e : accepts w sofar l1 → fails_at w (sofar ++ l1) l2 i e →
  fails_at w sofar (l1 ++ l2) (length l1 + i) e.
Proof.
  intros Ha (m & H1 & H2 & H3). exists m. split; [rewrite lookup_app_r by lia; by replace (length l1 + i - length l1) with i by lia|].
  rewrite firstn_app_2. split.
  - by rewrite List.app_assoc in H2 || rewrite List.app_assoc.
  - by apply accepts_app.
Qed.

Lemma write_all_spec w sofar l :
  (accepts w sofar l ∧ write_all w sofar l = (sofar ++ l, None)) ∨
  (∃ i e, fails_at w sofar l i e ∧ write_all w sofar l = (sofar ++ take i l, Some e)).
Proof.
  revert sofar. induction l as [|m l IH]; intros sofar; cbn [write_all].
  - left. split; [apply accepts_nil|by rewrite List.app_nil_r].
  - destruct (w sofar m) as [e|] eqn:Hw.
    + right. exists 0, e. split; [by apply fails_at_cons_0|]. cbn. by rewrite List.app_nil_r.
    + destruct (IH (sofar ++ [m])) as [[H1 H2]|(i & e & H1 & H2)].
      * left. split; [by apply accepts_cons|]. by rewrite H2, <-List.app_assoc.
      * right. exists (S i), e. split; [by apply fails_at_cons_S|]. rewrite H2, <-List.app_assoc. done.
Qed.

Global Instance outcome_dec : EqDecision Index.outcome.
Proof. solve_decision. Defined.

Section Run.
  Context (digest : string → string) (env : tenv) (fs : fset) (h : pheap).
  Context (objstr : obj → string) (mo : map_orders).

  Notation wd w := (write_documents env fs h objstr mo w).
  Lemma write_documents_cut w g docs items : ∀ sofar n k,
    ∃ new, (wd never_fails g docs sofar n k items).1.1 = sofar ++ new ∧
    ((accepts w sofar new ∧ wd w g docs sofar n k items = wd never_fails g docs sofar n k items) ∨
     (∃ i e k', fails_at w sofar new i e ∧ wd w g docs sofar n k items = (sofar ++ take i new, Returned (Some e), k'))).
  Proof.
    induction items as [|[p f] items IH]; intros sofar n k; cbn [write_documents].
    { exists []. cbn. rewrite List.app_nil_r. split; [done|]. left. split; [apply accepts_nil|done]. }
    destruct (file_name fs f) as [name|msg].
    2:{ exists []. cbn. rewrite List.app_nil_r. split; [done|]. left. split; [apply accepts_nil|done]. }
    destruct (docs !! name) as [d|]; [|apply IH].
    destruct (index_file _ _ _ _ _ _ _ _ _ _ _) as [[doc k']|msg].
    2:{ exists []. cbn. rewrite List.app_nil_r. split; [done|]. left. split; [apply accepts_nil|done]. }
    destruct (IH (sofar ++ [MDoc doc]) (S n) k') as (new & E & H).
    exists (MDoc doc :: new). cbn [never_fails]. rewrite E, <-List.app_assoc. split; [done|].
    destruct (w sofar (MDoc doc)) as [e|] eqn:Hw.
    - right. exists 0, e, k'. split; [by apply fails_at_cons_0|]. cbn. by rewrite List.app_nil_r.
    - destruct H as [[H1 H2]|(i & e & k'' & H1 & H2)].
      + left. split; [by apply accepts_cons|done].
      + right. exists (S i), e, k''. split; [by apply fails_at_cons_S|]. rewrite H2, <-List.app_assoc. done.
  Qed.

  Lemma index_cut impl impl_error w root version skip meta ld po ao po2 :
    let run w := index digest env fs h objstr mo w impl impl_error root version skip meta ld po ao po2 in
    (accepts w [] (run never_fails).1 ∧ run w = run never_fails) ∨
    (∃ i e, fails_at w [] (run never_fails).1 i e ∧ run w = (take i (run never_fails).1, Returned (Some e))).
  Proof.
    cbn zeta. unfold index. cbn [never_fails].
    assert (Hone : ∀ (x : list message * Index.outcome) (o : Index.outcome), x = ([MMeta meta], o) → 
      w [] (MMeta meta) = None → accepts w [] x.1).
    { intros x o -> Hw. apply accepts_cons. split; [done|apply accepts_nil]. }
    assert (Hz : ∀ e x, w [] (MMeta meta) = Some e → (∃ l, x = MMeta meta :: l) → 
      ∃ i e', fails_at w [] x i e' ∧ ([], Returned (Some e)) = (take i x, Returned (Some e'))).
    { intros e x Hw [l ->]. exists 0, e. split; [by apply fails_at_cons_0|done]. }
    destruct ld as [err|all proj].
    { destruct (w [] (MMeta meta)) as [e|] eqn:Hw; [right; eapply Hz; eauto|].
      left. split; [|done]. by eapply Hone. }
    destruct (index_visit_packages _ _ _ _ _ _ _ _ _) as [[docs g]|msg].
    2:{ destruct (w [] (MMeta meta)) as [e|] eqn:Hw; [right; eapply Hz; eauto|].
        left. split; [|done]. by eapply Hone. }
    destruct (if skip then _ else _) as [[[[g' k'] exts]|]|msg].
    2, 3: destruct (w [] (MMeta meta)) as [e|] eqn:Hw; [right; eapply Hz; eauto|];
        left; (split; [|done]); by eapply Hone.
    destruct (write_documents_cut w g' docs (items_of (packages_of h proj po2)) [MMeta meta] 0 k')
      as (new & E & H).
    destruct (wd never_fails g' docs [MMeta meta] 0 k' (items_of (packages_of h proj po2))) as [[msgs o] kk] eqn:Ewd.
    cbn [fst] in E. subst msgs.
    assert (Hfull : ∃ l2 oo, (match o with
        | Returned None => let '(msgs, e) := write_all never_fails ([MMeta meta] ++ new) (map MExt exts) in (msgs, Returned e)
        | _ => ([MMeta meta] ++ new, o) end) = (MMeta meta :: new ++ l2, oo) ∧
        (o = Returned None → l2 = map MExt exts ∧ oo = Returned None) ∧ (o ≠ Returned None → l2 = [] ∧ oo = o)).
    { destruct (decide (o = Returned None)) as [->|Ho].
      - exists (map MExt exts), (Returned None). split; [|done].
        destruct (write_all_spec never_fails ([MMeta meta] ++ new) (map MExt exts)) as [[_ E]|(i & e & (m & _ & ? & _) & _)]; [|done].
        rewrite E. rewrite <-List.app_assoc. done.
      - exists [], o. rewrite List.app_nil_r. split; [destruct o as [[|]|]; done|]. done. }
    destruct Hfull as (l2 & oo & Hfull & Ho1 & Ho2).
    rewrite Hfull. cbn [fst].
    destruct (w [] (MMeta meta)) as [e|] eqn:Hw; [right; eapply Hz; eauto|].
    destruct H as [[Ha H]|(i & e & k2 & Hf & H)].
    - rewrite H. destruct (decide (o = Returned None)) as [->|Ho].
      + destruct Ho1 as [-> ->]; [done|].
        destruct (write_all_spec w ([MMeta meta] ++ new) (map MExt exts)) as [[H1 H2]|(i & e & H1 & H2)]; rewrite H2.
        * left. split; [|by rewrite <-List.app_assoc]. apply accepts_cons. split; [done|].
          apply accepts_app. done.
        * right. exists (length ([MMeta meta] ++ new) + i), e. split.
          -- change (MMeta meta :: new ++ map MExt exts) with (([MMeta meta] ++ new) ++ map MExt exts).
             apply fails_at_app_r; [|done]. apply accepts_cons. done.
          -- change (MMeta meta :: new ++ map MExt exts) with (([MMeta meta] ++ new) ++ map MExt exts).
             by rewrite firstn_app_2.
      + destruct Ho2 as [-> ->]; [done|]. left. rewrite List.app_nil_r. split.
        * by apply accepts_cons.
        * destruct o as [[|]|]; done.
    - rewrite H. right. exists (S i), e. split.
      + apply (fails_at_app_l w [] (MMeta meta :: new) l2). by apply fails_at_cons_S.
      + destruct Hf as (m & Hi & _). apply lookup_lt_Some in Hi. cbn [take]. f_equal. cbn [app]. f_equal.
        symmetry. apply take_app_le. lia.
  Qed.
End Run.

(** *** The second pass *)
Lemma same_tables_refl g : same_tables g g.
Proof.
  split; [done|]. intros id. destruct (g_symbols g !! id) as [[p t]|]; [|done]. split; [done|].
  intros pos. by destruct (t !! pos).
Qed.
Lemma same_tables_lookup g g' id p t : same_tables g g' → g_symbols g !! id = Some (p, t) →
  ∃ t', g_symbols g' !! id = Some (p, t') ∧
    ∀ pos, match t !! pos, t' !! pos with
           | Some i, Some i' => same_info i i' | None, None => True | _, _ => False end.
Proof.
  intros [_ H] E. specialize (H id). rewrite E in H. destruct (g_symbols g' !! id) as [[p' t']|]; [|done].
  destruct H as [-> H]. by exists t'.
Qed.
Lemma same_tables_sym g g' : same_tables g g' → same_tables g' g.
Proof.
  intros [H1 H2]. split; [done|]. intros id. specialize (H2 id).
  destruct (g_symbols g !! id) as [[p t]|], (g_symbols g' !! id) as [[p' t']|]; try done.
  destruct H2 as [-> H2]. split; [done|]. intros pos. specialize (H2 pos).
  destruct (t !! pos), (t' !! pos); try done. destruct H2 as (?&?&?&?&?&?). split_and!; done.
Qed.

Section SecondPass.
  Context (digest : string → string) (env : tenv) (objs : nat → option obj) (fs : fset) (h : pheap).
  Context (objstr : obj → string) (mo : map_orders) (root version : string).

  Lemma state_ext st st' locals g : inv env objs root version g locals st → inv env objs root version g locals st' →
    f_locals st = f_locals st'.
  Proof.
    intros H1 H2. apply map_eq. intros p.
    by rewrite (iv_locals _ _ _ _ _ _ _ H1), (iv_locals _ _ _ _ _ _ _ H2).
  Qed.

  Lemma index_file_ok g n k p f name d ti tbl sym :
    orders_ok mo → caches_ok env objs g root version k →
    p_info p = Some ti → typed_file fs ti (imports_of h p) objs f → defs_at_idents ti f → file_of fs f name →
    g_symbols g !! p_path p = Some (p, tbl) → g_pkgsyms g !! p_path p = Some sym →
    d = SDoc (doc_relative_path root name) (Some (package_occurrence fs g p f)) →
    ∃ doc k', index_file env fs h objstr mo g n k p f d = Ok (doc, k') ∧
      caches_ok env objs g root version k' ∧ document_for env objs root version fs h objstr g p f doc.
  Proof.
    intros [Hmt Hml] Hk Hti Htf Hdef Hn Hg Hs ->.
    set (po := package_occurrence fs g p f).
    assert (Hnd : NoDup (map fst (local_defs g p ti tbl f))) by by eapply locals_nodup.
    pose proof (lk_answers env objs root version g fs ti (imports_of h p) f Htf) as Hans.
    pose proof (visit_outcome env objs root version g fs p ti tbl (imports_of h p) po f _ Htf Hans) as Hvo.
    destruct (Hvo k Hk) as [(_ & st & E & O & I)|(Hno & _)]; [|done].
    destruct (Hvo (fresh_caches root version) (fresh_ok _ _ _ _ _)) as [(_ & st0 & E0 & O0 & I0)|(Hno & _)]; [|done].
    unfold index_file. rewrite Hti. cbn [sd_occ]. unfold file_name. rewrite Hn. cbn [res_bind].
    unfold get_package. rewrite Hg. cbn [fmap option_fmap option_map snd]. rewrite E. cbn [res_bind].
    eexists _, _. split; [done|]. split; [apply (iv_caches _ _ _ _ _ _ _ I)|].
    assert (Hpo : po = clause_occurrence fs sym f).
    { unfold po, package_occurrence, clause_occurrence, Definition_, get_pkg_symbol, get_pkg_symbol_by_id. rewrite Hs.
      f_equal. pose proof (tf_wf _ _ _ _ _ Htf) as Hwf.
      destruct (wff_file _ _ _ _ Hwf) as (p0 & h0 & d0 & nm & decls & ->). cbn [file_ident].
      destruct (wff_fit_ident _ _ _ _ Hwf nm) as (H1 & _ & H2).
      { apply (subnodes_child _ (NIdent nm)); [left|apply subnodes_self]. }
      by rewrite range_from_name_span. }
    exists ti, tbl, st0, sym, name, (mo_table mo n tbl), (mo_locals mo n (f_locals st)).
    split; [done|]. split; [done|]. split; [done|]. split; [done|]. split; [|split; [|split]].
    - exists [], (fresh_caches root version). split; [constructor|]. split; [done|]. by rewrite <-Hpo.
    - apply Hmt.
    - rewrite (state_ext st0 st _ g I0 I). apply Hml.
    - unfold to_document. cbn [sd_path]. rewrite O, O0. done.
  Qed.

  Lemma write_documents_ok g docs items : ∀ sofar n k,
    orders_ok mo → caches_ok env objs g root version k →
    (∀ p f, (p, f) ∈ items → ∃ ti tbl sym name, p_info p = Some ti ∧
       typed_file fs ti (imports_of h p) objs f ∧ defs_at_idents ti f ∧ file_of fs f name ∧
       g_symbols g !! p_path p = Some (p, tbl) ∧ g_pkgsyms g !! p_path p = Some sym ∧
       docs !! name = Some (SDoc (doc_relative_path root name) (Some (package_occurrence fs g p f)))) →
    ∃ ds k', write_documents env fs h objstr mo never_fails g docs sofar n k items =
        (sofar ++ map MDoc ds, Returned None, k') ∧
      Forall2 (λ e d, document_for env objs root version fs h objstr g e.1 e.2 d) items ds.
  Proof.
    induction items as [|[p f] items IH]; intros sofar n k Hmo Hk Hit.
    { exists [], k. cbn. rewrite List.app_nil_r. split; [done|constructor]. }
    destruct (Hit p f) as (ti & tbl & sym & name & H1 & H2 & H3 & H4 & H5 & H6 & H7); [left|].
    destruct (index_file_ok g n k p f name _ ti tbl sym Hmo Hk H1 H2 H3 H4 H5 H6 eq_refl) as (doc & k' & E & Hk' & Hdoc).
    destruct (IH (sofar ++ [MDoc doc]) (S n) k' Hmo Hk') as (ds & k2 & E2 & Hds).
    { intros q f' Hq. apply Hit. by right. }
    exists (doc :: ds), k2. cbn [write_documents]. unfold file_name. rewrite H4. cbn [res_bind].
    rewrite H7, E. cbn [never_fails]. rewrite E2. split; [|by constructor].
    cbn [map]. by rewrite <-List.app_assoc.
  Qed.
End SecondPass.

(** What the search for implementations may do (proved of Impls.v in PropImpl.v): it only
    changes relationships and leaves the caches consistent with the tables. *)
Definition impl_contract (env : tenv) (objs : nat → option obj) (root version : string) (h : pheap) (all proj : ptab)
    (impl : global → caches → res (option (global * caches * list syminfo))) : Prop :=
  ∀ g g' k' exts, initial_tables h all proj g → impl g (fresh_caches root version) = Ok (Some (g', k', exts)) →
    same_tables g g' ∧ caches_ok env objs g' root version k'.

(** *** The pipeline *)
Section Pipeline.
  Context (digest : string → string) (env : tenv) (objs : nat → option obj) (fs : fset) (h : pheap).
  Context (objstr : obj → string) (mo : map_orders) (root version : string) (all proj : ptab).
  Context (Hload : loaded_project h all proj).

  Record tables_ok (ps : list gpkg) (g : global) : Prop := TablesOk {
    tk_proj : ∀ p, p ∈ ps → ∃ tbl, g_symbols g !! p_path p = Some (p, tbl) ∧ pass1_table digest env fs p tbl;
    tk_deps : ∀ k p t, k ∉ map p_path ps → g_symbols g !! k = Some (p, t) → t = ∅;
    tk_all : ∀ k q p, all !! k = Some q → h !! q = Some p → k ∉ map p_path ps → g_symbols g !! k = Some (p, ∅);
    tk_syms : ∀ k q p m, all !! k = Some q → h !! q = Some p → p_module p = Some m →
      g_pkgsyms g !! k = Some (package_symbol m k);
    tk_nosym : ∀ k, all !! k = None → g_pkgsyms g !! k = None;
    tk_none : ∀ k, all !! k = None → k ∉ map p_path ps → g_symbols g !! k = None }.

  Lemma project_sym ps g p m : tables_ok ps g → project_in_order h proj ps → p ∈ ps → p_module p = Some m →
    g_pkgsyms g !! p_path p = Some (package_symbol m (p_path p)).
  Proof.
    intros Hg [_ Hp] Hin Hm. destruct (Hp _ Hin) as (q & Hq & Hh). destruct Hload as (_ & _ & Hsame).
    destruct (Hsame _ _ _ Hq Hh) as (q' & p' & H1 & H2 & H3). eapply tk_syms; [done|done|done|congruence].
  Qed.

  Lemma first_pass po ao : key_order proj po → key_order all ao →
    (∀ p, p ∈ packages_of h proj po → named fs p ∧ (p_syntax p ≠ [] → is_Some (p_info p))) →
    ∃ docs g, index_visit_packages digest env fs h root proj all po ao = Ok (docs, g) ∧
      tables_ok (packages_of h proj po) g ∧
      docs_of fs root g ∅ docs (files_in_order (packages_of h proj po)).
  Proof.
    intros Hpo Hao Hready. destruct Hload as (Hka & Hkp & Hsame).
    pose proof (packages_of_order h proj po Hkp Hpo) as Hps. set (ps := packages_of h proj po) in *.
    assert (Hk : ∀ k, k ∈ ao ↔ is_Some (all !! k)).
    { intros k. unfold key_order in Hao. rewrite Hao. split.
      - intros (e & -> & He)%elem_of_list_fmap. destruct e as [k q]. apply elem_of_map_to_list in He. eauto.
      - intros [q Hq]. apply elem_of_list_fmap. exists (k, q). split; [done|]. by apply elem_of_map_to_list. }
    destruct (set_pkg_symbols_ok h all ao new_global Hka) as (g0 & Hg0 & Hs & Hn); [intros k; apply Hk|].
    unfold index_visit_packages. rewrite Hg0. cbn [res_bind]. fold ps.
    destruct Hps as [Hl Hin].
    destruct (visit_all digest env fs root ps ∅ g0) as (docs & g & E & E1 & E2 & E3 & E4).
    { by destruct Hl as (_ & ? & _). }
    { intros p Hp. destruct (Hin p Hp) as (q & Hq & Hh). destruct (Hkp _ _ Hq) as (p1 & m & Hh1 & _ & Hm).
      assert (p1 = p) as -> by congruence. destruct (Hready p Hp) as [Hr1 Hr2]. split; [done|].
      exists m. split; [done|]. destruct (Hsame _ _ _ Hq Hh) as (q' & p' & Hq' & Hh' & Hm').
      eapply Hs; [by apply Hk|done|done|congruence]. }
    exists docs, g. split; [done|]. split.
    - constructor.
      + done.
      + intros k p t Hk' Hg. rewrite E3 in Hg by done. destruct (decide (k ∈ ao)) as [Hka'|Hka'].
        * apply Hk in Hka' as [q Hq]. destruct (Hka _ _ Hq) as (p1 & m & Hh & _ & Hm).
          destruct (Hs k q p1 m) as [_ H]; [by apply Hk|done|done|done|]. congruence.
        * apply Hn in Hka' as [_ H]. rewrite H in Hg. change (g_symbols new_global) with (∅ : gmap string (gpkg * ptable)) in Hg. by rewrite lookup_empty in Hg.
      + intros k q p Hq Hh Hk'. rewrite E3 by done. destruct (Hka _ _ Hq) as (p1 & m & Hh1 & _ & Hm).
        assert (p1 = p) as -> by congruence. eapply Hs; [by apply Hk|done|done|done].
      + intros k q p m Hq Hh Hm. rewrite E1. eapply Hs; [by apply Hk|done|done|done].
      + intros k Hk'. rewrite E1. destruct (Hn k) as [H _]; [|rewrite H; change (g_pkgsyms new_global) with (∅ : gmap string string); by rewrite lookup_empty].
        intros [q Hq]%Hk. congruence.
      + intros k Hk' Hps. rewrite E3 by done. destruct (Hn k) as [_ H]; [|rewrite H; change (g_symbols new_global) with (∅ : gmap string (gpkg * ptable)); by rewrite lookup_empty].
        intros [q Hq]%Hk. congruence.
    - intros n. rewrite E4. destruct (last_named fs n (files_in_order ps)) as [e|]; [|done].
      by rewrite (package_occurrence_ext fs g0 g).
  Qed.

  Lemma files_elem ps p f : (p, f) ∈ files_in_order ps ↔ p ∈ ps ∧ f ∈ p_syntax p.
  Proof.
    unfold files_in_order. rewrite elem_of_concat_map. split.
    - intros (q & Hq & (f' & [= -> ->] & Hf)%elem_of_list_fmap). done.
    - intros [H1 H2]. exists p. split; [done|]. by apply elem_of_list_fmap_1.
  Qed.

  Lemma typed_named ps p : typed_project objs fs h ps → p ∈ ps → named fs p ∧ (p_syntax p ≠ [] → is_Some (p_info p)).
  Proof.
    intros [Ht _] Hp. split.
    - intros f Hf. destruct (Ht p f Hp Hf) as (ti & name & _ & _ & _ & Hn). unfold file_of in Hn. eauto.
    - destruct (p_syntax p) as [|f l] eqn:E; [done|]. intros _.
      destruct (Ht p f Hp) as (ti & name & Hti & _); [rewrite E; left|]. eauto.
  Qed.
  Lemma typed_nodup ps : typed_project objs fs h ps → NoDup (map (entry_name fs) (files_in_order ps)).
  Proof.
    intros [Ht Hd]. apply NoDup_alt. intros i j n. rewrite !list_lookup_fmap.
    destruct (files_in_order ps !! i) as [[p f]|] eqn:Ei; [|done].
    destruct (files_in_order ps !! j) as [[q f']|] eqn:Ej; [|done]. cbn. intros [= H1] [= H2].
    assert (∀ i p f n, files_in_order ps !! i = Some (p, f) → entry_name fs (p, f) = n → file_of fs f n) as Hf.
    { clear -Ht. intros i p f n Hi Hn. apply elem_of_list_lookup_2, files_elem in Hi as [Hp Hf].
      destruct (Ht _ _ Hp Hf) as (ti & name & _ & _ & _ & H). unfold entry_name in Hn. cbn in Hn. unfold file_of in *.
      rewrite H in Hn. congruence. }
    eapply Hd; [exact Ei|exact Ej|by eapply Hf|by eapply Hf].
  Qed.

  Lemma project_unique ps po : project_in_order h proj ps → key_order proj po → packages_of h proj po = ps.
  Proof.
    intros Hps Ho. destruct Hload as (Hka & Hkp & Hsame).
    pose proof (packages_of_order h proj po Hkp Ho) as Hps'.
    assert (map p_path (packages_of h proj po) = map p_path ps) as Em.
    { eapply lists_unique; [apply Hps'|apply Hps]. }
    revert Em. destruct Hps as [_ Hin], Hps' as [_ Hin']. revert Hin Hin'.
    generalize (packages_of h proj po) as l. clear. induction ps as [|p l IH]; intros [|p' l'] Hin Hin' Em; try done.
    cbn [map] in Em. injection Em as E1 E2. f_equal.
    - destruct (Hin p) as (q & Hq & Hh); [left|]. destruct (Hin' p') as (q' & Hq' & Hh'); [left|]. congruence.
    - apply IH; [intros; apply Hin; by right|intros; apply Hin'; by right|done].
  Qed.

  Lemma event_relationships ti p t e t' : apply_event ti env p t e = Ok t' → (∀ pos i, t !! pos = Some i → i_relationships i = []) →
    ∀ pos i, t' !! pos = Some i → i_relationships i = [].
  Proof.
    unfold apply_event. destruct (from_descriptors p (e_descs e)) as [sym|]; cbn [res_bind]; [|done]. intros [= <-] H pos i. unfold pset.
    destruct (t !! e_pos e) as [x|]; [destruct (String.eqb _ _); [apply H|]|]; (intros [[<- <-]|[_ ?]]%lookup_insert_Some; [done|by eapply H]).
  Qed.
  Lemma pass1_relationships p tbl : pass1_table digest env fs p tbl → ∀ pos i, tbl !! pos = Some i → i_relationships i = [].
  Proof.
    unfold pass1_table. destruct (p_syntax p) as [|first rest]; [intros ->; intros pos i; by rewrite lookup_empty|]. destruct (p_info p) as [ti|]; [|done].
    intros (tbl0 & m & Hv & _ & ->). assert (H0 : ∀ pos i, tbl0 !! pos = Some i → i_relationships i = []).
    { revert Hv. unfold visit_package_table. assert (Hz : ∀ pos i, (∅ : ptable) !! pos = Some i → i_relationships i = []) by (intros pos i; by rewrite lookup_empty).
      revert Hz. generalize (∅ : ptable) as t. induction (package_events digest ti fs p) as [|e l IH]; intros t Hz; cbn; [by intros [= <-]|].
      destruct (apply_event ti env p t e) as [t'|] eqn:Ee; cbn; [|done]. apply IH. by eapply event_relationships. }
    intros pos i. unfold pset. destruct (tbl0 !! _) as [x|]; [destruct (String.eqb _ _); [apply H0|]|]; (intros [[<- <-]|[_ ?]]%lookup_insert_Some; [done|by eapply H0]).
  Qed.
  Lemma tables_initial ps g : tables_ok ps g → project_in_order h proj ps → initial_tables h all proj g.
  Proof.
    intros Ht [[Hl _] Hp]. assert (Hk : ∀ k, k ∈ map p_path ps ↔ is_Some (proj !! k)) by done. split.
    - intros k q p Hq Hn Hh. eapply tk_all; [done|done|done|]. intros Hin. apply Hk in Hin. rewrite Hn in Hin. by destruct Hin.
    - intros id pos i (p & t & Hg & Hi). destruct (decide (id ∈ map p_path ps)) as [Hin|Hin].
      + apply elem_of_list_fmap in Hin as (p' & -> & Hin). destruct (tk_proj _ _ Ht p' Hin) as (tbl & Hg' & Hpt). rewrite Hg in Hg'. injection Hg' as -> <-. by eapply pass1_relationships.
      + rewrite (tk_deps _ _ Ht _ _ _ Hin Hg) in Hi. by rewrite lookup_empty in Hi.
  Qed.
  (** what the search for implementations is given and gives, when it is not skipped *)
  Definition searched (impl : global → caches → res (option (global * caches * list syminfo))) (skip : bool) (g0 : global) :=
    if skip then Ok (Some (g0, fresh_caches root version, [])) else impl g0 (fresh_caches root version).

  Lemma pipeline ps po ao po2 impl impl_error (skip : bool) meta :
    project_in_order h proj ps → typed_project objs fs h ps → orders_ok mo →
    key_order proj po → key_order all ao → key_order proj po2 →
    impl_contract env objs root version h all proj impl →
    let run := index digest env fs h objstr mo never_fails impl impl_error root version skip meta (LoadOk all proj) po ao po2 in
    ∃ g0, tables_ok ps g0 ∧
      match searched impl skip g0 with
      | Panic m => run = ([MMeta meta], Crashed m)
      | Ok None => run = ([MMeta meta], Returned (Some impl_error))
      | Ok (Some (g, k, exts)) => same_tables g0 g ∧ ∃ ds,
          run = (MMeta meta :: map MDoc ds ++ map MExt exts, Returned None) ∧
          Forall2 (λ e d, document_for env objs root version fs h objstr g e.1 e.2 d) (files_in_order ps) ds
      end.
  Proof.
    intros Hps Htp Hmo Hpo Hao Hpo2 Hic run. pose proof (λ po, project_unique ps po Hps) as Huniq.
    destruct Hload as (Hka & Hkp & Hsame).
    destruct (first_pass po ao Hpo Hao) as (docs & g0 & E & Htab & Hdocs).
    { rewrite (Huniq po Hpo). intros p Hp. by eapply typed_named. }
    rewrite (Huniq po Hpo) in Htab, Hdocs. exists g0. split; [done|].
    assert (Hrun : run = match searched impl skip g0 with
      | Panic m => ([MMeta meta], Crashed m)
      | Ok None => ([MMeta meta], Returned (Some impl_error))
      | Ok (Some (g, k, exts)) =>
          match write_documents env fs h objstr mo never_fails g docs [MMeta meta] 0 k (files_in_order ps) with
          | (msgs, Returned None, _) =>
              let '(msgs, e) := write_all never_fails msgs (map MExt exts) in (msgs, Returned e)
          | (msgs, o, _) => (msgs, o)
          end
      end).
    { unfold run, index. cbn [never_fails]. rewrite E.
      change (items_of (packages_of h proj po2)) with (files_in_order (packages_of h proj po2)).
      rewrite (Huniq po2 Hpo2). unfold searched, fresh_caches. done. }
    rewrite Hrun. clear Hrun run.
    assert (Hsr : ∀ g k exts, searched impl skip g0 = Ok (Some (g, k, exts)) → same_tables g0 g ∧ caches_ok env objs g root version k).
    { unfold searched. intros g k exts. destruct skip.
      - intros [= <- <- <-]. split; [apply same_tables_refl|apply fresh_ok].
      - intros Er. apply (Hic _ _ _ _ (tables_initial ps g0 Htab Hps) Er). }
    destruct (searched impl skip g0) as [[[[g k] exts]|]|m]; [|done|done].
    destruct (Hsr g k exts eq_refl) as [Hst Hk]. split; [done|].
    destruct (write_documents_ok env objs fs h objstr mo root version g docs (files_in_order ps) [MMeta meta] 0 k Hmo Hk)
      as (ds & k' & Ew & Hds).
    { intros p f Hpf. pose proof (proj1 (files_elem ps p f) Hpf) as [Hp Hf].
      destruct (tpj_info _ _ _ _ Htp p f Hp Hf) as (ti & name & H1 & H2 & H3 & H4).
      destruct (tk_proj _ _ Htab p Hp) as (tbl & Hg & _).
      destruct (same_tables_lookup _ _ _ _ _ Hst Hg) as (tbl' & Hg' & _).
      destruct Hps as [Hl Hin]. destruct (Hin p Hp) as (q & Hq & Hh). destruct (Hkp _ _ Hq) as (p1 & m & Hh1 & _ & Hm).
      assert (p1 = p) as -> by congruence.
      pose proof (project_sym ps g0 p m Htab (conj Hl Hin) Hp Hm) as Hsym.
      exists ti, tbl', (package_symbol m (p_path p)), name. split_and!; try done.
      - by rewrite <-(proj1 Hst).
      - rewrite Hdocs. pose proof (last_named_nodup fs (files_in_order ps) (p, f) (typed_nodup ps Htp) Hpf) as Hln.
        assert (entry_name fs (p, f) = name) as En. { unfold entry_name. cbn. unfold file_of in H4. by rewrite H4. }
        rewrite En in Hln. rewrite Hln. cbn [fst snd]. by rewrite (package_occurrence_ext fs g0 g) by apply Hst. }
    exists ds. split; [|done]. rewrite Ew.
    destruct (write_all_spec never_fails ([MMeta meta] ++ map MDoc ds) (map MExt exts)) as [[_ E']|(i & e & (m & _ & ? & _) & _)]; [|done].
    rewrite E'. rewrite <-List.app_assoc. done.
  Qed.

  (** every successful run, whatever the writer *)
  Lemma successful_run w ps po ao po2 impl impl_error (skip : bool) meta msgs :
    project_in_order h proj ps → typed_project objs fs h ps → orders_ok mo →
    key_order proj po → key_order all ao → key_order proj po2 →
    impl_contract env objs root version h all proj impl →
    index digest env fs h objstr mo w impl impl_error root version skip meta (LoadOk all proj) po ao po2 = (msgs, Returned None) →
    ∃ ds exts g0 g k, msgs = MMeta meta :: map MDoc ds ++ map MExt exts ∧ tables_ok ps g0 ∧
      searched impl skip g0 = Ok (Some (g, k, exts)) ∧ same_tables g0 g ∧
      Forall2 (λ e d, document_for env objs root version fs h objstr g e.1 e.2 d) (files_in_order ps) ds.
  Proof.
    intros Hps Htp Hmo Hpo Hao Hpo2 Hic Hrun.
    pose proof (index_cut digest env fs h objstr mo impl impl_error w root version skip meta (LoadOk all proj) po ao po2) as Hc.
    cbn beta zeta in Hc. rewrite Hrun in Hc. destruct Hc as [[_ Hc]|(i & e & _ & [=])].
    destruct (pipeline ps po ao po2 impl impl_error skip meta Hps Htp Hmo Hpo Hao Hpo2 Hic) as (g0 & Htab & Hcase).
    rewrite <-Hc in Hcase. destruct (searched impl skip g0) as [[[[g k] exts]|]|m] eqn:Es; try done.
    destruct Hcase as (Hst & ds & [= ->] & Hds). exists ds, exts, g0, g, k. done.
  Qed.
End Pipeline.
