(** The example project of ExIndex.v with the text of its files, for C69; a file with a line directive and one with
    a line that is not ASCII. *)
From Coq Require Import Ascii String.
From stdpp Require Import prelude strings gmap sorting.
From Verif Require Import GoStr Scip GoTypes Packages Symbols Document Lookup Pass1 Pass2 Paths
  Loader Index Ast SpecSymbol SpecDecl SpecLookup SpecOcc SpecIndex
  P_Symbols P_Pass1 P_Link P_Lookup P_Pass2 P_Occ P_Scope P_Index PropDecl PropOcc PropIndex PropCross ExDecl ExOcc ExIndex
  Source SpecSource P_Source PropSource SpecImport.
Open Scope string_scope.
Open Scope list_scope.

Definition dq (s : string) : string := String dquote (s +:+ String dquote "").
Definition t_p : string := "package p" +:+ nl +:+ nl +:+ "import f " +:+ dq "fmt" +:+ nl +:+ nl +:+ nl +:+ nl +:+
  "func F[S ~[]E, E any](s S) int{ x := 1;f.Println(x);return x }" +:+ nl.
Definition t_r : string := "package  r" +:+ nl +:+ "import " +:+ dq "ex.org/p" +:+ nl +:+ nl +:+ "var y = p.F" +:+ nl.
Definition sp : src := Src "/src/p.go" 1 t_p [].
Definition sr1 : src := Src "/src/r/r_test.go" 201 ("package  r" +:+ nl) [].
Definition sr2 : src := Src "/src/r/r.go" 301 t_r [].
Definition sr3 : src := Src "/src/r/doc.go" 401 ("package  r" +:+ nl) [].
Definition w_srcs : list src := [sp; sr1; sr2; sr3].
Definition w_fs : fset := file_set w_srcs.
Definition W_ : project := Project p_env q_objs w_fs x_h x_all x_proj [x_p; x_r].

Lemma w_disjoint : disjoint_files w_srcs.
Proof.
  split; [intros s Hs; unfold w_srcs in Hs; repeat (apply elem_of_cons in Hs as [->|Hs]; [done|]); by apply elem_of_nil in Hs|].
  assert (H : ∀ s, s ∈ w_srcs → ∀ p, covers s p = true → (s_base s <= p <= s_base s + 98)%Z ∧
    (s_base s = 1 ∨ s_base s = 201 ∨ s_base s = 301 ∨ s_base s = 401)%Z).
  { assert (Hl : ∀ s, s ∈ w_srcs → (Z.of_nat (slen (s_text s)) <= 98)%Z).
    { intros s Hs. assert (Hb : forallb (λ s, Nat.leb (slen (s_text s)) 98) w_srcs = true) by (vm_compute; reflexivity).
      rewrite forallb_forall in Hb. specialize (Hb s (proj1 (elem_of_list_In _ _) Hs)). apply Nat.leb_le in Hb. lia. }
    intros s Hs p Hc. specialize (Hl s Hs). unfold covers in Hc. apply andb_true_iff in Hc as [H1%Z.leb_le H2%Z.leb_le].
    split; [lia|]. clear -Hs. unfold w_srcs in Hs.
    repeat (apply elem_of_cons in Hs as [->|Hs]; [cbn; lia|]). by apply elem_of_nil in Hs. }
  intros s s' p Hs Hs' Hc Hc'. destruct (H s Hs p Hc) as [A1 A2], (H s' Hs' p Hc') as [B1 B2].
  assert (E : s_base s = s_base s') by lia. clear -Hs Hs' E. unfold w_srcs in Hs, Hs'.
  repeat (apply elem_of_cons in Hs as [->|Hs]; [repeat (apply elem_of_cons in Hs' as [->|Hs']; [done|]); by apply elem_of_nil in Hs'|]).
  by apply elem_of_nil in Hs.
Qed.

(** [typed_file] depends on the file set only through the bounds of positions *)
Lemma typed_fs fs fs' ti imports objs f : typed_file fs ti imports objs f →
  (∀ i, i ∈ node_idents f → pos_fits (fs_position fs' (id_pos i)) ∧
      pos_fits (fs_position fs' (id_pos i + Z.of_nat (slen (id_name i)))%Z) ∧
      (pos_col (fs_position fs' (id_pos i)) + Z.of_nat (slen (id_name i)) < 2^31)%Z) →
  (∀ d p e r nm t b, NFuncDecl d p e r nm t b ∈ file_decls f → pos_fits (fs_position fs' p) ∧ pos_fits (fs_position fs' e)) →
  (∀ ptr nm p l path imp, NImportSpec ptr nm p l ∈ subnodes f → imports path = Some imp →
      pos_fits (fs_position fs' p) ∧ (pos_col (fs_position fs' p) + Z.of_nat (slen (p_path imp)) < 2^31)%Z) →
  typed_file fs' ti imports objs f.
Proof.
  intros [[H1 H2 H3 H4 H5 H6 _ _ _] Hu Hc] Hi Hf Him. split; [|done|done]. split; try done.
  intros i Hin. apply Hi. by apply elem_of_node_idents.
Qed.
Lemma w_typed_p : typed_file w_fs q_ti (imports_of x_h x_p) q_objs q_file.
Proof.
  eapply typed_fs; [apply x_typed_p|..].
  - intros i Hi. enum Hi; subst i; fits.
  - intros d p e r nm t b H. enum H. injection H as <- <- <- <- <- <- <-. fits.
  - intros ptr nm p l path imp Hin Himp. rewrite x_imports in Himp.
    assert (imp = fmt_pkg) as ->. { unfold q_imports in Himp. destruct (String.eqb _ _); congruence. }
    enum Hin. injection Hin as <- <- <- <-. fits.
Qed.
Lemma w_typed_r f : f ∈ [r_file1; r_file2; r_file3] → typed_file w_fs r_ti (imports_of x_h x_r) q_objs f.
Proof.
  intros Hf. eapply typed_fs; [by apply x_typed_r|..].
  - intros i Hi. enum Hf; subst f; enum Hi; subst i; fits.
  - intros d p e r nm t b H. enum Hf; subst f; enum H.
  - intros ptr nm p l path imp Hin Himp.
    assert (imp = x_p) as ->. { unfold imports_of in Himp. cbn [p_imports x_r List.find fst snd] in Himp. destruct (String.eqb _ _); [|done]. vm_compute in Himp. by injection Himp as <-. }
    enum Hf; subst f; enum Hin. injection Hin as <- <- <- <-. fits.
Qed.
Lemma w_indexable : indexable q_objs w_fs x_h x_all x_proj [x_p; x_r].
Proof.
  split; [apply x_loaded|apply x_order| |].
  - split.
    + intros p f Hp Hf. apply elem_of_cons in Hp as [->|Hp].
      * apply elem_of_list_singleton in Hf as ->. exists q_ti, "/src/p.go".
        split; [done|]. split; [apply w_typed_p|]. split; [apply q_defs_at|done].
      * apply elem_of_list_singleton in Hp as ->. pose proof (w_typed_r f Hf) as H1. destruct (x_typed_r f Hf) as [_ H2].
        exists r_ti. enum Hf; subst f; eexists; repeat (split; [done|]); reflexivity.
    + intros i j p f q f' name Hi Hj Hf Hf'.
      assert (NoDup (map (λ e : gpkg * node, fs_file w_fs (file_package_pos e.2)) (files_in_order [x_p; x_r]))) as Hnd.
      { vm_compute. repeat (apply NoDup_cons; split; [intros H; enum H|]). constructor. }
      eapply (NoDup_lookup _ i j (Some name) Hnd); rewrite list_lookup_fmap.
      * rewrite Hi. cbn -[w_fs]. f_equal. exact Hf.
      * rewrite Hj. cbn -[w_fs]. f_equal. exact Hf'.
  - intros p f name i Hp Hf Hfn Hi. rewrite <- elem_of_node_idents in Hi.
    apply elem_of_cons in Hp as [->|Hp].
    + apply elem_of_list_singleton in Hf as ->. unfold file_of in Hfn. vm_compute in Hfn. injection Hfn as <-.
      enum Hi; subst i; reflexivity.
    + apply elem_of_list_singleton in Hp as ->. unfold file_of in Hfn.
      enum Hf; subst f; vm_compute in Hfn; injection Hfn as <-; enum Hi; subst i; reflexivity.
Qed.
Definition w_run : list message * Index.outcome :=
  Index.index p_digest p_env w_fs x_h (λ o, o_name o) x_mo (λ _ _, None) x_impl "" "/src" "v1.0.0" false x_meta
    (LoadOk x_all x_proj) x_po x_ao x_po.
Definition w_msgs : list message := w_run.1.
Lemma w_success : w_run = (w_msgs, Returned None).
Proof. vm_compute. reflexivity. Qed.
Lemma w_indexed : indexed W_ w_msgs.
Proof.
  exists p_digest, (λ o, o_name o), x_mo, "/src", "v1.0.0", x_impl, "", x_po, x_ao, x_po, false, x_meta, (λ _ _, None).
  split; [apply w_indexable|]. split; [apply x_mo_ok|]. split; [apply x_po_ok|]. split; [apply x_ao_ok|]. split; [apply x_po_ok|].
  split; [apply x_impl_ok|exact w_success].
Qed.

Lemma str_split n s : s = str_take n s +:+ str_drop n s.
Proof.
  revert s. induction n as [|n IH]; intros [|c s]; try done. cbn [str_take str_drop].
  change (String c (str_take n s) +:+ str_drop n s) with (String c (str_take n s +:+ str_drop n s)). by rewrite <-IH.
Qed.
(** written, by computation *)
Definition writtenb (s : src) (p : Z) (t : string) : bool :=
  let n := Z.to_nat (p - s_base s) in
  (Z.leb (s_base s) p && Nat.leb n (slen (s_text s)) && String.eqb (str_take (slen t) (str_drop n (s_text s))) t)%bool.
Lemma writtenb_ok s p t : writtenb s p t = true → written s p t.
Proof.
  unfold writtenb. intros [[H1%Z.leb_le H2%Nat.leb_le]%andb_true_iff H3%String.eqb_eq]%andb_true_iff.
  set (n := Z.to_nat (p - s_base s)) in *.
  exists (str_take n (s_text s)), (str_drop (slen t) (str_drop n (s_text s))). split.
  - rewrite <-H3 at 1. rewrite <-str_split. apply str_split.
  - assert (slen (str_take n (s_text s)) = n) as ->; [|unfold n; lia].
    clear -H2. revert H2. generalize (s_text s) as x. clear. induction n as [|n IH]; intros [|c x] H; try done; cbn in H; [lia|].
    cbn [str_take]. rewrite slen_cons, IH; [done|unfold slen in *; lia].
Qed.
Lemma w_parsed_p : parsed_from sp q_file.
Proof.
  split.
  - intros i Hi. enum Hi; subst i; (split; [by split|apply writtenb_ok; vm_compute; reflexivity]).
  - intros ptr nm p lit H. enum H. injection H as <- <- <- <-. split; [apply writtenb_ok; vm_compute; reflexivity|].
    exists "fmt". split; [by exists dquote|by split].
  - intros d p e r nm t b H. enum H. injection H as <- <- <- <- <- <- <-.
    exists "func F[S ~[]E, E any](s S) int{ x := 1;f.Println(x);return x }". split; [apply writtenb_ok; vm_compute; reflexivity|].
    split; [done|]. by exists "func F[S ~[]E, E any](s S) int{ x := 1;f.Println(x);return x ", "}"%char.
Qed.
Lemma w_parsed_r : parsed_from sr2 r_file2.
Proof.
  split.
  - intros i Hi. enum Hi; subst i; (split; [by split|apply writtenb_ok; vm_compute; reflexivity]).
  - intros ptr nm p lit H. enum H. injection H as <- <- <- <-. split; [apply writtenb_ok; vm_compute; reflexivity|].
    exists "ex.org/p". split; [by exists dquote|by split].
  - intros d p e r nm t b H. enum H.
Qed.
Lemma w_paths_p : paths_as_written W_ x_p q_file.
Proof.
  intros ti ptr nm pos lit o ip imp Hti Hin Hpn Hk Him. cbn in Hti. injection Hti as <-.
  cbn [pr_heap W_] in Him. apply imports_of_imported in Him. rewrite x_imports in Him.
  assert (imp = fmt_pkg) as ->. { unfold q_imports in Him. destruct (String.eqb _ _); congruence. }
  enum Hin. injection Hin as <- <- <- <-. by exists dquote.
Qed.
(** C69 applies to both files that have declarations; the ranges of r.go *)
Example C69_ex : indexed W_ w_msgs ∧ pr_fs W_ = file_set w_srcs ∧ disjoint_files w_srcs ∧
  (sp ∈ w_srcs ∧ parsed_from sp q_file ∧ paths_as_written W_ x_p q_file) ∧ (sr2 ∈ w_srcs ∧ parsed_from sr2 r_file2) ∧
  (λ d, map oc_range (d_occs d)) <$> (documents w_msgs !! 2) = Some [[0; 9; 10]; [1; 8; 16]; [3; 4; 5]; [3; 8; 9]; [3; 10; 11]]%Z.
Proof.
  split; [exact w_indexed|]. split; [reflexivity|]. split; [exact w_disjoint|].
  split; [split; [left|exact (conj w_parsed_p w_paths_p)]|].
  split; [split; [right; right; left|exact w_parsed_r]|]. vm_compute. reflexivity.
Qed.

(** a file with a line directive:
    //line q.y:10
    package q
    var z = 1 *)
Definition v_text : string := "//line q.y:10" +:+ nl +:+ "package q" +:+ nl +:+ "var z = 1" +:+ nl.
Definition v_src : src := Src "/src/q.go" 1 v_text [Directive 14 "q.y" 10 0].
Definition v_z : Ast.ident := mk 1 "z" 29.
Definition v_file : node := NFile 15 false "" (mk 0 "q" 23) [NGenDecl 25 VAR "" [NValueSpec "" "" [v_z] None [NOther 33 []]]].
Definition v_tpkg : tpkg := TPkg "ex.org/q" [].
Definition v_oz : obj := Obj 1 "z" (Some v_tpkg) 29 (OVar false) (TBasic BInt false) None.
Definition v_ti : tinfo := TInfo (tab [(1, v_oz)]) (λ _, None) (λ _, None) [] (λ _, None) (λ _, "var z int").
Definition v_p : gpkg := GPkg 1 "ex.org/q" "q" (Some p_mod) [] [v_file] (Some v_tpkg) (Some v_ti).
Definition v_h : pheap := {[ 1 := v_p ]}.
Definition v_all : ptab := {[ "ex.org/q" := 1 ]}.
Definition v_run : list message * Index.outcome :=
  Index.index p_digest p_env (file_set [v_src]) v_h (λ o, o_name o) x_mo (λ _ _, None) x_impl "" "/src" "v1.0.0" false x_meta
    (LoadOk v_all v_all) ["ex.org/q"] ["ex.org/q"] ["ex.org/q"].
Example C69_directive_ex :
  written v_src (id_pos v_z) (id_name v_z) ∧
  (∃ alt, active (s_directives v_src) (id_pos v_z - s_base v_src) None = Some alt ∧ dir_col alt = 0%Z) ∧
  v_run.2 = Returned None ∧
  map (λ d, (d_path d, map (λ o, (oc_symbol o, oc_range o)) (d_occs d))) (documents v_run.1) =
    [("q.go", [("scip-go gomod ex.org v1.0.0 `ex.org/q`/", [9; -1; 0]%Z); ("scip-go gomod ex.org v1.0.0 `ex.org/q`/z.", [10; -1; -1]%Z)])].
Proof.
  split; [apply writtenb_ok; vm_compute; reflexivity|]. split; [by eexists|]. split; vm_compute; reflexivity.
Qed.

(** a client that counts columns in characters: var s, t = "e-acute", F *)
Definition runes (s : string) : nat := length (List.filter (λ c, negb (in_range "128" "191" c)) (String.list_ascii_of_string s)).
Definition u_text : string := "package p" +:+ nl +:+ "var s, t = " +:+ dq (String "195" (String "169" "")) +:+ ", F" +:+ nl.
Definition u_src : src := Src "/src/p.go" 1 u_text [].
Definition u_F : Ast.ident := mk 1 "F" 28.
Lemma take_app a b : str_take (slen a) (a +:+ b) = a.
Proof. induction a as [|c a IH]; [by destruct b|]. change (String c a +:+ b) with (String c (a +:+ b)). rewrite slen_cons. cbn [str_take]. by rewrite IH. Qed.
Theorem C69_characters_refuted : ∃ s i, s_directives s = [] ∧ one_line (id_name i) ∧ written s (id_pos i) (id_name i) ∧
  (∀ x, is_ascii x → runes x = slen x) ∧
  selects slen (s_text s) (ident_range (file_set [s]) i None) (id_pos i - s_base s) (id_name i) ∧
  ∀ off, ¬ selects runes (s_text s) (ident_range (file_set [s]) i None) off (id_name i).
Proof.
  exists u_src, u_F. split; [done|]. split; [by split|].
  assert (Hw : written u_src (id_pos u_F) (id_name u_F)) by (apply writtenb_ok; vm_compute; reflexivity). split; [exact Hw|].
  split; [|split].
  - intros x. unfold is_ascii, runes. induction x as [|c x IH]; [done|]. cbn [str_forallb String.list_ascii_of_string List.filter].
    intros [Hc Hx]%andb_true_iff. unfold in_range. apply Nat.ltb_lt in Hc.
    assert (Nat.leb (nat_of_ascii "128") (nat_of_ascii c) = false) as E by (apply Nat.leb_gt; exact Hc).
    rewrite slen_cons, <-(IH Hx). destruct (negb _) eqn:En; [done|].
    exfalso. apply negb_false_iff in En. apply andb_true_iff in En as [En _]. vm_compute in E. revert En.
    clear -Hc. intros En. revert Hc En. destruct c as [[] [] [] [] [] [] [] []]; vm_compute; intros; try discriminate; lia.
  - change (ident_range (file_set [u_src]) u_F None) with (span (fs_position (file_set [u_src]) (id_pos u_F)) (fs_position (file_set [u_src]) (id_pos u_F + Z.of_nat (slen (id_name u_F))))).
    replace (ident_range (file_set [u_src]) u_F None) with (ident_span (file_set [u_src]) u_F) by (vm_compute; reflexivity).
    apply ident_selects; [|left|done|by split|exact Hw].
    split; [intros s ->%elem_of_list_singleton; done|]. by intros s s' p ->%elem_of_list_singleton ->%elem_of_list_singleton.
  - intros off (a & b & l1 & c1 & l2 & c2 & E & _ & D & R & _).
    apply reaches_fun in R as [R1 R2]. vm_compute in D. injection D as D1 D2 _ _.
    assert (Hall : forallb (λ n, negb (Nat.eqb (count_char newline (str_take n u_text)) 1 &&
        Nat.eqb (runes (last_line (str_take n u_text))) 17 && String.eqb (str_take 1 (str_drop n u_text)) "F")%bool) (List.seq 0 (S (slen u_text))) = true)
      by (vm_compute; reflexivity).
    rewrite forallb_forall in Hall. specialize (Hall (slen a)).
    change (s_text u_src) with u_text in E. rewrite E in Hall.
    assert (Hd : str_drop (slen a) (a +:+ id_name u_F +:+ b) = id_name u_F +:+ b).
    { clear. induction a as [|c a IH]; [done|]. exact IH. }
    rewrite take_app, Hd in Hall.
    assert (Hc : negb (Nat.eqb (count_char newline a) 1 && Nat.eqb (runes (last_line a)) 17 && String.eqb (str_take 1 (id_name u_F +:+ b)) "F")%bool = true).
    { apply Hall. apply in_seq. rewrite slen_app. lia. }
    apply negb_true_iff in Hc. rewrite andb_false_iff, andb_false_iff in Hc. destruct Hc as [[Hc%Nat.eqb_neq|Hc%Nat.eqb_neq]|Hc]; [lia|lia|].
    by destruct b.
Qed.
Print Assumptions C69_characters_refuted.
