(** C70: go-to-definition has one answer: the symbol of a package-level declaration has exactly one definition and
    exactly one description in the whole index. *)
From Coq Require Import Ascii String.
From stdpp Require Import prelude strings gmap sorting.
From Verif Require Import GoStr Scip GoTypes Packages Symbols Document Lookup Pass1 Pass2 Paths
  Loader Index Ast SpecSymbol SpecDecl SpecLookup SpecOcc SpecIndex SpecPrecise
  P_Symbols P_Pass1 P_Link P_Lookup P_Pass2 P_Occ P_Scope P_Index P_Precise PropDecl PropOcc PropIndex PropCross PropNav PropPrecise.
Open Scope string_scope.
Open Scope list_scope.

(** *** Specification *)
(** k is introduced by identifier i only (no redeclaration: the type checker rejects all others, except functions
    named init and methods that embedded interface literals repeat) *)
Definition introduced_once (p : gpkg) (i : Ast.ident) (k : dkey) : Prop := ∀ pos, introduced_at p k pos → pos = id_pos i.
(** the element at index (n, j) of the nested list of all occurrences (descriptions) of the index *)
Definition occurrence_at (msgs : list message) (n j : nat) (o : occurrence) : Prop :=
  ∃ d, documents msgs !! n = Some d ∧ d_occs d !! j = Some o.
Definition description_at (msgs : list message) (n j : nat) (info : syminfo) : Prop :=
  ∃ d, documents msgs !! n = Some d ∧ d_symbols d !! j = Some info.

(** *** Lists with at most one element that satisfies Q *)
Section AtMost.
  Context {A : Type} (Q : A → Prop) {Qd : ∀ x, Decision (Q x)}.
  Lemma at_most_index (l : list A) j j' x y : length (filter Q l) ≤ 1 → l !! j = Some x → l !! j' = Some y → Q x → Q y → j = j'.
  Proof.
    revert j j'. induction l as [|a l IH]; intros j j' Hl Hx Hy Qx Qy; [done|].
    rewrite filter_cons in Hl. destruct (decide (Q a)) as [Qa|Qa].
    - cbn in Hl. assert (Hn : filter Q l = []) by (destruct (filter Q l); [done|cbn in Hl; lia]).
      assert (Hno : ∀ k z, l !! k = Some z → Q z → False).
      { intros k z Hk Qz. assert (z ∈ filter Q l) as Hz by (apply elem_of_list_filter; split; [done|by eapply elem_of_list_lookup_2]).
        rewrite Hn in Hz. by apply elem_of_nil in Hz. }
      destruct j as [|j]; [|by destruct (Hno j x)]. destruct j' as [|j']; [done|by destruct (Hno j' y)].
    - destruct j as [|j]; [by injection Hx as ->|]. destruct j' as [|j']; [by injection Hy as ->|].
      f_equal. by eapply IH.
  Qed.
  Lemma filter_none (l : list A) : (∀ x, x ∈ l → ¬ Q x) → filter Q l = [].
  Proof.
    intros Hno. destruct (filter Q l) as [|x l'] eqn:E; [done|]. exfalso.
    assert (x ∈ filter Q l) as Hx by (rewrite E; left). apply elem_of_list_filter in Hx as [Qx Hx]. by apply (Hno x).
  Qed.
End AtMost.

Lemma filter_sub {A} (Q : A → Prop) {Qd : ∀ x, Decision (Q x)} (l : list A) : filter Q l `sublist_of` l.
Proof.
  induction l as [|x l IH]; [constructor|]. rewrite filter_cons. destruct (decide (Q x)); [by apply sublist_skip|by apply sublist_cons].
Qed.

(** *** At most one definition *)
Section Nodes.
  Context (g : global) (fs : fset) (pkg : gpkg) (ti : tinfo) (tbl : ptable) (imports : string → option gpkg) (lookup : obj → lookup_result).
  Context (s : string).
  Let Q (o : occurrence) : Prop := is_def o ∧ oc_symbol o = s.
  Local Instance Q_dec o : Decision (Q o).
  Proof. unfold Q, is_def. apply _. Defined.

  Lemma import_refs_ref ptr nm p o : o ∈ import_refs g fs ti imports ptr nm p → ¬ is_def o.
  Proof.
    unfold import_refs. destruct (ti_pkgname_of ti ptr) as [po|]; [|by intros ?%elem_of_nil].
    destruct (o_kind po); try by intros ?%elem_of_nil.
    destruct (imports imported_path) as [imp|]; [|by intros ?%elem_of_nil].
    destruct (g_pkgsyms g !! _); [|by intros ?%elem_of_nil].
    intros [H|H]%elem_of_app; [|by apply elem_of_list_singleton in H as ->].
    destruct nm as [j|]; [|by apply elem_of_nil in H].
    destruct (_ || _)%bool; [by apply elem_of_nil in H|by apply elem_of_list_singleton in H as ->].
  Qed.
  Lemma node_at_most before e : length (filter Q (node_occs g fs pkg ti tbl imports lookup before e)) ≤ 1.
  Proof.
    assert (Hone : ∀ o, length (filter Q [o]) ≤ 1).
    { intros o. rewrite filter_cons. destruct (decide (Q o)); cbn; lia. }
    destruct e as [par n]. destruct n; try (cbn; lia).
    - cbn [node_occs]. destruct (hidden g ti par); [cbn; lia|].
      destruct (names_package ti i) as [[u path]|]; [destruct (g_pkgsyms g !! path); [apply Hone|cbn; lia]|].
      destruct (String.eqb _ _); [cbn; lia|]. destruct (switch_object ti i); [apply Hone|].
      rewrite filter_app, app_length.
      assert (filter Q (use_occs fs ti lookup (before ++ option_list (local_def g pkg ti tbl (par, NIdent i))) i) = []) as ->.
      { apply filter_none. intros o Ho [Hd _]. unfold use_occs in Ho.
        destruct (ti_uses ti (id_ptr i)) as [u|]; [|by apply elem_of_nil in Ho].
        destruct (local_symbol _ _); [by apply elem_of_list_singleton in Ho as ->|].
        destruct (lookup u); [by apply elem_of_list_singleton in Ho as ->|by apply elem_of_nil in Ho..]. }
      cbn [length]. rewrite Nat.add_0_r. unfold def_occs.
      destruct (ti_defs ti (id_ptr i)) as [d|]; [|cbn; lia]. destruct (registered g pkg tbl (o_pos d)); apply Hone.
    - cbn [node_occs]. rewrite filter_none; [cbn; lia|]. intros o Ho [Hd _]. by eapply import_refs_ref.
  Qed.

  Definition entry_ident (e : option node * node) : option Ast.ident := match e.2 with NIdent i => Some i | _ => None end.
  Lemma nodes_at_most l pos before : NoDup (map id_pos (omap entry_ident l)) →
    (∀ before' e o, e ∈ l → o ∈ node_occs g fs pkg ti tbl imports lookup before' e → Q o → ∃ i, e.2 = NIdent i ∧ id_pos i = pos) →
    length (filter Q (nodes_occs g fs pkg ti tbl imports lookup before l)) ≤ 1.
  Proof.
    revert before. induction l as [|e l IH]; intros before Hnd H; [cbn; lia|]. cbn [nodes_occs]. rewrite filter_app, app_length.
    pose proof (node_at_most before e) as H1.
    assert (Hnd' : NoDup (map id_pos (omap entry_ident l))).
    { change (omap entry_ident (e :: l)) with (match entry_ident e with Some b => b :: omap entry_ident l | None => omap entry_ident l end) in Hnd.
      destruct (entry_ident e); [|done]. cbn in Hnd. by apply NoDup_cons in Hnd as [_ ?]. }
    destruct (filter Q (node_occs g fs pkg ti tbl imports lookup before e)) as [|o rest] eqn:E.
    { cbn. apply IH; [done|]. intros b' e' o He. apply H. by right. }
    assert (Hz : filter Q (nodes_occs g fs pkg ti tbl imports lookup (before ++ option_list (local_def g pkg ti tbl e)) l) = []).
    { apply filter_none. intros o' Ho' Qo'. apply nsoccs_elem in Ho' as (l1 & e' & l2 & El & Ho').
      assert (Ho : o ∈ filter Q (node_occs g fs pkg ti tbl imports lookup before e)) by (rewrite E; left).
      apply elem_of_list_filter in Ho as [Qo Ho].
      destruct (H before e o (elem_of_list_here _ _) Ho Qo) as (i & Ei & Hi).
      destruct (H _ e' o' ltac:(right; rewrite El; apply elem_of_app; right; left) Ho' Qo') as (i' & Ei' & Hi').
      change (omap entry_ident (e :: l)) with (match entry_ident e with Some b => b :: omap entry_ident l | None => omap entry_ident l end) in Hnd.
      unfold entry_ident in Hnd at 1. rewrite Ei in Hnd. cbn [map] in Hnd. apply NoDup_cons in Hnd as [Hnd _]. apply Hnd.
      apply elem_of_list_fmap. exists i'. split; [congruence|]. apply elem_of_list_omap. exists e'.
      split; [rewrite El; apply elem_of_app; right; left|]. unfold entry_ident. by rewrite Ei'. }
    rewrite Hz. cbn [length] in *. lia.
  Qed.
End Nodes.

(** at most one entry, by key *)
Lemma keyed_at_most {A} (Q : A → Prop) {Qd : ∀ x, Decision (Q x)} (l : list (Z * A)) pos : NoDup (map fst l) →
  (∀ q x, (q, x) ∈ l → Q x → q = pos) → length (filter Q (map snd l)) ≤ 1.
Proof.
  induction l as [|[q x] l IH]; intros Hnd H; [cbn; lia|]. cbn [map fst snd] in *. apply NoDup_cons in Hnd as [Hq Hnd].
  rewrite filter_cons. destruct (decide (Q x)) as [Qx|Qx]; [|apply IH; [done|]; intros q' x' Hin; apply H; by right].
  assert (filter Q (map snd l) = []) as ->; [|cbn; lia]. apply filter_none. intros y Hy Qy.
  apply elem_of_list_fmap in Hy as ([q' y'] & -> & Hy). apply Hq.
  assert (q = pos) as -> by (eapply H; [left|done]). assert (q' = pos) as -> by (eapply H; [by right|done]).
  apply elem_of_list_fmap. by exists (pos, y').
Qed.

(** *** The whole index *)
Section Index.
  Context (P : project) (msgs : list message) (Hidx : indexed P msgs) (Hcl : clean_modules P)
    (Hgr : ∀ p, p ∈ pr_pkgs P → pkg_grammatical p).
  Context (p1 : gpkg) (m1 : gmodule) (k : dkey) (Hp1 : p1 ∈ pr_pkgs P) (Hm1 : p_module p1 = Some m1).
  Context (i0 : Ast.ident) (Honce : introduced_once p1 i0 k).
  Let s := key_symbol (p_path p1) m1 k.

  Lemma unique_document n n' d d' j j' o o' :
    documents msgs !! n = Some d → documents msgs !! n' = Some d' → d_occs d !! j = Some o → d_occs d' !! j' = Some o' →
    is_def o → is_def o' → oc_symbol o = s → oc_symbol o' = s → n = n' ∧ j = j'.
  Proof.
    intros Hd Hd' Ho Ho' Do Do' So So'.
    assert (Hfile : ∀ n d j o, documents msgs !! n = Some d → d_occs d !! j = Some o → is_def o → oc_symbol o = s →
      ∃ f, files_in_order (pr_pkgs P) !! n = Some (p1, f) ∧ f ∈ p_syntax p1 ∧ length (filter (λ o, is_def o ∧ oc_symbol o = s) (d_occs d)) ≤ 1 ∧
        ∃ name, file_of (pr_fs P) f name ∧ fs_file (pr_fs P) (id_pos i0) = Some name).
    2: { destruct (Hfile n d j o Hd Ho Do So) as (f & Hf & Hfs & Hl & name & Hn & Hi).
      destruct (Hfile n' d' j' o' Hd' Ho' Do' So') as (f' & Hf' & _ & _ & name' & Hn' & Hi').
      assert (name' = name) as -> by congruence.
      assert (n = n') as <-.
      { destruct Hidx as (digest & objstr & mo & root & version & impl & ie & po & ao & po2 & skip & meta & w & Hix & _).
        exact (tpj_files _ _ _ _ (ix_typed _ _ _ _ _ _ Hix) _ _ _ _ _ _ _ Hf Hf' Hn Hn'). }
      split; [done|]. assert (d' = d) as -> by congruence.
      eapply (at_most_index (λ o, is_def o ∧ oc_symbol o = s)); [exact Hl|exact Ho|exact Ho'|done|done]. }
    clear n n' d d' j j' o o' Hd Hd' Ho Ho' Do Do' So So'. intros n d j o Hdn Ho Do So.
    destruct Hidx as (digest & objstr & mo & root & version & impl & ie & po & ao & po2 & skip & meta & w & Hix & Hmo & H1 & H2 & H3 & Hic & Hrun).
    unfold s in *. clear s Hidx. destruct P as [env objs fs h all proj ps]. cbn in *.
    destruct (success digest env objs fs h objstr mo root version all proj ps impl ie po ao po2 skip meta w Hix Hmo H1 H2 H3 Hic msgs Hrun) as (ds & exts & g0 & g & kk & Em & Htab & _ & Hst & Hds).
    rewrite Em, documents_msgs in Hdn.
    destruct (Forall2_lookup_r _ _ _ _ _ Hds Hdn) as ([p2 f] & Hf & Hd). cbn in Hd.
    destruct Hd as (ti & tbl & st & sym & name & torder & lorder & Hti & Hname & Hg' & Hsym & Hv & Hto & Hlo & ->).
    assert (Hpf : p2 ∈ ps ∧ f ∈ p_syntax p2) by (apply files_elem; by eapply elem_of_list_lookup_2). destruct Hpf as [Hp2 Hf2].
    destruct (tpj_info _ _ _ _ (ix_typed _ _ _ _ _ _ Hix) p2 f Hp2 Hf2) as (ti' & name' & Hti' & Htf & Hdi & _).
    assert (ti' = ti) as -> by congruence.
    pose proof (lk_answers env _ root version g _ _ _ _ Htf) as Ha.
    destruct (visited_occs _ _ _ _ _ _ _ _ _ _ _ _ _ Htf Ha st Hv) as (_ & Hoccs & _).
    pose proof (project_clean objs fs h all proj ps Hix Hcl _ _ Hp1 Hm1) as Hc1.
    assert (Hnode : ∀ before e o, e ∈ file_nodes f → o ∈ node_occs g fs p2 ti tbl (imports_of h p2) (lk env root version g) before e →
      is_def o ∧ oc_symbol o = key_symbol (p_path p1) m1 k → p2 = p1 ∧ ∃ i, e.2 = NIdent i ∧ NIdent i ∈ subnodes f ∧ id_pos i = id_pos i0).
    { intros before e o' He Ho' [Do' So']. assert (He' : e.2 ∈ subnodes f) by (by eapply file_nodes_sub).
      apply noccs_explained in Ho'. destruct Ho' as [ptr nm pp lit o' Hn Hi'|i u pth sy Hn _ _|i pp u encl Hn Hld _|i def info Hn _ Hdef Hreg|i u q Hn _ _ _|i u info Hn _ _ _]; try done.
      - exfalso. by eapply import_refs_ref.
      - cbn in So'. rewrite Hn in He'.
        assert (Hat : o_pos def = id_pos i) by (by eapply (proj1 Hdi)).
        assert (Ht : tbl !! o_pos def = Some info).
        { unfold registered in Hreg. rewrite Hg' in Hreg. by destruct (tbl !! o_pos def). }
        destruct (entry_key digest env objs fs h all proj ps Hix Hcl Hgr g0 g _ _ _ _ _ p1 m1 k Htab Hst Hp1 Hm1 Hg' Ht So') as [-> Hint].
        split; [done|]. exists i. split; [done|]. split; [done|]. apply Honce. by rewrite <-Hat. }
    cbn [to_document d_occs] in Ho |- *. rewrite Hoccs in Ho |- *.
    assert (Hclause : ¬ (is_def (clause_occurrence fs sym f) ∧ oc_symbol (clause_occurrence fs sym f) = key_symbol (p_path p1) m1 k)).
    { intros [_ Hs]. cbn in Hs. subst sym. rewrite <-(proj1 Hst) in Hsym.
      destruct (ix_order _ _ _ _ _ _ Hix) as [Hl0 Hin]. destruct (Hin _ Hp2) as (q & Hq & Hh).
      destruct (ix_loaded _ _ _ _ _ _ Hix) as (Hka & Hkp & Hsame). destruct (Hkp _ _ Hq) as (p' & m & Hh' & _ & Hm).
      assert (p' = p2) as -> by congruence.
      destruct (Hsame _ _ _ Hq Hh) as (q2 & p2' & A1 & A2 & A3).
      rewrite (tk_syms _ _ _ _ _ _ _ Htab _ _ _ m A1 A2) in Hsym by congruence. apply (inj Some) in Hsym as E.
      eapply package_not_key; [|exact Hc1|exact E]. exact (project_clean objs fs h all proj ps Hix Hcl _ _ Hp2 Hm). }
    destruct j as [|j]; [exfalso; cbn in Ho; injection Ho as <-; by apply Hclause|]. cbn in Ho.
    apply elem_of_list_lookup_2 in Ho. apply nsoccs_elem in Ho as (l1 & e & l2 & Hsplit & Ho).
    destruct (Hnode _ e o ltac:(rewrite Hsplit; apply elem_of_app; right; left) Ho (conj Do So)) as (-> & i & _ & Hi & Hpos).
    exists f. split; [done|]. split; [done|]. split.
    - rewrite filter_cons. destruct (decide _) as [Hq|_]; [by destruct Hclause|].
      apply (nodes_at_most g fs p1 ti tbl (imports_of h p1) (lk env root version g) (key_symbol (p_path p1) m1 k) _ (id_pos i0)).
      + destruct Hdi as [_ Hnd]. eapply nodup_sublist; [|exact Hnd]. apply (fmap_sublist id_pos). by eapply file_nodes_idents.
      + intros b e' o' He' Ho' Q'. destruct (Hnode b e' o' He' Ho' Q') as (_ & i' & E1 & _ & E2). by exists i'.
    - exists name. split; [done|]. rewrite <-Hpos. eapply (ix_idents _ _ _ _ _ _ Hix); [exact Hp1|exact Hf2|exact Hname|done].
  Qed.

  Lemma unique_description n n' d d' j j' x x' :
    documents msgs !! n = Some d → documents msgs !! n' = Some d' → d_symbols d !! j = Some x → d_symbols d' !! j' = Some x' →
    i_symbol x = s → i_symbol x' = s → n = n' ∧ j = j'.
  Proof.
    intros Hd Hd' Hx Hx' Sx Sx'.
    assert (Hfile : ∀ n d j x, documents msgs !! n = Some d → d_symbols d !! j = Some x → i_symbol x = s →
      ∃ f, files_in_order (pr_pkgs P) !! n = Some (p1, f) ∧ length (filter (λ x, i_symbol x = s) (d_symbols d)) ≤ 1 ∧
        ∃ name, file_of (pr_fs P) f name ∧ fs_file (pr_fs P) (id_pos i0) = Some name).
    2: { destruct (Hfile n d j x Hd Hx Sx) as (f & Hf & Hl & name & Hn & Hi).
      destruct (Hfile n' d' j' x' Hd' Hx' Sx') as (f' & Hf' & _ & name' & Hn' & Hi').
      assert (name' = name) as -> by congruence.
      assert (n = n') as <-.
      { destruct Hidx as (digest & objstr & mo & root & version & impl & ie & po & ao & po2 & skip & meta & w & Hix & _).
        exact (tpj_files _ _ _ _ (ix_typed _ _ _ _ _ _ Hix) _ _ _ _ _ _ _ Hf Hf' Hn Hn'). }
      split; [done|]. assert (d' = d) as -> by congruence.
      eapply (at_most_index (λ x, i_symbol x = s)); [exact Hl|exact Hx|exact Hx'|done|done]. }
    clear n n' d d' j j' x x' Hd Hd' Hx Hx' Sx Sx'. intros n d j x Hdn Hx Sx.
    destruct Hidx as (digest & objstr & mo & root & version & impl & ie & po & ao & po2 & skip & meta & w & Hix & Hmo & H1 & H2 & H3 & Hic & Hrun).
    unfold s in *. clear s Hidx. destruct P as [env objs fs h all proj ps]. cbn in *.
    destruct (success digest env objs fs h objstr mo root version all proj ps impl ie po ao po2 skip meta w Hix Hmo H1 H2 H3 Hic msgs Hrun) as (ds & exts & g0 & g & kk & Em & Htab & _ & Hst & Hds).
    rewrite Em, documents_msgs in Hdn.
    destruct (Forall2_lookup_r _ _ _ _ _ Hds Hdn) as ([p2 f] & Hf & Hd). cbn in Hd.
    destruct Hd as (ti & tbl & st & sym & name & torder & lorder & Hti & Hname & Hg' & Hsym & Hv & Hto & Hlo & ->).
    assert (Hpf : p2 ∈ ps ∧ f ∈ p_syntax p2) by (apply files_elem; by eapply elem_of_list_lookup_2). destruct Hpf as [Hp2 Hf2].
    destruct (tpj_info _ _ _ _ (ix_typed _ _ _ _ _ _ Hix) p2 f Hp2 Hf2) as (ti' & name' & Hti' & Htf & Hdi & _).
    assert (ti' = ti) as -> by congruence.
    pose proof (lk_answers env _ root version g _ _ _ _ Htf) as Ha.
    destruct (visited_occs _ _ _ _ _ _ _ _ _ _ _ _ _ Htf Ha st Hv) as (_ & _ & Hinv).
    assert (Hlocal : ∀ y, y ∈ map (λ l : Z * local, local_info env ti objstr l.2) lorder → i_symbol y ≠ key_symbol (p_path p1) m1 k).
    { intros y Hy Hs. apply elem_of_list_fmap in Hy as ([pz l] & -> & He). cbn in Hs.
      rewrite Hlo in He. apply elem_of_map_to_list in He.
      rewrite (iv_locals _ _ _ _ _ _ _ Hinv) in He. destruct (index_of pz _) as [q|]; [|done].
      destruct (_ !! q); [|done]. injection He as <-. cbn in Hs.
      refine (global_not_local _ (key_symbol_global (p_path p1) m1 k) _). rewrite <-Hs. apply local_name_local. }
    assert (Hentry : ∀ pos y, (pos, y) ∈ symbols_for_file fs name torder → i_symbol y = key_symbol (p_path p1) m1 k →
      p2 = p1 ∧ pos = id_pos i0 ∧ fs_file fs pos = Some name).
    { intros pos y Hy Hs. unfold symbols_for_file in Hy. apply elem_of_list_filter in Hy as [Hfile Hy]. cbn in Hfile.
      rewrite Hto in Hy. apply elem_of_map_to_list in Hy.
      destruct (entry_key digest env objs fs h all proj ps Hix Hcl Hgr g0 g _ _ _ _ _ p1 m1 k Htab Hst Hp1 Hm1 Hg' Hy Hs) as [-> Hint].
      split; [done|]. split; [by apply Honce|done]. }
    cbn [to_document d_symbols] in Hx |- *.
    assert (Hin : x ∈ map snd (symbols_for_file fs name torder)).
    { apply elem_of_list_lookup_2, elem_of_app in Hx as [Hx|Hx]; [done|]. by destruct (Hlocal x Hx). }
    apply elem_of_list_fmap in Hin as ([pos y] & -> & Hin). destruct (Hentry pos y Hin Sx) as (-> & -> & Hfile).
    exists f. split; [done|]. split; [|by exists name]. rewrite filter_app, app_length.
    rewrite (filter_none _ (map _ lorder)) by exact Hlocal. cbn [length]. rewrite Nat.add_0_r.
    apply (keyed_at_most _ _ (id_pos i0)).
    - eapply nodup_sublist; [apply (fmap_sublist fst), filter_sub|]. rewrite Hto. apply NoDup_fst_map_to_list.
    - intros q z Hz Qz. by apply (Hentry q z Hz Qz).
  Qed.
End Index.

(** C70: the symbol of a package-level declaration is defined exactly once in the whole index, at the declaration. *)
Theorem C70_one_definition : ∀ P msgs p f i k,
  indexed P msgs → clean_modules P → (∀ q, q ∈ pr_pkgs P → pkg_grammatical q) →
  declaration P p f i k → introduced_once p i k →
  ∃ m n j o, p_module p = Some m ∧ files_in_order (pr_pkgs P) !! n = Some (p, f) ∧ occurrence_at msgs n j o ∧
    is_def o ∧ oc_symbol o = key_symbol (p_path p) m k ∧ oc_range o = ident_span (pr_fs P) i ∧
    ∀ n' j' o', occurrence_at msgs n' j' o' → is_def o' → oc_symbol o' = key_symbol (p_path p) m k → n' = n ∧ j' = j ∧ o' = o.
Proof.
  intros P msgs p f i k Hidx Hcl Hgr Hdc Honce.
  destruct (declaration_defined P msgs p f i k Hidx Hdc) as (m & Hm & d & o & (n & Hf & Hd) & Ho & Hr & Hs & Hrange).
  apply elem_of_list_lookup in Ho as [j Ho]. exists m, n, j, o. split; [done|]. split; [done|]. split; [by exists d|].
  split; [done|]. split; [done|]. split; [done|]. intros n' j' o' (d' & Hd' & Ho') Hdef Hs'.
  destruct (unique_document P msgs Hidx Hcl Hgr p m k (dc_pkg _ _ _ _ _ Hdc) Hm i Honce n n' d d' j j' o o' Hd Hd' Ho Ho' Hr Hdef Hs Hs') as [<- <-].
  split; [done|]. split; [done|]. congruence.
Qed.
Print Assumptions C70_one_definition.

(** C70: ... and it is described exactly once. *)
Theorem C70_one_description : ∀ P msgs p f i k,
  indexed P msgs → clean_modules P → (∀ q, q ∈ pr_pkgs P → pkg_grammatical q) →
  declaration P p f i k → introduced_once p i k →
  ∃ m n j x, p_module p = Some m ∧ files_in_order (pr_pkgs P) !! n = Some (p, f) ∧ description_at msgs n j x ∧
    i_symbol x = key_symbol (p_path p) m k ∧
    ∀ n' j' x', description_at msgs n' j' x' → i_symbol x' = key_symbol (p_path p) m k → n' = n ∧ j' = j ∧ x' = x.
Proof.
  intros P msgs p f i k Hidx Hcl Hgr Hdc Honce.
  assert (H : ∃ m d x, p_module p = Some m ∧ document_of (pr_pkgs P) (documents msgs) p f d ∧ x ∈ d_symbols d ∧ i_symbol x = key_symbol (p_path p) m k).
  { destruct Hidx as (digest & objstr & mo & root & version & impl & ie & po & ao & po2 & skip & meta & w & Hix & Hmo & H1 & H2 & H3 & Hic & Hrun).
    destruct Hdc as [Hp Hf (par & Hd & Hpar) Hwf Hv Hpos Hnb _].
    destruct (C53_declarations_in_index digest (pr_env P) (pr_objs P) (pr_fs P) (pr_heap P) objstr mo root version (pr_all P) (pr_proj P) (pr_pkgs P) impl ie po ao po2 skip meta w Hix Hmo H1 H2 H3 Hic msgs Hrun
      p f i k par Hp Hf Hd Hwf Hv Hpos) as (m & d & Hm & Hdoc & (x & Hx & Hs) & _). by exists m, d, x. }
  destruct H as (m & d & x & Hm & (n & Hf & Hd) & Hx & Hs).
  apply elem_of_list_lookup in Hx as [j Hx]. exists m, n, j, x. split; [done|]. split; [done|]. split; [by exists d|].
  split; [done|]. intros n' j' x' (d' & Hd' & Hx') Hs'.
  destruct (unique_description P msgs Hidx Hcl Hgr p m k (dc_pkg _ _ _ _ _ Hdc) Hm i Honce n n' d d' j j' x x' Hd Hd' Hx Hx' Hs Hs') as [<- <-].
  split; [done|]. split; [done|]. congruence.
Qed.
Print Assumptions C70_one_description.

(** C70 is false without [introduced_once]: functions named init may be declared many times in a package, and all
    of them are defined under the same symbol. *)
Theorem C70_init_refuted : ∀ P msgs p f i f' i' k,
  indexed P msgs → declaration P p f i k → declaration P p f' i' k →
  ident_span (pr_fs P) i ≠ ident_span (pr_fs P) i' →
  ∃ m n j o n' j' o', p_module p = Some m ∧ occurrence_at msgs n j o ∧ occurrence_at msgs n' j' o' ∧ is_def o ∧ is_def o' ∧
    oc_symbol o = key_symbol (p_path p) m k ∧ oc_symbol o' = key_symbol (p_path p) m k ∧ o ≠ o'.
Proof.
  intros P msgs p f i f' i' k Hidx Hd Hd' Hne.
  destruct (declaration_defined P msgs p f i k Hidx Hd) as (m & Hm & d & o & (n & _ & Hn) & Ho & Hr & Hs & Hrange).
  destruct (declaration_defined P msgs p f' i' k Hidx Hd') as (m' & Hm' & d' & o' & (n' & _ & Hn') & Ho' & Hr' & Hs' & Hrange').
  assert (m' = m) as -> by congruence.
  apply elem_of_list_lookup in Ho as [j Ho], Ho' as [j' Ho']. exists m, n, j, o, n', j', o'.
  split; [done|]. split; [by exists d|]. split; [by exists d'|]. split; [done|]. split; [done|]. split; [done|]. split; [done|]. congruence.
Qed.
Print Assumptions C70_init_refuted.
