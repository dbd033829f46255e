(** Proofs about the second pass: the occurrences of a document. *)
From Coq Require Import Ascii String.
From stdpp Require Import prelude strings gmap.
From Verif Require Import GoStr Scip GoTypes Ast Packages Symbols Document Lookup Pass1 Pass2
  SpecSymbol SpecDecl SpecLookup SpecOcc P_Symbols P_Pass1 P_Lookup.
Open Scope string_scope.
Open Scope list_scope.

Lemma length_concat_elem {A B} (f : A → list B) (l : list A) a :
  a ∈ l → length (f a) ≤ length (List.concat (map f l)).
Proof.
  intros Ha. induction l as [|x l IH]; [by apply elem_of_nil in Ha|]. cbn. rewrite app_length.
  apply elem_of_cons in Ha as [->|Ha]; [lia|]. specialize (IH Ha). lia.
Qed.
Lemma child_smaller n c : c ∈ node_children n → length (subnodes c) < length (subnodes n).
Proof.
  intros Hc. rewrite (subnodes_eq n). cbn. apply (length_concat_elem subnodes) in Hc. lia.
Qed.
Lemma node_child_ind (P : node → Prop) :
  (∀ n, (∀ c, c ∈ node_children n → P c) → P n) → ∀ n, P n.
Proof.
  intros H n. remember (length (subnodes n)) as k eqn:Hk. revert n Hk.
  induction (lt_wf k) as [k _ IH]. intros n ->. apply H. intros c Hc.
  eapply IH; [by apply child_smaller|done].
Qed.

Lemma concat_map_idents par (l : list ident) :
  List.concat (map (with_parent par) (idents l)) = map (λ i, (par, NIdent i)) l.
Proof. induction l as [|i l IH]; [done|]. cbn. by f_equal. Qed.
Lemma with_parent_eq par n :
  with_parent par n = (par, n) :: List.concat (map (with_parent (Some n)) (node_children n)).
Proof.
  destruct n; cbn [node_children with_parent]; f_equal;
    rewrite ?map_app, ?List.concat_app, ?concat_map_idents; cbn [map List.concat];
    rewrite ?List.app_nil_r; try done.
  - destruct len; cbn; rewrite ?List.app_nil_r; done.
  - destruct name; cbn; done.
  - destruct typ; cbn; rewrite ?List.app_nil_r; done.
  - destruct recv, body; cbn [opt_node map List.concat]; rewrite ?List.app_nil_r; done.
Qed.
Lemma with_parent_snd par n : map snd (with_parent par n) = subnodes n.
Proof.
  revert par. induction n as [n IH] using node_child_ind. intros par.
  rewrite with_parent_eq, subnodes_eq. cbn. f_equal. rewrite concat_map, map_map. f_equal.
  apply map_ext_in. intros c Hc. apply IH. by apply elem_of_list_In.
Qed.
(** an entry of [with_parent par n]: the root, or a child of some node below *)
Lemma with_parent_elem par n q m : (q, m) ∈ with_parent par n ↔
  (q = par ∧ m = n) ∨ ∃ p, q = Some p ∧ p ∈ subnodes n ∧ m ∈ node_children p.
Proof.
  revert par. induction n as [n IH] using node_child_ind. intros par.
  rewrite with_parent_eq, elem_of_cons, elem_of_concat_map. split.
  - intros [[= -> ->]|(c & Hc & H)]; [by left|right].
    apply (IH c Hc) in H as [[-> ->]|(p & -> & Hp & Hm)].
    + exists n. split_and!; [done|apply subnodes_self|done].
    + exists p. split_and!; [done|by apply (subnodes_child n c)|done].
  - intros [[-> ->]|(p & -> & Hp & Hm)]; [by left|right].
    apply subnodes_elem in Hp as [->|(c & Hc & Hp)].
    + exists m. split; [done|]. rewrite with_parent_eq. left.
    + exists c. split; [done|]. apply IH; [done|]. right. by exists p.
Qed.

Section Visits.
  Context (g : global) (ti : tinfo).
  Notation hid := (hidden g ti).
  Notation npk := (names_package ti).

  (** the actions of one entry *)
  Definition toks (e : option node * node) : list visit :=
    match e with
    | (_, NImportSpec ptr nm p _) => [VImport ptr nm p]
    | (_, NFuncDecl _ p e _ nm _ _) => [VFunc nm p e]
    | (par, NIdent i) =>
        if hid par then []
        else match npk i with
             | Some (o, path) => match g_pkgsyms g !! path with Some s => [VQual i o s] | None => [] end
             | None => [VIdent i]
             end
    | _ => []
    end.

  Definition special (n : node) : Prop :=
    match n with NSelectorExpr _ _ | NImportSpec _ _ _ _ | NFile _ _ _ _ _ | NIdent _ => True | _ => False end.
  Lemma visits_idents l : List.concat (map (visits g ti) (idents l)) = map VIdent l.
  Proof. induction l as [|i l IH]; [done|]. cbn. by f_equal. Qed.
  Lemma visits_generic n : ¬ special n → 
    visits g ti n = match n with NFuncDecl _ p e _ nm _ _ => [VFunc nm p e] | _ => [] end
                    ++ List.concat (map (visits g ti) (node_children n)).
  Proof.
    destruct n; cbn [special node_children visits]; intros Hs; try (by destruct Hs);
      rewrite ?map_app, ?List.concat_app, ?visits_idents; cbn [map List.concat];
      rewrite ?List.app_nil_r; try done.
    - destruct len; cbn; rewrite ?List.app_nil_r; done.
    - destruct typ; cbn; rewrite ?List.app_nil_r; done.
    - destruct recv, body; cbn [opt_node map List.concat]; rewrite ?List.app_nil_r; done.
  Qed.

  Definition qual_ok (l : list (option node * node)) : Prop :=
    ∀ par i o path, (par, NIdent i) ∈ l → ti_uses ti (id_ptr i) = Some o → o_kind o = OPkgName path →
      (∃ r p l, par = Some (NImportSpec r (Some i) p l)) ∨
      (∃ s, par = Some (NSelectorExpr (NIdent i) s) ∧ id_ptr s ≠ id_ptr i).
  Lemma qual_npk l par i : qual_ok l → (par, NIdent i) ∈ l →
    (∀ r p l', par ≠ Some (NImportSpec r (Some i) p l')) →
    (∀ s, par = Some (NSelectorExpr (NIdent i) s) → id_ptr s = id_ptr i) → npk i = None.
  Proof.
    intros Hq Hin H1 H2. unfold names_package. destruct (ti_uses ti (id_ptr i)) as [o|] eqn:Hu; [|done].
    destruct (o_kind o) eqn:Hk; try done.
    destruct (Hq _ _ _ _ Hin Hu Hk) as [(r & p & l' & E)|(s & E & Hne)]; [by destruct (H1 _ _ _ E)|].
    by destruct Hne; apply H2.
  Qed.

  Lemma visits_toks n : ∀ par,
    (∀ i, n = NIdent i → hid par = false ∧ npk i = None) →
    (∀ m, m ∈ subnodes n → match m with NFile _ _ _ _ _ => False | _ => True end) →
    qual_ok (with_parent par n) →
    visits g ti n = List.concat (map toks (with_parent par n)).
  Proof.
    induction n as [n IH] using node_child_ind. intros par Hi Hf Hq.
    assert (Hsub : ∀ c, c ∈ node_children n → qual_ok (with_parent (Some n) c)).
    { intros c Hc q i o path Hin. apply Hq. rewrite with_parent_eq. right.
      apply elem_of_concat_map. by exists c. }
    assert (Hfc : ∀ c, c ∈ node_children n → ∀ m, m ∈ subnodes c → match m with NFile _ _ _ _ _ => False | _ => True end).
    { intros c Hc m Hm. apply Hf. by apply (subnodes_child n c). }
    assert (Hsp : special n ∨ ¬ special n) by (destruct n; cbn; tauto).
    destruct Hsp as [Hsp|Hsp].
    - destruct n as [i0| | | | | | | | | | | | | | |n1 sel| | |ptr0 name| | | | | |]; try done.
      + cbn. destruct (Hi _ eq_refl) as [-> ->]. done.
      + (* selector *)
        rewrite with_parent_eq. cbn [map List.concat toks app].
        set (n := NSelectorExpr n1 sel) in *. cbn [node_children n map List.concat].
        assert (Hin : (Some n, NIdent sel) ∈ with_parent par n).
        { rewrite with_parent_eq. right. apply elem_of_concat_map. exists (NIdent sel). split; [|left].
          right. left. }
        rewrite List.app_nil_r, map_app, List.concat_app. cbn [with_parent map List.concat].
        rewrite List.app_nil_r. cbn [visits n].
        destruct (qualifier ti n1) as [[[i o] path]|] eqn:Hqu.
        * unfold qualifier in Hqu. destruct n1 as [i'| | | | | | | | | | | | | | | | | | | | | | | |]; try done.
          destruct (ti_uses ti (id_ptr i')) as [o'|] eqn:Hu; [|done].
          destruct (o_kind o') eqn:Hk; try done. injection Hqu as <- <- <-.
          assert (Hn : npk i' = Some (o', imported_path)).
          { unfold names_package. by rewrite Hu, Hk. }
          cbn [with_parent map List.concat toks]. rewrite List.app_nil_r.
          unfold hidden. cbn [n]. rewrite Hn. unfold get_pkg_symbol_by_id.
          destruct (g_pkgsyms g !! imported_path) as [s|] eqn:Hs; [|done].
          rewrite (qual_npk _ _ _ Hq Hin); [done|done|]. intros s' [= -> ->]. done.
        * rewrite (IH n1) with (par := Some n).
          -- cbn [toks]. 
             assert (hid (Some n) = false) as ->.
             { unfold hidden. cbn [n]. destruct n1; try done. unfold names_package. cbn in Hqu.
               destruct (ti_uses ti (id_ptr i)) as [o|]; [|done]. by destruct (o_kind o). }
             rewrite (qual_npk _ _ _ Hq Hin); [done|done|]. intros s' [= -> ->]. cbn in Hqu. done.
          -- left.
          -- intros i ->. cbn in Hqu. unfold hidden, names_package. cbn [n].
             destruct (ti_uses ti (id_ptr i)) as [o|]; [|done]. by destruct (o_kind o).
          -- apply Hfc. left.
          -- apply Hsub. left.
      + (* import *)
        cbn. destruct name; done.
      + by destruct (Hf _ (subnodes_self _)).
    - rewrite (visits_generic _ Hsp), with_parent_eq. cbn [map List.concat]. f_equal.
      { destruct n; try done; by destruct Hsp. }
      rewrite concat_map, map_map.
      enough (∀ l, (∀ c, c ∈ l → c ∈ node_children n) →
        List.concat (map (visits g ti) l) =
        List.concat (List.concat (map (λ x, map toks (with_parent (Some n) x)) l))) as H by (apply H; done).
      induction l as [|c l IHl]; intros Hl; [done|]. cbn.
      rewrite List.concat_app. rewrite IHl by (intros; apply Hl; by right). f_equal.
      assert (Hc : c ∈ node_children n) by (apply Hl; left).
      apply IH; [done| |by apply Hfc|by apply Hsub].
      intros i ->. split.
      + destruct n; try done; by destruct Hsp.
      + apply (qual_npk (with_parent (Some n) (NIdent i)) (Some n)); [by apply Hsub|left| |].
        * intros r p l' [= ->]. by destruct Hsp.
        * intros s [= ->]. by destruct Hsp.
  Qed.
End Visits.

(** *** Ranges *)
Lemma scip_range_span s e o : pos_fits s → pos_fits e →
  (∀ ob path, o = Some ob → o_kind ob = OPkgName path → has_prefix (o_name ob) (String dquote "") = false) →
  scip_range s e o = span s e.
Proof.
  intros [H1 H2] [H3 H4] Hq. unfold scip_range, span, add32, sub32.
  assert (match o with
     | Some ob => match o_kind ob with
         | OPkgName _ => if has_prefix (o_name ob) (String dquote "") then 1%Z else 0%Z
         | _ => 0%Z end
     | None => 0%Z end = 0%Z) as ->.
  { destruct o as [ob|]; [|done]. destruct (o_kind ob) eqn:E; try done. by rewrite (Hq _ _ eq_refl E). }
  rewrite Z.add_0_r, Z.sub_0_r.
  rewrite !(int32_id (pos_col s - 1)), !(int32_id (pos_col e - 1)), (int32_id (pos_line s - 1)),
    (int32_id (pos_line e - 1)) by lia.
  destruct (Z.eqb_spec (pos_line s - 1) (pos_line e - 1)); destruct (Z.eqb_spec (pos_line s) (pos_line e)); try done; lia.
Qed.
Lemma range_from_name_span p n (adj : bool) : pos_fits p →
  (pos_col p + Z.of_nat (slen n) < 2^31)%Z →
  range_from_name p n adj = text_span p (if adj then 1 else 0) (slen n).
Proof.
  intros [H1 H2] H3. unfold range_from_name, text_span, add32.
  rewrite (int32_id (pos_col p - 1)), (int32_id (Z.of_nat (slen n))), (int32_id (pos_line p - 1)) by lia.
  rewrite (int32_id (pos_col p - 1 + Z.of_nat (slen n))) by lia.
  destruct adj; rewrite !int32_id by lia; repeat (apply f_equal2; [lia|]); done.
Qed.

(** *** Local numbering *)
Section Index.
  Context {A : Type}.
  Implicit Types l : list (Z * A).
  Lemma index_of_none p l : index_of p l = None ↔ p ∉ map fst l.
  Proof.
    induction l as [|[q a] l IH]; cbn; [split; [intros _; apply not_elem_of_nil|done]|].
    rewrite not_elem_of_cons. destruct (Z.eqb_spec q p) as [->|Hne].
    - split; [done|]. by intros [? _].
    - rewrite <- IH. destruct (index_of p l); cbn; split; try done; try (by intros [_ ?]);
        try (intros _; by split; [congruence|]).
  Qed.
  Lemma index_of_some p l k : index_of p l = Some k → ∃ a, l !! k = Some (p, a).
  Proof.
    revert k. induction l as [|[q a] l IH]; intros k; cbn; [done|].
    destruct (Z.eqb_spec q p) as [->|Hne]; [intros [= <-]; by exists a|].
    destruct (index_of p l) as [k'|]; [|done]. intros [= <-]. cbn. by apply IH.
  Qed.
  Lemma index_of_app p l l' : index_of p (l ++ l') =
    match index_of p l with Some k => Some k | None => (λ k, length l + k) <$> index_of p l' end.
  Proof.
    induction l as [|[q a] l IH]; cbn; [by destruct (index_of p l')|].
    destruct (Z.eqb q p); [done|]. rewrite IH. destruct (index_of p l); [done|].
    by destruct (index_of p l').
  Qed.
  Lemma index_of_lookup l k p a : NoDup (map fst l) → l !! k = Some (p, a) → index_of p l = Some k.
  Proof.
    revert k. induction l as [|[q b] l IH]; intros k Hnd Hk; [done|]. cbn in *.
    apply NoDup_cons in Hnd as [Hn Hnd]. destruct k as [|k]; cbn in *.
    - injection Hk as -> ->. by rewrite Z.eqb_refl.
    - destruct (Z.eqb_spec q p) as [->|]; [|by rewrite (IH _ Hnd Hk)].
      destruct Hn. apply elem_of_list_fmap. exists (p, a). split; [done|].
      by eapply elem_of_list_lookup_2.
  Qed.
End Index.

Section Fold.
  Context (env : tenv) (objs : nat → option obj) (path version : string).
  Context (g : global) (fs : fset) (pkg : gpkg) (ti : tinfo) (tbl : ptable).
  Context (imports : string → option gpkg).

  Definition lk (o : obj) : lookup_result :=
    match answer env g (fresh_caches path version) o with Ok r => r | Panic _ => LookupError end.

  Notation stepf := (step env g fs pkg ti tbl imports).
  Notation ldef := (local_def g pkg ti tbl).
  Notation noccs := (node_occs g fs pkg ti tbl imports lk).
  Notation nsoccs := (nodes_occs g fs pkg ti tbl imports lk).

  Record inv (before : list (Z * obj)) (st : fstate) : Prop := Inv {
    iv_locals : ∀ p, f_locals st !! p =
      match index_of p before with
      | Some k => (λ e, Local (local_name k) e.2) <$> before !! k
      | None => None
      end;
    iv_size : size (f_locals st) = length before;
    iv_caches : caches_ok env objs g path version (f_caches st) }.

  Lemma inv_emit before st o : inv before st → inv before (emit st o).
  Proof. by intros []. Qed.

  Lemma create_local_ok before st p o : inv before st → index_of p before = None →
    ∃ st', create_local st p o = Ok (local_name (length before), st') ∧
      inv (before ++ [(p, o)]) st' ∧ f_occs st' = f_occs st ∧ f_func st' = f_func st.
  Proof.
    intros [H1 H2 H3] Hn. unfold create_local. rewrite H1, Hn, H2. eexists. split; [done|].
    split_and!; try done. split; cbn.
    - intros q. rewrite index_of_app. cbn. destruct (decide (q = p)) as [->|Hne].
      + rewrite lookup_insert, Hn, Z.eqb_refl. cbn. rewrite Nat.add_0_r.
        rewrite list_lookup_middle by done. done.
      + rewrite lookup_insert_ne by done. rewrite H1.
        destruct (Z.eqb_spec p q) as [?|_]; [congruence|]. cbn.
        destruct (index_of q before) as [k|] eqn:Hk; [|done].
        apply index_of_some in Hk as [a Hk]. rewrite Hk.
        by rewrite (lookup_app_l_Some _ _ _ _ Hk).
    - rewrite map_size_insert_None; [by rewrite H2, app_length, Nat.add_comm|].
      by rewrite H1, Hn.
    - done.
  Qed.
  Lemma create_local_panic before st p o : inv before st → index_of p before ≠ None →
    ∃ m, create_local st p o = Panic m.
  Proof.
    intros [H1 H2 H3] Hn. unfold create_local. rewrite H1. destruct (index_of p before) eqn:Hk; [|done].
    apply index_of_some in Hk as [a Hk]. rewrite Hk. by eexists.
  Qed.

  Lemma registered_symbol p : 
    match pget_symbol tbl p with
    | Some s => Some s
    | None => get_symbol g pkg p
    end = i_symbol <$> registered g pkg tbl p.
  Proof.
    unfold pget_symbol, get_symbol, get_info_by_path, registered, pget.
    destruct (tbl !! p); cbn; [done|]. by destruct (g_symbols g !! p_path pkg) as [[? ?]|].
  Qed.
  Lemma registered_deprecated p :
    is_deprecated g pkg tbl p =
    match registered g pkg tbl p with Some i => docs_deprecated (i_documentation i) | None => false end.
  Proof.
    unfold is_deprecated, get_info_by_path, registered, pget.
    destruct (tbl !! p); cbn; [done|]. by destruct (g_symbols g !! p_path pkg) as [[? t]|]; [destruct (t !! p)|].
  Qed.

  (** the go/types facts needed at an entry *)
  Definition uses_ok : Prop := ∀ ptr o, ti_uses ti ptr = Some o →
    (∀ path, o_kind o ≠ OPkgName path) → go_object objs o.
  Definition quote_ok : Prop := ∀ ptr o path, ti_uses ti ptr = Some o ∨ ti_defs ti ptr = Some o →
      o_kind o = OPkgName path → has_prefix (o_name o) (String dquote "") = false.
  Definition fit_ident (i : ident) : Prop :=
      pos_fits (fs_position fs (id_pos i)) ∧
      pos_fits (fs_position fs (id_pos i + Z.of_nat (slen (id_name i)))%Z) ∧
      (pos_col (fs_position fs (id_pos i)) + Z.of_nat (slen (id_name i)) < 2^31)%Z.
  Definition case_quote_ok : Prop := ∀ o path, o ∈ ti_case_objs ti → o_kind o ≠ OPkgName path.

  Context (Huses : uses_ok) (Hquote : quote_ok) (Hcase : case_quote_ok).

  Lemma ident_range_span i o : fit_ident i →
    (∀ ob path, o = Some ob → o_kind ob = OPkgName path → has_prefix (o_name ob) (String dquote "") = false) →
    ident_range fs i o = ident_span fs i.
  Proof. intros (H1 & H2 & _) Ho. unfold ident_range, ident_end, ident_span. by apply scip_range_span. Qed.

  Definition enc_ok (st : fstate) (e : option node * node) : Prop :=
    match e with
    | (par, NIdent i) => ti_defs ti (id_ptr i) ≠ None → enclosing_range fs ti st i = enclosing fs par i
    | _ => True
    end.
  Definition fit_entry (e : option node * node) : Prop :=
    match e with
    | (_, NIdent i) => fit_ident i
    | (_, NImportSpec ptr nm p l) =>
        match nm with Some i => fit_ident i | None => True end ∧
        ∀ path imp, imports path = Some imp →
          pos_fits (fs_position fs p) ∧ (pos_col (fs_position fs p) + Z.of_nat (slen (p_path imp)) < 2^31)%Z
    | (_, NFuncDecl _ _ _ _ _ _ _) => False
    | _ => True
    end.

  (** outcome of processing one entry or several *)
  Definition outcome (before : list (Z * obj)) (new : list (Z * obj)) (st : fstate)
      (occs : list occurrence) (r : res fstate) : Prop :=
    (NoDup (map fst new) ∧ (∀ p, p ∈ map fst new → p ∉ map fst before) ∧
       ∃ st', r = Ok st' ∧ f_occs st' = f_occs st ++ occs ∧ inv (before ++ new) st' ∧ f_func st' = f_func st)
    ∨ (¬ (NoDup (map fst new) ∧ ∀ p, p ∈ map fst new → p ∉ map fst before) ∧ ∃ m, r = Panic m).

  Lemma outcome_none before st st' occs : f_occs st' = f_occs st ++ occs → inv before st' →
    f_func st' = f_func st → outcome before [] st occs (Ok st').
  Proof.
    intros H1 H2 H3. left. split; [constructor|]. split; [by intros p ?%elem_of_nil|].
    exists st'. rewrite List.app_nil_r. done.
  Qed.

  Lemma import_refs_ok ptr nm p l : fit_entry (None, NImportSpec ptr nm p l) →
    import_occurrences g fs ti imports ptr nm p = import_refs g fs ti imports ptr nm p.
  Proof.
    intros [Hi Hp]. unfold import_occurrences, import_refs.
    destruct (ti_pkgname_of ti ptr) as [[a b c d k t o]|]; [|done]. cbn [o_kind].
    destruct k; try done. destruct (imports imported_path) as [imp|] eqn:Himp; [|done].
    unfold get_pkg_symbol, get_pkg_symbol_by_id. destruct (g_pkgsyms g !! p_path imp); [|done].
    destruct (Hp _ _ Himp) as [Hp1 Hp2].
    rewrite (range_from_name_span _ _ true) by done. f_equal.
    destruct nm as [i|]; [|done]. destruct Hi as (? & _ & ?).
    by rewrite (range_from_name_span _ _ false).
  Qed.

  Lemma use_ok before st i : inv before st → fit_ident i → 
    names_package ti i = None →
    ∃ st', visit_ref env g fs ti st i = Ok st' ∧ f_occs st' = f_occs st ++ use_occs fs ti lk before i ∧
      inv before st' ∧ f_func st' = f_func st.
  Proof.
    intros Hinv Hfit Hn. unfold visit_ref, use_occs. unfold names_package in Hn.
    destruct (ti_uses ti (id_ptr i)) as [o|] eqn:Hu; [|exists st; rewrite List.app_nil_r; done].
    assert (Hk : ∀ path, o_kind o ≠ OPkgName path) by (intros p E; by rewrite E in Hn).
    rewrite (iv_locals _ _ Hinv). unfold local_symbol.
    assert (Hr : ident_range fs i (Some o) = ident_span fs i).
    { apply ident_range_span; [done|]. intros ob p [= <-] E. by destruct (Hk p). }
    rewrite Hr.
    destruct (index_of (o_pos o) before) as [k|] eqn:Hix.
    - apply index_of_some in Hix as [a ->]. cbn. eexists. split; [done|]. split_and!; [done| |done].
      by apply inv_emit.
    - destruct (lookup_ok env objs g path version (f_caches st) o (iv_caches _ _ Hinv) (Huses _ _ Hu Hk))
        as (r & k' & E & Hk' & Ha).
      rewrite E. cbn. unfold lk. rewrite Ha.
      assert (Hinv' : inv before (FState (f_locals st) (f_occs st) (f_func st) k')).
      { destruct Hinv. by split. }
      destruct r as [info| |].
      + eexists. split; [done|]. split_and!; [done|by apply inv_emit|done].
      + eexists. split; [done|]. cbn. rewrite List.app_nil_r. done.
      + eexists. split; [done|]. cbn. rewrite List.app_nil_r. done.
  Qed.

  Lemma step_entry before st e : inv before st → fit_entry e → enc_ok st e →
    outcome before (option_list (ldef e)) st (noccs before e) (res_fold stepf st (toks g ti e)).
  Proof.
    intros Hinv Hfit Henc. destruct e as [par n].
    assert (Hnone : ∀ occs, ldef (par, n) = None → toks g ti (par, n) = [] → noccs before (par, n) = [] →
      occs = noccs before (par, n) → outcome before (option_list (ldef (par, n))) st occs (res_fold stepf st (toks g ti (par, n)))).
    { intros occs -> -> Ho ->. rewrite Ho. apply outcome_none; [by rewrite List.app_nil_r|done|done]. }
    destruct n; try (by apply Hnone).
    - (* identifier *)
      cbn in Hfit, Henc. cbn [toks node_occs]. unfold local_def, plain_ident.
      destruct (hidden g ti par) eqn:Hh.
      { apply outcome_none; [by rewrite List.app_nil_r|done|done]. }
      destruct (names_package ti i) as [[o p]|] eqn:Hn.
      { destruct (g_pkgsyms g !! p) as [s|]; [|apply outcome_none; [by rewrite List.app_nil_r|done|done]].
        cbn. unfold names_package in Hn.
        destruct (ti_uses ti (id_ptr i)) as [o'|] eqn:Hu; [|done].
        destruct (o_kind o') eqn:Hk; try done. injection Hn as -> ->.
        rewrite (ident_range_span i (Some o)); [|done|].
        - apply outcome_none; [done|by apply inv_emit|done].
        - intros ob pp [= <-] E. eapply Hquote; [by left|done]. }
      cbn [res_fold step]. 
      destruct (String.eqb (id_name i) "_").
      { apply outcome_none; [by rewrite List.app_nil_r|done|done]. }
      change (case_at ti (id_pos i)) with (switch_object ti i).
      destruct (switch_object ti i) as [o|] eqn:Hsw.
      { cbn [option_list]. destruct (index_of (o_pos o) before) eqn:Hix.
        - right. destruct (create_local_panic before st (o_pos o) o Hinv) as [m ->]; [congruence|].
          split; [|by exists m]. intros [_ H].
          apply (H (o_pos o)); [left|]. apply index_of_some in Hix as [a Hix].
          apply elem_of_list_fmap. exists (o_pos o, a). split; [done|]. by eapply elem_of_list_lookup_2.
        - destruct (create_local_ok before st (o_pos o) o Hinv Hix) as (st' & -> & Hinv' & Ho & Hf).
          cbn. left. split; [apply NoDup_singleton|]. split.
          { intros p. cbn. rewrite elem_of_list_singleton. intros ->. by apply index_of_none. }
          eexists. split; [done|]. cbn. rewrite Ho. rewrite (ident_range_span i (Some o)); [|done|].
          + split_and!; [done|by apply inv_emit|done].
          + intros ob p [= <-] E. destruct (Hcase o p); [|done].
            unfold switch_object in Hsw. apply find_some in Hsw as [Hsw _]. by apply elem_of_list_In. }
      unfold visit_def, def_occs. destruct (ti_defs ti (id_ptr i)) as [d|] eqn:Hd.
      2:{ cbn. destruct (use_ok before st i Hinv Hfit Hn) as (st' & -> & Ho & Hi & Hf).
          cbn. rewrite List.app_nil_r. by apply outcome_none. }
      assert (Hr : ident_range fs i (Some d) = ident_span fs i).
      { apply ident_range_span; [done|]. intros ob p [= <-] E. eapply Hquote; [by right|done]. }
      assert (He : enclosing_range fs ti st i = enclosing fs par i) by (by apply Henc).
      rewrite Hr, registered_deprecated.
      pose proof (registered_symbol (o_pos d)) as Hs.
      destruct (registered g pkg tbl (o_pos d)) as [info|] eqn:Hreg.
      + cbn in Hs. cbn [option_list]. rewrite List.app_nil_r.
        set (st1 := emit st (new_definition (i_symbol info) (ident_span fs i) (enclosing fs par i)
              (docs_deprecated (i_documentation info)))).
        assert (Hdef : (let! r := match pget_symbol tbl (o_pos d) with
                  | Some s => Ok (s, st)
                  | None => match get_symbol g pkg (o_pos d) with
                            | Some s => Ok (s, st)
                            | None => create_local st (o_pos d) d
                            end
                  end in let '(sym, st') := r in
                   Ok (emit st' (new_definition sym (ident_span fs i) (enclosing_range fs ti st' i)
                          (docs_deprecated (i_documentation info))))) = Ok st1).
        { unfold st1. destruct (pget_symbol tbl (o_pos d)) as [s|].
          - injection Hs as ->. cbn [res_bind]. by rewrite He.
          - rewrite Hs. cbn [res_bind]. by rewrite He. }
        rewrite Hdef. cbn [res_bind].
        assert (Hinv1 : inv before st1) by (by apply inv_emit).
        destruct (use_ok before st1 i Hinv1 Hfit Hn) as (st' & -> & Ho & Hi & Hf).
        cbn. apply outcome_none; [|done|by rewrite Hf].
        rewrite Ho. cbn. by rewrite <- List.app_assoc.
      + cbn in Hs. cbn [option_list].
        destruct (pget_symbol tbl (o_pos d)) as [s|]; [done|]. rewrite Hs.
        destruct (index_of (o_pos d) before) eqn:Hix.
        * right. destruct (create_local_panic before st (o_pos d) d Hinv) as [m ->]; [congruence|].
          split; [|by exists m]. intros [_ H].
          apply (H (o_pos d)); [left|]. apply index_of_some in Hix as [a Hix].
          apply elem_of_list_fmap. exists (o_pos d, a). split; [done|]. by eapply elem_of_list_lookup_2.
        * destruct (create_local_ok before st (o_pos d) d Hinv Hix) as (st' & -> & Hinv' & Ho & Hf).
          cbn [res_bind].
          assert (Henc' : enclosing_range fs ti st' i = enclosing fs par i).
          { rewrite <- He. unfold enclosing_range. by rewrite Hf. }
          rewrite Henc'.
          set (st1 := emit st' _). assert (Hinv1 : inv (before ++ [(o_pos d, d)]) st1) by (by apply inv_emit).
          destruct (use_ok _ st1 i Hinv1 Hfit Hn) as (st2 & -> & Ho2 & Hi2 & Hf2).
          cbn. left. split; [apply NoDup_singleton|]. split.
          { intros p. cbn. rewrite elem_of_list_singleton. intros ->. by apply index_of_none. }
          eexists. split; [done|]. split_and!; [|done|by rewrite Hf2].
          rewrite Ho2. cbn. rewrite Ho. by rewrite <- List.app_assoc.
    - (* import *)
      cbn. apply outcome_none; [|by destruct Hinv|done]. cbn.
      by rewrite (import_refs_ok _ _ _ path_lit).
  Qed.

  Lemma res_fold_app {A S} (f : S → A → res S) s l1 l2 :
    res_fold f s (l1 ++ l2) = let! s' := res_fold f s l1 in res_fold f s' l2.
  Proof.
    revert s. induction l1 as [|a l1 IH]; intros s; [done|]. cbn. destruct (f s a); cbn; [apply IH|done].
  Qed.

  Lemma disjoint_app (b n1 n2 : list (Z * obj)) :
    (NoDup (map fst n1) ∧ (∀ p, p ∈ map fst n1 → p ∉ map fst b)) ∧
    (NoDup (map fst n2) ∧ (∀ p, p ∈ map fst n2 → p ∉ map fst (b ++ n1))) ↔
    (NoDup (map fst (n1 ++ n2)) ∧ (∀ p, p ∈ map fst (n1 ++ n2) → p ∉ map fst b)).
  Proof.
    rewrite !map_app, NoDup_app. setoid_rewrite elem_of_app. split.
    - intros [[H1 H2] [H3 H4]]. split_and!; try done.
      + intros p Hp Hp'. apply (H4 p Hp'). by right.
      + intros p [Hp|Hp]; [by apply H2|]. intros Hb. apply (H4 p Hp). by left.
    - intros [(H1 & H2 & H3) H4]. split_and!; try done.
      + intros p Hp. apply H4. by left.
      + intros p Hp [Hb|Hn]; [by apply (H4 p (or_intror Hp))|by apply (H2 p Hn)].
  Qed.

  (** outcomes compose; the function state may be reset in between *)
  Lemma outcome_seq before n1 n2 st occs1 occs2 l1 l2 :
    outcome before n1 st occs1 (res_fold stepf st l1) →
    (∀ st', f_func st' = f_func st → inv (before ++ n1) st' →
       outcome (before ++ n1) n2 st' occs2 (res_fold stepf st' l2)) →
    outcome before (n1 ++ n2) st (occs1 ++ occs2) (res_fold stepf st (l1 ++ l2)).
  Proof.
    intros H1 H2. rewrite res_fold_app. unfold outcome.
    destruct H1 as [(N1 & D1 & st1 & E1 & O1 & I1 & F1)|(N1 & m & E1)].
    - rewrite E1. cbn. destruct (H2 st1 F1 I1) as [(N2 & D2 & st2 & E2 & O2 & I2 & F2)|(N2 & m & E2)].
      + left. rewrite E2.
        assert (Hx : (NoDup (map fst n1) ∧ (∀ p, p ∈ map fst n1 → p ∉ map fst before)) ∧
           NoDup (map fst n2) ∧ (∀ p, p ∈ map fst n2 → p ∉ map fst (before ++ n1))) by done.
        apply disjoint_app in Hx as [Hx1 Hx2]. split; [done|]. split; [done|].
        exists st2. split_and!; [done| | |congruence].
        * rewrite O2, O1. by rewrite <- List.app_assoc.
        * by rewrite List.app_assoc.
      + right. split; [|by exists m]. intros Hn. apply disjoint_app in Hn as [_ Hn]. by apply N2.
    - right. split; [|exists m; by rewrite E1]. intros Hn. apply disjoint_app in Hn as [Hn _]. by apply N1.
  Qed.

  Lemma fold_entries l : ∀ before st, inv before st → Forall fit_entry l → (∀ e, e ∈ l → enc_ok st e) →
    outcome before (omap ldef l) st (nsoccs before l) (res_fold stepf st (List.concat (map (toks g ti) l))).
  Proof.
    induction l as [|e l IH]; intros before st Hinv Hfit Henc.
    { apply outcome_none; [by rewrite List.app_nil_r|done|done]. }
    apply Forall_cons in Hfit as [Hf1 Hf2]. cbn [map List.concat nodes_occs].
    replace (omap ldef (e :: l)) with (option_list (ldef e) ++ omap ldef l)
      by (by cbn; destruct (ldef e)).
    apply outcome_seq.
    - apply step_entry; [done|done|]. apply Henc. left.
    - intros st' Hf Hi. apply IH; [done|done|]. intros e' He'. specialize (Henc e' (elem_of_list_further _ _ _ He')).
      destruct e' as [par n]. destruct n; try done. cbn in *. intros Hd. rewrite <- Henc by done.
      unfold enclosing_range. by rewrite Hf.
  Qed.
End Fold.

Lemma node_idents_eq n : node_idents n =
  match n with NIdent i => [i] | _ => [] end ++ List.concat (map node_idents (node_children n)).
Proof.
  unfold node_idents at 1. rewrite subnodes_eq. cbn.
  assert (H : ∀ l, omap (λ m, match m with NIdent i => Some i | _ => None end) (List.concat (map subnodes l)) =
    List.concat (map node_idents l)).
  { induction l as [|c l IH]; [done|]. cbn. rewrite omap_app, IH. done. }
  destruct n; cbn [app]; by rewrite ?H.
Qed.
Lemma elem_of_node_idents n i : i ∈ node_idents n ↔ NIdent i ∈ subnodes n.
Proof.
  unfold node_idents. rewrite elem_of_list_omap. split.
  - intros (m & Hm & E). destruct m; try done. by injection E as ->.
  - intros H. by exists (NIdent i).
Qed.
Lemma with_parent_ident par n q i : (q, NIdent i) ∈ with_parent par n → i ∈ node_idents n.
Proof.
  intros H. apply elem_of_node_idents. rewrite <- (with_parent_snd par n).
  apply elem_of_list_fmap. by exists (q, NIdent i).
Qed.

Section File.
  Context (env : tenv) (objs : nat → option obj) (path version : string).
  Context (g : global) (fs : fset) (pkg : gpkg) (ti : tinfo) (tbl : ptable).
  Context (imports : string → option gpkg) (f : node).
  Context (Hwf : wf_file fs ti imports f).
  Context (Huses : uses_ok objs ti) (Hcase : case_quote_ok ti).

  Notation stepf := (step env g fs pkg ti tbl imports).
  Notation ldef := (local_def g pkg ti tbl).
  Notation lkf := (lk env path version g).
  Notation nsoccs := (nodes_occs g fs pkg ti tbl imports lkf).
  Notation invf := (inv env objs path version g).

  Definition outcome0 (before new : list (Z * obj)) (st : fstate) (occs : list occurrence)
      (Q : fstate → Prop) (r : res fstate) : Prop :=
    (NoDup (map fst new) ∧ (∀ p, p ∈ map fst new → p ∉ map fst before) ∧
       ∃ st', r = Ok st' ∧ f_occs st' = f_occs st ++ occs ∧ invf (before ++ new) st' ∧ Q st')
    ∨ (¬ (NoDup (map fst new) ∧ ∀ p, p ∈ map fst new → p ∉ map fst before) ∧ ∃ m, r = Panic m).

  Lemma quote_ok_f : quote_ok ti.
  Proof. intros ptr o p H Hk. by eapply (wff_quote _ _ _ _ Hwf). Qed.

  Lemma fit_decl decl par q m : decl ∈ file_decls f → (q, m) ∈ with_parent par decl →
    (∀ d p e r nm t b, m ≠ NFuncDecl d p e r nm t b) → fit_entry fs imports (q, m).
  Proof.
    intros Hd Hin Hnf.
    assert (Hsub : m ∈ subnodes f).
    { destruct (wff_file _ _ _ _ Hwf) as (p & h & dd & nm & decls & ->). cbn in Hd.
      apply (subnodes_child _ decl); [right; done|]. rewrite <- (with_parent_snd par decl).
      apply elem_of_list_fmap. by exists (q, m). }
    destruct m; try done.
    - by apply (wff_fit_ident _ _ _ _ Hwf).
    - split.
      + destruct name as [i|]; [|done]. apply (wff_fit_ident _ _ _ _ Hwf).
        clear -Hsub. revert Hsub. induction f as [n IH] using node_child_ind.
        rewrite !subnodes_elem. intros [<-|(c & Hc & H)].
        * right. exists (NIdent i). split; [left|left].
        * right. exists c. split; [done|]. by apply IH.
      + intros pa imp Hi. by eapply (wff_fit_import _ _ _ _ Hwf).
    - by destruct (Hnf doc p pend recv name m body).
  Qed.

  Lemma decl_toks decl : decl ∈ file_decls f →
    visits g ti decl = List.concat (map (toks g ti) (with_parent (Some f) decl)).
  Proof.
    intros Hd. destruct (wff_file _ _ _ _ Hwf) as (p & h & dd & nm & decls & Ef).
    assert (Hqual : qual_ok ti (with_parent (Some f) decl)).
    { intros par i o pa Hin. apply (wff_qual _ _ _ _ Hwf). unfold file_nodes. apply elem_of_concat_map.
      by exists decl. }
    apply visits_toks; [| |done].
    - intros i ->. split; [by rewrite Ef|].
      apply (qual_npk ti (with_parent (Some f) (NIdent i)) (Some f)); [done|left|by rewrite Ef|by rewrite Ef].
    - intros m Hm. destruct m; try done.
      assert (Hin : ∀ n q, (∃ q', (q', q) ∈ with_parent (Some f) n) ↔ q ∈ subnodes n).
      { intros n q. rewrite <- (with_parent_snd (Some f) n), elem_of_list_fmap. split.
        - intros [q' H]. by exists (q', q).
        - intros ([q' q''] & -> & H). by exists q'. }
      apply Hin in Hm as [q Hm]. apply with_parent_elem in Hm as [[-> <-]|(m' & -> & Hm' & Hc)].
      + apply (wff_top _ _ _ _ Hwf _ Hd).
      + apply (wff_nested _ _ _ _ Hwf _ _ _ Hd Hm' Hc).
  Qed.

  Definition func_apart (st : fstate) (decls : list node) : Prop :=
    ∀ nm p e, f_func st = Some (nm, p, e) → id_ptr nm ∉ map id_ptr (List.concat (map node_idents decls)).

  (** entries strictly below a declaration are not function declarations, and
      their parents are function declarations only for the root *)
  Lemma below_not_func decl par q m : decl ∈ file_decls f → (q, m) ∈ with_parent par decl →
    (q = par ∧ m = decl) ∨ (∀ d p e r nm t b, m ≠ NFuncDecl d p e r nm t b).
  Proof.
    intros Hd H. apply with_parent_elem in H as [[-> ->]|(p & -> & Hp & Hc)]; [by left|right].
    intros d p' e r nm t b ->. apply (wff_nested _ _ _ _ Hwf _ _ _ Hd Hp Hc).
  Qed.
  Lemma subnode_func decl m : decl ∈ file_decls f → m ∈ subnodes decl →
    m = decl ∨ (∀ d p e r nm t b, m ≠ NFuncDecl d p e r nm t b).
  Proof.
    intros Hd Hm. rewrite <- (with_parent_snd (Some f) decl) in Hm.
    apply elem_of_list_fmap in Hm as ([q m'] & -> & Hm). cbn.
    apply (below_not_func _ _ _ _ Hd) in Hm as [[_ ->]|H]; [by left|by right].
  Qed.

  Lemma NoDup_concat_apart (l1 l2 : list nat) x : NoDup (l1 ++ l2) → x ∈ l1 → x ∉ l2.
  Proof. intros (_ & H & _)%NoDup_app Hx. by apply H. Qed.

  Lemma fold_decl decl rest before st : decl ∈ file_decls f → invf before st →
    NoDup (map id_ptr (node_idents decl ++ List.concat (map node_idents rest))) →
    func_apart st (decl :: rest) →
    outcome0 before (omap ldef (with_parent (Some f) decl)) st (nsoccs before (with_parent (Some f) decl))
      (λ st', func_apart st' rest)
      (res_fold stepf st (List.concat (map (toks g ti) (with_parent (Some f) decl)))).
  Proof.
    intros Hd Hinv Hnd Hfa. destruct (wff_file _ _ _ _ Hwf) as (p0 & h0 & d0 & nm0 & decls0 & Ef).
    assert (Hfun : (∃ d p e r nm t b, decl = NFuncDecl d p e r nm t b) ∨
                   (∀ d p e r nm t b, decl ≠ NFuncDecl d p e r nm t b)).
    { destruct decl; try (by right). left. by repeat eexists. }
    destruct Hfun as [(d & p & e & r & nm & t & b & Edecl)|Hnf].
    - rewrite with_parent_eq. set (kids := List.concat (map (with_parent (Some decl)) (node_children decl))).
      assert (Hkids : ∀ q m, (q, m) ∈ kids → ∃ p', q = Some p' ∧ p' ∈ subnodes decl ∧ m ∈ node_children p').
      { intros q m (c & Hc & H)%elem_of_concat_map. apply with_parent_elem in H as [[-> ->]|(p' & -> & Hp & Hm)].
        - exists decl. split_and!; [done|apply subnodes_self|done].
        - exists p'. split_and!; [done|by eapply subnodes_child|done]. }
      assert (Hin : ∀ q m, (q, m) ∈ kids → (q, m) ∈ with_parent (Some f) decl).
      { intros q m H. rewrite with_parent_eq. by right. }
      set (st1 := FState (f_locals st) (f_occs st) (Some (nm, p, e)) (f_caches st)).
      assert (Hinv1 : invf before st1) by (by destruct Hinv).
      assert (Ht : List.concat (map (toks g ti) ((Some f, decl) :: kids)) =
                   VFunc nm p e :: List.concat (map (toks g ti) kids)) by (by rewrite Edecl).
      rewrite Ht. cbn [res_fold step res_bind]. fold st1.
      assert (Hl : ldef (Some f, decl) = None) by (by rewrite Edecl).
      cbn [omap list_omap nodes_occs]. rewrite Hl. cbn [option_list]. rewrite List.app_nil_r.
      assert (Hno : node_occs g fs pkg ti tbl imports lkf before (Some f, decl) = []) by (by rewrite Edecl).
      rewrite Hno. cbn [app].
      assert (Hfit : Forall (fit_entry fs imports) kids).
      { apply Forall_forall. intros [q m] Hm. destruct (Hkids _ _ Hm) as (p' & -> & Hp' & Hc).
        eapply fit_decl; [done|by apply Hin|].
        intros d' p1 e' r' nm' t' b' ->; exact (wff_nested _ _ _ _ Hwf _ _ _ Hd Hp' Hc). }
      assert (Henc : ∀ en, en ∈ kids → enc_ok fs ti st1 en).
      { intros [q m] Hm. destruct m; try done. cbn. intros Hdef. unfold enclosing_range. cbn [f_func st1].
        destruct (Hkids _ _ Hm) as (p' & -> & Hp' & Hc).
        destruct (wff_fit_func _ _ _ _ Hwf d p e r nm t b) as [Hf1 Hf2]; [by rewrite <- Edecl|].
        destruct (Nat.eqb_spec (id_ptr nm) (id_ptr i)) as [Eptr|Hne].
        - (* only the name has this pointer *)
          assert (Hp : p' = decl).
          { apply subnodes_elem in Hp' as [->|(c & Hc' & Hp')]; [done|exfalso].
            assert (Hic : i ∈ node_idents c).
            { apply elem_of_node_idents. clear -Hp' Hc. revert Hp'. induction c as [n IH] using node_child_ind.
              rewrite !subnodes_elem. intros [->|(c & H1 & H2)].
              - right. exists (NIdent i). split; [done|apply subnodes_self].
              - right. exists c. split; [done|]. by apply IH. }
            rewrite map_app in Hnd. apply NoDup_app in Hnd as (Hnd & _ & _).
            rewrite node_idents_eq, Edecl in Hnd. rewrite Edecl in Hc'. cbn [node_children app] in Hnd, Hc'.
            rewrite map_app, List.concat_app, map_app in Hnd. cbn [map List.concat] in Hnd.
            rewrite !map_app in Hnd.
            apply elem_of_app in Hc' as [Hc'|Hc'].
            - assert (Hx : id_ptr i ∈ map id_ptr (List.concat (map node_idents (opt_node r)))).
              { apply elem_of_list_fmap. exists i. split; [done|]. apply elem_of_concat_map. by exists c. }
              apply (NoDup_concat_apart _ _ _ Hnd Hx). cbn. rewrite Eptr. left.
            - apply NoDup_app in Hnd as (_ & _ & Hnd).
              apply elem_of_cons in Hc' as [->|Hc'].
              + apply subnodes_elem in Hp' as [->|(c & Hc'' & _)]; [by apply elem_of_nil in Hc|by apply elem_of_nil in Hc''].
              + cbn in Hnd. apply NoDup_cons in Hnd as [Hnd _]. apply Hnd. rewrite Eptr.
                rewrite <- map_app. apply elem_of_list_fmap. exists i. split; [done|].
                change (node_idents t ++ List.concat (map node_idents (opt_node b)))
                  with (List.concat (map node_idents (t :: opt_node b))).
                apply elem_of_concat_map. by exists c. }
          rewrite Hp. cbn [enclosing]. rewrite Edecl. rewrite Eptr, Nat.eqb_refl.
          apply scip_range_span; [done|done|]. intros ob pa Eo Hk. eapply quote_ok_f; [by right|done].
        - cbn [enclosing]. destruct (subnode_func _ _ Hd Hp') as [->|Hn].
          + rewrite Edecl. by destruct (Nat.eqb_spec (id_ptr nm) (id_ptr i)).
          + destruct p'; try done. by destruct (Hn doc p1 pend recv name p' body). }
      destruct (fold_entries env objs path version g fs pkg ti tbl imports Huses quote_ok_f Hcase kids before st1 Hinv1 Hfit Henc)
        as [(N & D & st' & E & O & I & F)|(N & m & E)].
      + left. split; [done|]. split; [done|]. exists st'. split_and!; [done|done|done|].
        intros nm' p' e'. rewrite F. intros [= <- <- <-].
        rewrite map_app in Hnd. eapply NoDup_concat_apart; [exact Hnd|].
        apply elem_of_list_fmap. exists nm. split; [done|]. apply elem_of_node_idents. rewrite Edecl.
        apply (subnodes_child _ (NIdent nm)); [|apply subnodes_self].
        cbn. apply elem_of_app. right. left.
      + right. split; [done|]. by exists m.
    - assert (Hnot : ∀ q m, (q, m) ∈ with_parent (Some f) decl → ∀ d p e r nm t b, m ≠ NFuncDecl d p e r nm t b).
      { intros q m H. apply (below_not_func _ _ _ _ Hd) in H as [[_ ->]|H]; done. }
      assert (Hfit : Forall (fit_entry fs imports) (with_parent (Some f) decl)).
      { apply Forall_forall. intros [q m] Hm. eapply fit_decl; [done|done|]; by eapply Hnot. }
      assert (Henc : ∀ en, en ∈ with_parent (Some f) decl → enc_ok fs ti st en).
      { intros [q m] Hm. destruct m; try done. cbn. intros _.
        assert (enclosing fs q i = []) as ->.
        { apply with_parent_elem in Hm as [[-> _]|(p' & -> & Hp & Hc)]; [by rewrite Ef|].
          destruct (subnode_func _ _ Hd Hp) as [->|Hn].
          - destruct decl; try done. by destruct (Hnf doc p pend recv name decl body).
          - destruct p'; try done. by destruct (Hn doc p pend recv name p' body). }
        unfold enclosing_range. destruct (f_func st) as [[[nm p] e]|] eqn:Hf; [|done].
        destruct (Nat.eqb_spec (id_ptr nm) (id_ptr i)) as [E|]; [exfalso|done].
        apply (Hfa _ _ _ Hf). rewrite E. apply elem_of_list_fmap. exists i. split; [done|].
        cbn. apply elem_of_app. left. by eapply with_parent_ident. }
      destruct (fold_entries env objs path version g fs pkg ti tbl imports Huses quote_ok_f Hcase _ before st Hinv Hfit Henc)
        as [(N & D & st' & E & O & I & F)|(N & m & E)].
      + left. split; [done|]. split; [done|]. exists st'. split_and!; [done|done|done|].
        intros nm' p' e'. rewrite F. intros Hf Hx. apply (Hfa _ _ _ Hf).
        cbn. rewrite map_app. apply elem_of_app. by right.
      + right. split; [done|]. by exists m.
  Qed.

  Lemma nodes_occs_app before l1 l2 :
    nsoccs before (l1 ++ l2) = nsoccs before l1 ++ nsoccs (before ++ omap ldef l1) l2.
  Proof.
    revert before. induction l1 as [|e l1 IH]; intros before; [by cbn; rewrite List.app_nil_r|].
    cbn [app nodes_occs]. rewrite IH, <- !List.app_assoc. do 3 f_equal.
    cbn. by destruct (ldef e).
  Qed.

  Lemma fold_decls decls : ∀ before st, (∀ d, d ∈ decls → d ∈ file_decls f) → invf before st →
    NoDup (map id_ptr (List.concat (map node_idents decls))) → func_apart st decls →
    outcome0 before (omap ldef (List.concat (map (with_parent (Some f)) decls))) st
      (nsoccs before (List.concat (map (with_parent (Some f)) decls))) (λ _, True)
      (res_fold stepf st (List.concat (map (visits g ti) decls))).
  Proof.
    induction decls as [|d decls IH]; intros before st Hin Hinv Hnd Hfa.
    { left. split; [constructor|]. split; [by intros p ?%elem_of_nil|]. exists st. cbn.
      rewrite !List.app_nil_r. done. }
    cbn [map List.concat] in *. rewrite res_fold_app.
    rewrite (decl_toks d) by (apply Hin; left).
    rewrite omap_app, nodes_occs_app.
    destruct (fold_decl d decls before st) as [(N & D & st1 & E & O & I & F)|(N & m & E)]; try done.
    { apply Hin. left. }
    - rewrite E. cbn.
      destruct (IH (before ++ omap ldef (with_parent (Some f) d)) st1) as [(N2 & D2 & st2 & E2 & O2 & I2 & _)|(N2 & m & E2)]; try done.
      { intros x Hx. apply Hin. by right. }
      { rewrite map_app in Hnd. by apply NoDup_app in Hnd as (_ & _ & ?). }
      + left.
        assert (Hx := conj (conj N D) (conj N2 D2)). apply disjoint_app in Hx as [Hx1 Hx2].
        split; [done|]. split; [done|]. exists st2. split_and!; [done| | |done].
        * rewrite O2, O. by rewrite <- List.app_assoc.
        * by rewrite List.app_assoc.
      + right. split; [|by exists m]. intros Hn. apply disjoint_app in Hn as [_ Hn]. by apply N2.
    - rewrite E. right. split; [|by exists m]. intros Hn. apply disjoint_app in Hn as [Hn _]. by apply N.
  Qed.

  (** the whole file *)
  Lemma visit_file_outcome pkg_occ k : caches_ok env objs g path version k →
    let locals := local_defs g pkg ti tbl f in
    (NoDup (map fst locals) ∧ ∃ st, visit_file env g fs pkg ti tbl imports pkg_occ k f = Ok st ∧
       f_occs st = pkg_occ :: nsoccs [] (file_nodes f) ∧ invf locals st) ∨
    (¬ NoDup (map fst locals) ∧ ∃ m, visit_file env g fs pkg ti tbl imports pkg_occ k f = Panic m).
  Proof.
    intros Hk locals. destruct (wff_file _ _ _ _ Hwf) as (p0 & h0 & d0 & nm0 & decls0 & Ef).
    destruct (fold_decls (file_decls f) [] (FState ∅ [pkg_occ] None k)) as [(N & D & st & E & O & I & _)|(N & m & E)]; try done.
    - pose proof (wff_ptrs _ _ _ _ Hwf) as Hp. rewrite node_idents_eq in Hp. rewrite Ef in *. cbn in Hp |- *.
      by apply NoDup_cons in Hp as [_ ?].
    - left. split; [done|]. exists st. split_and!; [|done|done].
      unfold visit_file. rewrite <- E. rewrite Ef. done.
    - right. split.
      + intros Hn. apply N. split; [done|]. intros p _. apply not_elem_of_nil.
      + exists m. unfold visit_file. rewrite <- E. rewrite Ef. done.
  Qed.
End File.
