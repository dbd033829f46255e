(** Consequences of the occurrence characterisation. *)
From Coq Require Import Ascii String.
From stdpp Require Import prelude strings gmap pretty.
From Verif Require Import GoStr Scip GoTypes Ast Packages Symbols Document Lookup Pass1 Pass2
  SpecSymbol SpecDecl SpecLookup SpecOcc P_Symbols P_Pass1 P_Doc P_Lookup P_Pass2.
Open Scope string_scope.
Open Scope list_scope.

Lemma compose_scheme env path version p o : composed env path version p o ≠ "" →
  is_global (composed env path version p o).
Proof.
  unfold composed, compose. destruct (o_pkg o); [|done]. cbn [c_memo new_composer assoc_nat].
  destruct (o_pkg (origin o)); [|done]. destruct (describe env _ _) as [|d ds]; [done|]. intros _.
  cbn [fst]. unfold is_global. apply has_prefix_spec.
  unfold format_symbol. cbn [s_scheme].
  eexists. change "scip-go " with ("scip-go" +:+ " "). rewrite <- app_assoc. 
  change (format_field "scip-go") with "scip-go". f_equal.
Qed.
Lemma global_not_local s : is_global s → ¬ is_local s.
Proof.
  unfold is_global, is_local. intros [r Hr]%has_prefix_spec [r' Hr']%has_prefix_spec.
  rewrite Hr in Hr'. discriminate.
Qed.
Lemma local_name_local n : is_local (local_name n).
Proof. apply has_prefix_app. Qed.
Lemma show_nat_inj m n : show_nat m = show_nat n → m = n.
Proof. unfold show_nat. apply (inj pretty). Qed.
Lemma local_name_inj m n : local_name m = local_name n → m = n.
Proof. unfold local_name. intros H%app_inj_l. by apply show_nat_inj. Qed.

Lemma nodup_sublist {A} (l k : list A) : l `sublist_of` k → NoDup k → NoDup l.
Proof.
  induction 1 as [|x l k Hs IH|x l k Hs IH]; intros Hn; [done| |];
    apply NoDup_cons in Hn as [Hx Hn]; [|by apply IH].
  apply NoDup_cons. split; [|by apply IH]. intros Hin. apply Hx.
  eapply elem_of_submseteq; [exact Hin|]. by apply sublist_submseteq.
Qed.

Lemma subnodes_trans n m k : m ∈ subnodes n → k ∈ subnodes m → k ∈ subnodes n.
Proof.
  revert m. induction n as [n IH] using node_child_ind. intros m Hm Hk.
  rewrite subnodes_eq, elem_of_cons, elem_of_concat_map in Hm. destruct Hm as [->|(c & Hc & Hm)]; [done|].
  apply (subnodes_child n c); [done|]. by eapply IH.
Qed.

Section Occ.
  Context (env : tenv) (objs : nat → option obj) (path version : string).
  Context (g : global) (fs : fset) (pkg : gpkg) (ti : tinfo) (tbl : ptable).
  Context (imports : string → option gpkg) (pkg_occ : occurrence) (f : node).
  Context (lookup : obj → lookup_result).

  Notation ldef := (local_def g pkg ti tbl).
  Notation noccs := (node_occs g fs pkg ti tbl imports lookup).
  Notation nsoccs := (nodes_occs g fs pkg ti tbl imports lookup).
  Notation locals := (local_defs g pkg ti tbl f).

  Context (Htf : typed_file fs ti imports objs f).
  Context (Hans : answers env path version g ti lookup).

  Lemma lk_lookup ptr o : ti_uses ti ptr = Some o → (∀ p, o_kind o ≠ OPkgName p) →
    lk env path version g o = lookup o.
  Proof.
    intros Hu Hk. unfold lk. pose proof (tf_uses _ _ _ _ _ Htf _ _ Hu Hk) as Hgo.
    by rewrite (proj2 (answer_resolves env objs g path version o _ Hgo) (Hans _ _ Hu Hk)).
  Qed.
  Lemma names_package_none i o : names_package ti i = None → ti_uses ti (id_ptr i) = Some o →
    ∀ p, o_kind o ≠ OPkgName p.
  Proof. unfold names_package. intros H E p Hk. rewrite E in H. by rewrite Hk in H. Qed.

  Lemma noccs_ext before e :
    node_occs g fs pkg ti tbl imports (lk env path version g) before e = noccs before e.
  Proof.
    destruct e as [par n]. destruct n; try done. cbn.
    destruct (hidden g ti par); [done|]. destruct (names_package ti i) as [[o p]|] eqn:Hn; [done|].
    destruct (String.eqb _ _); [done|]. destruct (switch_object ti i); [done|]. f_equal.
    unfold use_occs. destruct (ti_uses ti (id_ptr i)) as [o|] eqn:Hu; [|done].
    destruct (local_symbol _ _); [done|].
    by rewrite (lk_lookup _ _ Hu (names_package_none _ _ Hn Hu)).
  Qed.
  Lemma nsoccs_ext before l :
    nodes_occs g fs pkg ti tbl imports (lk env path version g) before l = nsoccs before l.
  Proof. revert before. induction l as [|e l IH]; intros before; [done|]. cbn. by rewrite noccs_ext, IH. Qed.

  Lemma visit_outcome k : caches_ok env objs g path version k →
    (NoDup (map fst locals) ∧ ∃ st, visit_file env g fs pkg ti tbl imports pkg_occ k f = Ok st ∧
       f_occs st = pkg_occ :: nsoccs [] (file_nodes f) ∧ inv env objs path version g locals st) ∨
    (¬ NoDup (map fst locals) ∧ ∃ m, visit_file env g fs pkg ti tbl imports pkg_occ k f = Panic m).
  Proof.
    intros Hk. destruct Htf as [Hwf Huses Hcase].
    destruct (visit_file_outcome env objs path version g fs pkg ti tbl imports f Hwf Huses Hcase pkg_occ k Hk)
      as [(N & st & E & O & I)|(N & m & E)].
    - left. split; [done|]. exists st. split_and!; [done| |done]. by rewrite O, nsoccs_ext.
    - right. split; [done|]. by exists m.
  Qed.
  Lemma after_ok h k : Forall (go_call objs g) h → after_calls env g path version h = Ok k →
    caches_ok env objs g path version k.
  Proof.
    intros Hh Hk. destruct (run_calls_ok env objs g path version h _ (fresh_ok _ _ _ _ _) Hh) as (k' & E & H).
    unfold after_calls in Hk. rewrite E in Hk. by injection Hk as <-.
  Qed.
  Lemma visited_occs st : visited env objs path version g fs pkg ti tbl imports pkg_occ f st →
    NoDup (map fst locals) ∧ f_occs st = pkg_occ :: nsoccs [] (file_nodes f) ∧
    inv env objs path version g locals st.
  Proof.
    intros (h & k & Hh & Hk & Hv). apply (after_ok _ _ Hh) in Hk.
    destruct (visit_outcome k Hk) as [(N & st' & E & O & I)|(N & m & E)]; [|congruence].
    assert (st' = st) as -> by congruence. done.
  Qed.
  Lemma visit_no_panic h : Forall (go_call objs g) h → NoDup (map fst locals) →
    ∃ k st, after_calls env g path version h = Ok k ∧
      visit_file env g fs pkg ti tbl imports pkg_occ k f = Ok st.
  Proof.
    intros Hh N. destruct (run_calls_ok env objs g path version h _ (fresh_ok _ _ _ _ _) Hh) as (k & E & H).
    destruct (visit_outcome k H) as [(_ & st & E' & _)|(N' & _)]; [|done]. by exists k, st.
  Qed.
  Lemma visit_panic h k : Forall (go_call objs g) h → after_calls env g path version h = Ok k →
    ¬ NoDup (map fst locals) → ∃ m, visit_file env g fs pkg ti tbl imports pkg_occ k f = Panic m.
  Proof.
    intros Hh Hk N. apply (after_ok _ _ Hh) in Hk.
    destruct (visit_outcome k Hk) as [(N' & _)|(_ & m & E)]; [done|]. by exists m.
  Qed.

  (** local definitions of identifiers at their positions are at distinct positions *)
  Lemma local_def_pos e p o : ldef e = Some (p, o) → snd e ∈ subnodes f →
    (∀ i d, NIdent i ∈ subnodes f → ti_defs ti (id_ptr i) = Some d → o_pos d = id_pos i) →
    ∃ i, snd e = NIdent i ∧ p = id_pos i.
  Proof.
    destruct e as [par n]. unfold local_def, plain_ident. intros H Hin Hdef. destruct n; try done.
    exists i. split; [done|]. destruct (hidden g ti par); [done|]. destruct (names_package ti i); [done|].
    destruct (String.eqb _ _); [done|]. destruct (switch_object ti i) as [o'|] eqn:Hsw.
    - injection H as <- <-. unfold switch_object in Hsw. apply find_some in Hsw as [_ Hsw].
      by apply Z.eqb_eq.
    - destruct (ti_defs ti (id_ptr i)) as [d|] eqn:Hd; [|done].
      destruct (registered g pkg tbl (o_pos d)); [done|]. injection H as <- <-. by apply Hdef.
  Qed.
  Lemma file_nodes_sub e : e ∈ file_nodes f → snd e ∈ subnodes f.
  Proof.
    destruct (wff_file _ _ _ _ (tf_wf _ _ _ _ _ Htf)) as (p & h & d & nm & decls & Ef).
    unfold file_nodes. intros (decl & Hd & H)%elem_of_concat_map. rewrite Ef in *. cbn in Hd.
    apply (subnodes_child _ decl); [by right|].
    rewrite <- (with_parent_snd (Some (NFile p h d nm decls)) decl). apply elem_of_list_fmap. by exists e.
  Qed.
  Lemma file_nodes_idents :
    omap (λ e : option node * node, match snd e with NIdent i => Some i | _ => None end) (file_nodes f)
    `sublist_of` node_idents f.
  Proof.
    destruct (wff_file _ _ _ _ (tf_wf _ _ _ _ _ Htf)) as (p & h & d & nm & decls & Ef).
    unfold node_idents. unfold file_nodes. rewrite Ef at 2 3. rewrite subnodes_eq. cbn.
    apply sublist_cons.
    enough (∀ l, omap (λ e : option node * node, match snd e with NIdent i => Some i | _ => None end)
        (List.concat (map (with_parent (Some f)) l)) =
      omap (λ m, match m with NIdent i => Some i | _ => None end) (List.concat (map subnodes l))) as -> by done.
    induction l as [|c l IH]; [done|]. cbn. rewrite !omap_app, IH. f_equal.
    rewrite <- (with_parent_snd (Some f) c). generalize (with_parent (Some f) c). intros l'.
    induction l' as [|[q m] l' IHl]; [done|]. cbn. destruct m; by rewrite IHl.
  Qed.
  Lemma locals_nodup : defs_at_idents ti f → NoDup (map fst locals).
  Proof.
    intros [Hdef Hnd]. eapply nodup_sublist; [|exact Hnd].
    etransitivity; [|apply (fmap_sublist id_pos), file_nodes_idents].
    unfold local_defs. 
    assert (Hs : ∀ e, e ∈ file_nodes f → snd e ∈ subnodes f) by apply file_nodes_sub.
    revert Hs. generalize (file_nodes f). induction l as [|e l IH]; intros Hs; [done|].
    assert (IH' := IH (λ e' He', Hs e' (elem_of_list_further _ _ _ He'))). cbn.
    destruct (ldef e) as [[p o]|] eqn:He.
    - destruct (local_def_pos e p o He (Hs e (elem_of_list_here _ _)) Hdef) as (i & -> & ->).
      cbn. by apply sublist_skip.
    - destruct (snd e); try done. cbn. by apply sublist_cons.
  Qed.

  (** *** Locals (C09) *)
  Definition local_def_symbols (l : list occurrence) : list string :=
    filter is_local (map oc_symbol (filter is_def l)).
  Lemma lds_app l1 l2 : local_def_symbols (l1 ++ l2) = local_def_symbols l1 ++ local_def_symbols l2.
  Proof. unfold local_def_symbols. by rewrite filter_app, map_app, filter_app. Qed.

  Context (Hglob : global_symbols g tbl).

  Lemma registered_global p i : registered g pkg tbl p = Some i → is_global (i_symbol i).
  Proof.
    destruct Hglob as (H1 & H2 & _). unfold registered. destruct (tbl !! p) eqn:E.
    - intros [= <-]. by eapply H1.
    - destruct (g_symbols g !! p_path pkg) as [[q t]|] eqn:E2; [|done]. intros H. by eapply H2.
  Qed.
  Lemma lookup_global ptr o i : ti_uses ti ptr = Some o → (∀ p, o_kind o ≠ OPkgName p) →
    lookup o = Found i → is_global (i_symbol i).
  Proof.
    intros Hu Hk Hl. destruct Hglob as (_ & H2 & _). pose proof (Hans _ _ Hu Hk) as H. rewrite Hl in H.
    inversion H; subst;
      repeat match goal with Hr : recorded _ _ _ _ |- _ => destruct Hr as (? & ? & ? & ?); by eapply H2 end.
    by apply compose_scheme.
  Qed.

  (** the symbols of a node's occurrences *)
  Lemma use_occs_symbols known i o : names_package ti i = None → o ∈ use_occs fs ti lookup known i →
    oc_roles o = 8 ∧ (is_global (oc_symbol o) ∨ ∃ k, k < length known ∧ oc_symbol o = local_name k).
  Proof.
    intros Hn. unfold use_occs. destruct (ti_uses ti (id_ptr i)) as [u|] eqn:Hu; [|by intros ?%elem_of_nil].
    unfold local_symbol. destruct (index_of (o_pos u) known) as [k|] eqn:Hix; cbn.
    - intros ->%elem_of_list_singleton. split; [done|]. right. exists k. split; [|done].
      apply index_of_some in Hix as [a Hix]. by eapply lookup_lt_Some.
    - destruct (lookup u) as [info| |] eqn:Hl; [|by intros ?%elem_of_nil..].
      intros ->%elem_of_list_singleton. split; [done|]. left.
      eapply lookup_global; [done| |done]. by eapply names_package_none.
  Qed.
  Lemma not_def_lds l : (∀ o, o ∈ l → oc_roles o = 8) → local_def_symbols l = [].
  Proof.
    intros H. unfold local_def_symbols.
    assert (filter is_def l = []) as ->; [|done].
    induction l as [|o l IH]; [done|]. rewrite filter_cons_False.
    - apply IH. intros. apply H. by right.
    - unfold is_def. rewrite H; [done|left].
  Qed.
  Lemma import_refs_symbols ptr nm p o : o ∈ import_refs g fs ti imports ptr nm p →
    oc_roles o = 8 ∧ is_global (oc_symbol o).
  Proof.
    destruct Hglob as (_ & _ & H3). unfold import_refs.
    destruct (ti_pkgname_of ti ptr) as [po|]; [|by intros ?%elem_of_nil].
    destruct (o_kind po); try by intros ?%elem_of_nil.
    destruct (imports imported_path) as [imp|]; [|by intros ?%elem_of_nil].
    destruct (g_pkgsyms g !! p_path imp) eqn:E; [|by intros ?%elem_of_nil].
    rewrite elem_of_app. intros [H|H].
    - destruct nm as [i|]; [|by apply elem_of_nil in H].
      destruct (_ || _)%bool; [by apply elem_of_nil in H|].
      apply elem_of_list_singleton in H as ->. split; [done|]. by eapply H3.
    - apply elem_of_list_singleton in H as ->. split; [done|]. by eapply H3.
  Qed.

  Lemma noccs_lds before e :
    local_def_symbols (noccs before e) =
    match ldef e with Some _ => [local_name (length before)] | None => [] end.
  Proof.
    assert (Hfl : ∀ n, filter is_local [local_name n] = [local_name n]).
    { intros n. by rewrite filter_cons_True by apply local_name_local. }
    destruct e as [par n]. unfold local_def, plain_ident. destruct n; try done.
    - cbn [node_occs]. destruct (hidden g ti par); [done|].
      destruct (names_package ti i) as [[o p]|] eqn:Hn.
      { destruct (g_pkgsyms g !! p); done. }
      destruct (String.eqb _ _); [done|]. destruct (switch_object ti i) as [o|].
      { unfold local_def_symbols. cbn [map filter list_filter]. cbn. by apply Hfl. }
      rewrite lds_app. rewrite (not_def_lds (use_occs _ _ _ _ _)), List.app_nil_r
        by (intros o Ho; by eapply use_occs_symbols).
      unfold def_occs. destruct (ti_defs ti (id_ptr i)) as [d|]; [|done].
      destruct (registered g pkg tbl (o_pos d)) as [info|] eqn:Hr.
      + change (filter is_local [i_symbol info] = []). rewrite filter_cons_False; [done|].
        by apply global_not_local, (registered_global (o_pos d)).
      + unfold local_def_symbols. cbn. apply Hfl.
    - cbn. apply not_def_lds. intros o Ho. by eapply import_refs_symbols.
  Qed.
  Lemma nsoccs_lds l : ∀ before,
    local_def_symbols (nsoccs before l) = map local_name (List.seq (length before) (length (omap ldef l))).
  Proof.
    induction l as [|e l IH]; intros before; [done|].
    cbn [nodes_occs omap list_omap]. rewrite lds_app, noccs_lds, IH. unfold omap. cbn.
    destruct (ldef e); cbn.
    - rewrite app_length. cbn. by rewrite Nat.add_1_r.
    - by rewrite List.app_nil_r.
  Qed.
  Lemma noccs_symbols before e o : o ∈ noccs before e →
    is_global (oc_symbol o) ∨ ∃ k, k < length before + length (option_list (ldef e)) ∧ oc_symbol o = local_name k.
  Proof.
    destruct e as [par n]. destruct n; try by intros ?%elem_of_nil.
    - cbn [node_occs]. unfold local_def at 2, plain_ident.
      destruct (hidden g ti par) eqn:Hh; [by intros ?%elem_of_nil|].
      destruct (names_package ti i) as [[u p]|] eqn:Hn.
      { destruct (g_pkgsyms g !! p) eqn:E; [|by intros ?%elem_of_nil].
        intros ->%elem_of_list_singleton. left. by eapply Hglob. }
      destruct (String.eqb (id_name i) "_") eqn:Hb; [by intros ?%elem_of_nil|].
      destruct (switch_object ti i) as [u|] eqn:Hs.
      { intros ->%elem_of_list_singleton. right. exists (length before). cbn. split; [lia|done]. }
      rewrite elem_of_app. intros [H|H].
      + unfold def_occs in H. destruct (ti_defs ti (id_ptr i)) as [d|]; [|by apply elem_of_nil in H].
        destruct (registered g pkg tbl (o_pos d)) as [info|] eqn:Hr; apply elem_of_list_singleton in H as ->.
        * left. by eapply registered_global.
        * right. exists (length before). cbn. split; [lia|done].
      + apply use_occs_symbols in H as [_ [H|(k & Hk & H)]]; [by left| |done].
        right. exists k. split; [|done]. rewrite app_length in Hk. revert Hk.
        unfold local_def, plain_ident. rewrite Hh, Hn, Hb, Hs. done.
    - cbn. intros H. left. by apply import_refs_symbols in H as [_ ?].
  Qed.
  Lemma nsoccs_symbols l o : ∀ before, o ∈ nsoccs before l →
    is_global (oc_symbol o) ∨ ∃ k, k < length before + length (omap ldef l) ∧ oc_symbol o = local_name k.
  Proof.
    induction l as [|e l IH]; intros before; [by intros ?%elem_of_nil|]. cbn.
    rewrite elem_of_app. intros [H|H].
    - apply noccs_symbols in H as [H|(k & Hk & H)]; [by left|]. right. exists k. split; [|done].
      destruct (ldef e); cbn in *; lia.
    - apply IH in H as [H|(k & Hk & H)]; [by left|]. right. exists k. split; [|done].
      rewrite app_length in Hk. destruct (ldef e); cbn in *; lia.
  Qed.
End Occ.

(** *** Position of a node's occurrences in the document *)
Section Nodes.
  Context (env : tenv) (g : global) (fs : fset) (pkg : gpkg) (ti : tinfo) (tbl : ptable).
  Context (imports : string → option gpkg) (lookup : obj → lookup_result).
  Notation ldef := (local_def g pkg ti tbl).
  Notation noccs := (node_occs g fs pkg ti tbl imports lookup).
  Notation nsoccs := (nodes_occs g fs pkg ti tbl imports lookup).

  Lemma nsoccs_app l1 l2 : ∀ before,
    nsoccs before (l1 ++ l2) = nsoccs before l1 ++ nsoccs (before ++ omap ldef l1) l2.
  Proof.
    induction l1 as [|e l1 IH]; intros before; [by rewrite List.app_nil_r|].
    cbn [nodes_occs app]. rewrite IH.
    assert ((before ++ option_list (ldef e)) ++ omap ldef l1 = before ++ omap ldef (e :: l1)) as ->;
      [|by rewrite List.app_assoc].
    rewrite <- List.app_assoc. f_equal. unfold omap. cbn. by destruct (ldef e).
  Qed.
  Lemma nsoccs_elem before l o : o ∈ nsoccs before l ↔
    ∃ l1 e l2, l = l1 ++ e :: l2 ∧ o ∈ noccs (before ++ omap ldef l1) e.
  Proof.
    split.
    - revert before. induction l as [|e l IH]; intros before; [by intros ?%elem_of_nil|].
      cbn [nodes_occs]. rewrite elem_of_app. intros [H|H].
      + exists [], e, l. split; [done|]. cbn. by rewrite List.app_nil_r.
      + apply IH in H as (l1 & e' & l2 & -> & H). exists (e :: l1), e', l2. split; [done|].
        rewrite <- List.app_assoc in H. revert H. unfold omap. cbn. by destruct (ldef e).
    - intros (l1 & e & l2 & -> & H). rewrite nsoccs_app, elem_of_app. right. cbn [nodes_occs].
      rewrite elem_of_app. by left.
  Qed.
  Lemma plain_ident_node par i i' : plain_ident g ti (par, NIdent i) = Some i' →
    i' = i ∧ hidden g ti par = false ∧ names_package ti i = None ∧ String.eqb (id_name i) "_" = false.
  Proof.
    cbn. destruct (hidden g ti par); [done|]. destruct (names_package ti i); [done|].
    destruct (String.eqb _ _); [done|]. by intros [= <-].
  Qed.
  (** a node defining a local emits its definition *)
  Lemma ldef_occ before e p o : ldef e = Some (p, o) →
    ∃ i encl, snd e = NIdent i ∧
      Definition_ (local_name (length before)) (ident_span fs i) encl false ∈ noccs before e.
  Proof.
    destruct e as [par n]. unfold local_def. destruct (plain_ident g ti (par, n)) as [i'|] eqn:Hp; [|done].
    destruct n; try done. destruct (plain_ident_node _ _ _ Hp) as (-> & Hh & Hn & Hb).
    cbn [node_occs]. rewrite Hh, Hn, Hb. destruct (switch_object ti i) as [u|] eqn:Hs; intros H.
    - eexists i, _. split; [done|]. by apply elem_of_list_singleton.
    - unfold def_occs. destruct (ti_defs ti (id_ptr i)) as [d|] eqn:Hd; [|done].
      destruct (registered g pkg tbl (o_pos d)) eqn:Hr; [done|].
      eexists i, _. split; [done|]. apply elem_of_app. left. by apply elem_of_list_singleton.
  Qed.
  (** an identifier using an object emits a reference *)
  Lemma use_occ before par i o : plain_ident g ti (par, NIdent i) = Some i → switch_object ti i = None →
    ti_uses ti (id_ptr i) = Some o →
    let known := before ++ option_list (ldef (par, NIdent i)) in
    match index_of (o_pos o) known with
    | Some k => Reference (local_name k) (ident_span fs i) false ∈ noccs before (par, NIdent i)
    | None => ∀ info, lookup o = Found info →
        Reference (i_symbol info) (ident_span fs i) (docs_deprecated (i_documentation info))
          ∈ noccs before (par, NIdent i)
    end.
  Proof.
    intros Hp Hs Hu known. destruct (plain_ident_node _ _ _ Hp) as (_ & Hh & Hn & Hb).
    cbn [node_occs]. rewrite Hh, Hn, Hb, Hs. fold known. unfold use_occs. rewrite Hu. unfold local_symbol.
    destruct (index_of (o_pos o) known) as [k|] eqn:Hk; cbn.
    - apply elem_of_app. right. by apply elem_of_list_singleton.
    - intros info ->. apply elem_of_app. right. by apply elem_of_list_singleton.
  Qed.
  (** an identifier with a registered definition emits it *)
  Lemma def_occ before par i d info : plain_ident g ti (par, NIdent i) = Some i → switch_object ti i = None →
    ti_defs ti (id_ptr i) = Some d → registered g pkg tbl (o_pos d) = Some info →
    Definition_ (i_symbol info) (ident_span fs i) (enclosing fs par i) (docs_deprecated (i_documentation info))
      ∈ noccs before (par, NIdent i).
  Proof.
    intros Hp Hs Hd Hr. destruct (plain_ident_node _ _ _ Hp) as (_ & Hh & Hn & Hb).
    cbn [node_occs]. rewrite Hh, Hn, Hb, Hs. apply elem_of_app. left. unfold def_occs. rewrite Hd, Hr.
    by apply elem_of_list_singleton.
  Qed.
  Lemma ldef_registered e p o : ldef e = Some (p, o) →
    (∃ i, snd e = NIdent i ∧ switch_object ti i = Some o ∧ id_pos i = p) ∨ registered g pkg tbl p = None.
  Proof.
    destruct e as [par n]. unfold local_def. destruct (plain_ident g ti (par, n)) as [i'|] eqn:Hp; [|done].
    destruct n; try done. destruct (plain_ident_node _ _ _ Hp) as (-> & _).
    destruct (switch_object ti i) as [u|] eqn:Hs.
    - intros [= <- <-]. left. exists i. split; [done|]. split; [done|].
      unfold switch_object in Hs. apply find_some in Hs as [_ Hs]. symmetry. by apply Z.eqb_eq.
    - destruct (ti_defs ti (id_ptr i)) as [d|] eqn:Hd; [|done].
      destruct (registered g pkg tbl (o_pos d)) eqn:Hr; [done|]. intros [= <- <-]. by right.
  Qed.

  (** every occurrence of a node, classified *)
  Inductive explained (before : list (Z * obj)) (e : option node * node) : occurrence → Prop :=
  | ex_import ptr nm p lit o : snd e = NImportSpec ptr nm p lit →
      o ∈ import_refs g fs ti imports ptr nm p → explained before e o
  | ex_package i u path sym : snd e = NIdent i → names_package ti i = Some (u, path) →
      g_pkgsyms g !! path = Some sym → explained before e (Reference sym (ident_span fs i) false)
  | ex_local i p u encl : snd e = NIdent i → ldef e = Some (p, u) →
      encl = [] ∨ encl = enclosing fs (fst e) i →
      explained before e (Definition_ (local_name (length before)) (ident_span fs i) encl false)
  | ex_def i d info : snd e = NIdent i → plain_ident g ti e = Some i → ti_defs ti (id_ptr i) = Some d →
      registered g pkg tbl (o_pos d) = Some info →
      explained before e (Definition_ (i_symbol info) (ident_span fs i) (enclosing fs (fst e) i)
                                      (docs_deprecated (i_documentation info)))
  | ex_use_local i u k : snd e = NIdent i → plain_ident g ti e = Some i → ti_uses ti (id_ptr i) = Some u →
      index_of (o_pos u) (before ++ option_list (ldef e)) = Some k →
      explained before e (Reference (local_name k) (ident_span fs i) false)
  | ex_use i u info : snd e = NIdent i → plain_ident g ti e = Some i → ti_uses ti (id_ptr i) = Some u →
      lookup u = Found info →
      explained before e (Reference (i_symbol info) (ident_span fs i) (docs_deprecated (i_documentation info))).
  Lemma noccs_explained before e o : o ∈ noccs before e → explained before e o.
  Proof.
    destruct e as [par n]. destruct n; try by intros ?%elem_of_nil.
    - cbn [node_occs]. destruct (hidden g ti par) eqn:Hh; [by intros ?%elem_of_nil|].
      destruct (names_package ti i) as [[u path]|] eqn:Hn.
      { destruct (g_pkgsyms g !! path) eqn:E; [|by intros ?%elem_of_nil].
        intros ->%elem_of_list_singleton. by eapply ex_package. }
      destruct (String.eqb (id_name i) "_") eqn:Hb; [by intros ?%elem_of_nil|].
      assert (Hp : plain_ident g ti (par, NIdent i) = Some i) by (cbn; by rewrite Hh, Hn, Hb).
      destruct (switch_object ti i) as [u|] eqn:Hs.
      { intros ->%elem_of_list_singleton. eapply ex_local; [done| |by left].
        unfold local_def. by rewrite Hp, Hs. }
      rewrite elem_of_app. intros [H|H].
      + unfold def_occs in H. destruct (ti_defs ti (id_ptr i)) as [d|] eqn:Hd; [|by apply elem_of_nil in H].
        destruct (registered g pkg tbl (o_pos d)) as [info|] eqn:Hr; apply elem_of_list_singleton in H as ->.
        * by eapply ex_def.
        * eapply ex_local; [done| |by right]. unfold local_def. by rewrite Hp, Hs, Hd, Hr.
      + unfold use_occs in H. destruct (ti_uses ti (id_ptr i)) as [u|] eqn:Hu; [|by apply elem_of_nil in H].
        unfold local_symbol in H. destruct (index_of _ _) as [k|] eqn:Hk; cbn in H.
        * apply elem_of_list_singleton in H as ->. by eapply ex_use_local.
        * destruct (lookup u) eqn:Hl; [|by apply elem_of_nil in H..].
          apply elem_of_list_singleton in H as ->. by eapply ex_use.
    - cbn. intros H. by eapply ex_import.
  Qed.
  Lemma nsoccs_explained l o : o ∈ nsoccs [] l →
    ∃ l1 e l2, l = l1 ++ e :: l2 ∧ explained (omap ldef l1) e o.
  Proof.
    rewrite nsoccs_elem. intros (l1 & e & l2 & -> & H). exists l1, e, l2. split; [done|].
    by apply noccs_explained.
  Qed.
End Nodes.

Lemma docs_deprecated_spec docs : docs_deprecated docs = true ↔ ∃ d, d ∈ docs ∧ line_deprecated d.
Proof. apply is_doc_deprecated_spec. Qed.

Lemma lk_answers env objs path version g fs ti imports f : typed_file fs ti imports objs f →
  answers env path version g ti (lk env path version g).
Proof.
  intros Htf ptr o Hu Hk. pose proof (tf_uses _ _ _ _ _ Htf _ _ Hu Hk) as Hgo.
  destruct (answer_history env objs g path version [] o) as (k & r & _ & _ & E); [constructor|done|].
  apply (answer_resolves env objs g path version o _ Hgo). unfold lk. by rewrite E.
Qed.

(** *** Ranges *)
Lemma span_ok s e : pos_fits s → pos_fits e → pos_le s e → range_ok (span s e) ∧
  decode_range (span s e) = Some ((pos_line s - 1, pos_col s - 1), (pos_line e - 1, pos_col e - 1))%Z.
Proof.
  intros [H1 H2] [H3 H4] Hle. unfold span, range_ok, pos_le in *.
  destruct (Z.eqb_spec (pos_line s) (pos_line e)) as [E|E]; cbn.
  - rewrite <- E. split; [|done]. eexists _, _, _, _. split; [done|]. split; [lia|]. split; [lia|].
    split; [lia|done].
  - split; [|done]. eexists _, _, _, _. split; [done|]. split; [lia|]. split; [lia|]. split; [lia|].
    split; [done|lia].
Qed.
Lemma text_span_ok s k n : pos_fits s → range_ok (text_span s k n).
Proof.
  intros [H1 H2]. unfold text_span, range_ok. cbn. eexists _, _, _, _. split; [done|].
  split; [lia|]. split; [lia|]. split; [right; lia|done].
Qed.

(** the symbols of the locals map *)
Lemma locals_symbols env objs path version g ds st : inv env objs path version g ds st → NoDup (map fst ds) →
  map (λ x, l_symbol x.2) (map_to_list (f_locals st)) ≡ₚ map local_name (List.seq 0 (length ds)).
Proof.
  intros Hinv Hnd.
  assert (Hp : map_to_list (f_locals st) ≡ₚ imap (λ k e, (e.1, Local (local_name k) e.2)) ds).
  { apply NoDup_Permutation.
    - apply NoDup_map_to_list.
    - apply (NoDup_fmap_1 fst). rewrite fmap_imap.
      assert (imap (λ n : nat, fst ∘ (λ e : Z * obj, (e.1, Local (local_name n) e.2))) ds = map fst ds) as ->; [|done].
      clear. change (map fst ds) with (fst <$> ds). rewrite <- (imap_const fst). by apply imap_ext.
    - intros [p l]. rewrite elem_of_map_to_list, (iv_locals _ _ _ _ _ _ _ Hinv), elem_of_lookup_imap. split.
      + destruct (index_of p ds) as [k|] eqn:E; [|done]. apply index_of_some in E as [a E]. rewrite E.
        intros [= <-]. by exists k, (p, a).
      + intros (k & [q a] & [= -> ->] & E). cbn. rewrite (index_of_lookup _ _ _ _ Hnd E). by rewrite E. }
  rewrite Hp. clear.
  enough (∀ m, map (λ x : Z * local, l_symbol x.2) (imap (λ k e, (e.1, Local (local_name (m + k)) e.2)) ds)
     = map local_name (List.seq m (length ds))) as H by (rewrite <- (H 0); done).
  induction ds as [|e ds IH]; intros m; [done|]. cbn. rewrite Nat.add_0_r. f_equal. rewrite <- IH. f_equal.
  apply imap_ext. intros k x _. cbn. by rewrite Nat.add_succ_r.
Qed.

(** *** Everything recorded is global *)
Lemma format_symbol_global p ds : is_global (format_symbol (Sym "scip-go" p ds)).
Proof.
  unfold is_global. apply has_prefix_spec. unfold format_symbol. cbn [s_scheme]. eexists.
  change "scip-go " with ("scip-go" +:+ " "). rewrite <- app_assoc.
  change (format_field "scip-go") with "scip-go". f_equal.
Qed.
Lemma pset_global t p i : (∀ q x, t !! q = Some x → is_global (i_symbol x)) → is_global (i_symbol i) →
  ∀ q x, pset t p i !! q = Some x → is_global (i_symbol x).
Proof.
  intros Ht Hi q x. unfold pset. destruct (t !! p) as [y|].
  - destruct (String.eqb _ _); [by apply Ht|]. rewrite lookup_insert_Some. intros [[_ <-]|[_ H]]; [done|by eapply Ht].
  - rewrite lookup_insert_Some. intros [[_ <-]|[_ H]]; [done|by eapply Ht].
Qed.
Lemma table_global digest ti fs env pkg tbl : visit_package_table digest ti fs env pkg = Ok tbl →
  ∀ q x, tbl !! q = Some x → is_global (i_symbol x).
Proof.
  unfold visit_package_table. destruct (p_module pkg) as [m|] eqn:Hm; intros Ht.
  - rewrite (res_fold_put ti env pkg m) in Ht by done. injection Ht as <-.
    assert (H : ∀ t : gmap Z syminfo, (∀ q x, t !! q = Some x → is_global (i_symbol x)) →
      ∀ q x, foldl (put ti env m) t (package_events digest ti fs pkg) !! q = Some x → is_global (i_symbol x)).
    { generalize (package_events digest ti fs pkg). induction l as [|e l IH]; intros t Hg; [done|].
      cbn [foldl]. apply IH. apply pset_global; [done|]. apply format_symbol_global. }
    apply H. intros q x. by rewrite lookup_empty.
  - assert (Hn := Ht). apply res_fold_no_module in Hn; [|done]. rewrite Hn in Ht. injection Ht as <-.
    intros q x. by rewrite lookup_empty.
Qed.
