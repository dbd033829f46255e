(** C67: which declarations the first pass registers under the symbol of a package-level declaration. *)
From Coq Require Import Ascii String.
From stdpp Require Import prelude strings gmap.
From Verif Require Import GoStr Scip GoTypes Ast Packages Symbols Document Lookup Pass1 SpecSymbol SpecDecl SpecPrecise
  P_Symbols P_Pass1 P_Link P_Pass2 P_Scope.
Open Scope string_scope.
Open Scope list_scope.

Lemma ident_of_embedded t i j : embedded_ident t i → j ∈ ident_of_type_expr t → j = i.
Proof. intros H. rewrite (embedded_ident_list _ _ H). by intros ?%elem_of_list_singleton. Qed.

Lemma node_sub_ind (P : node → Prop) :
  (∀ n, (∀ c m, c ∈ node_children n → m ∈ subnodes c → P m) → P n) → ∀ n, P n.
Proof.
  intros H n. cut (∀ m, m ∈ subnodes n → P m). { intros K. apply K, subnodes_self. }
  induction n as [n IH] using node_child_ind. intros m Hm.
  apply subnodes_elem in Hm as [->|(c & Hc & Hm)]; [|by eapply IH]. apply H. intros c m Hc Hm'. by eapply IH.
Qed.

Section Events.
  Context (digest : string → string) (ti : tinfo) (fs : fset).
  Notation tv := (tv digest ti).
  Notation vv := (vv digest ti fs).
  Notation vvl := (vvl digest ti fs).

  Lemma tv_embedded t i cur sc iface : embedded_ident t i → tv WALK iface cur sc t = [].
  Proof. by destruct 1. Qed.

  (** deep: at least two levels below the scope *)
  Definition deep (sc : list descriptor) (e : event) : Prop := ∃ a r, r ≠ [] ∧ e_descs e = sc ++ a :: r.
  Definition member (sc : list descriptor) (t : node) (e : event) : Prop :=
    e_descs e = sc ++ [Desc (id_name (e_ident e)) Term] ∧ e_pos e = id_pos (e_ident e) ∧ literal_member t (e_ident e).

  Lemma tv_anon_deep t iface cur sc e : e ∈ tv ANON iface cur sc t → deep sc e.
  Proof.
    revert iface cur sc e. induction t using node_ind'; intros iface cur sc ev; cbn [Pass1.tv]; try (by intros ?%elem_of_nil); try (by eauto).
    - destruct (String.eqb _ _); [by intros ?%elem_of_nil|]. intros (r' & Hr & E)%tv_under. eexists _, r'. split; [done|]. rewrite E, <-List.app_assoc. done.
    - destruct (String.eqb _ _); [by intros ?%elem_of_nil|]. intros (r' & Hr & E)%tv_under. eexists _, r'. split; [done|]. rewrite E, <-List.app_assoc. done.
    - rewrite elem_of_app. intros [He|He]; eauto.
  Qed.

  Lemma tv_members t : grammatical t → type_expr t → ∀ iface cur sc e, e ∈ tv WALK iface cur sc t →
    match t with NInterfaceType _ _ _ => iface = true | _ => True end →
    deep sc e ∨ member sc t e.
  Proof.
    induction t as [t IH] using node_sub_ind. intros Hg Ht iface cur sc e He Hi.
    pose proof (Hg t (subnodes_self t)) as Hn.
    assert (Hc : ∀ c, c ∈ node_children t → grammatical c).
    { intros c Hc n Hn'. apply Hg. by eapply subnodes_child. }
    destruct t; cbn [Pass1.tv] in He; try (by apply elem_of_nil in He); try done.
    - cbn in Hn. destruct Hn as (l & -> & Hl). cbn [Pass1.tv] in He.
      apply elem_of_concat_map in He as (x & Hx & He). destruct (Hl _ Hx) as (d & c & names & t & -> & Hemb).
      cbn [Pass1.tv] in He. destruct names as [|i0 ns].
      + destruct (Hemb eq_refl) as (i & Hi'). destruct iface.
        * rewrite (tv_embedded _ _ _ _ _ Hi') in He. by apply elem_of_nil in He.
        * apply elem_of_list_fmap in He as (j & -> & Hj). right. unfold member. cbn.
          rewrite (ident_of_embedded _ _ _ Hi' Hj). split; [done|]. split; [done|]. by eapply lm_embedded.
      + apply elem_of_concat_map in He as (i & Hi' & [->|He]%elem_of_cons).
        * right. unfold member. cbn. split; [done|]. split; [done|]. by eapply lm_field.
        * left. by eapply tv_anon_deep.
    - cbn in Hn. destruct Hn as (l & -> & Hl). cbn [Pass1.tv] in He.
      apply elem_of_concat_map in He as (x & Hx & He). destruct (Hl _ Hx) as (d & c & names & t & -> ).
      cbn [Pass1.tv] in He. destruct names as [|i0 ns].
      + subst iface. assert (Hgx : grammatical (NField d c [] t)).
        { intros n Hn. apply Hg. eapply subnodes_child; [left|]. by eapply subnodes_child. }
        assert (Hgt : grammatical t). { intros n Hn. apply Hgx. eapply subnodes_child; [left|done]. }
        pose proof (Hgx _ (subnodes_self _)) as Hty. cbn in Hty.
        assert (Hit : match t with NInterfaceType _ _ _ => true = true | _ => True end) by by destruct t.
        destruct (IH (NFieldList l) t) with (iface := true) (cur := cur) (sc := sc) (e := e) as [Hd|(H1 & H2 & H3)]; try done.
        * left.
        * eapply subnodes_child; [exact Hx|]. eapply subnodes_child; [left|apply subnodes_self].
        * by left.
        * right. split; [done|]. split; [done|]. by eapply lm_inline.
      + apply elem_of_concat_map in He as (i & Hi' & [->|He]%elem_of_cons).
        * right. unfold member. cbn. split; [done|]. split; [done|]. by eapply lm_method.
        * left. by eapply tv_anon_deep.
  Qed.

  (** a scope with a meta descriptor below the package's namespace *)
  Definition meta_scope (path : string) (sc : list descriptor) : Prop :=
    ∃ x r, sc = Desc path Namespace :: Desc x Meta :: r.
  Definition value_scope (path : string) (sc : list descriptor) : Prop := sc = new_scope path ∨ meta_scope path sc.
  Lemma meta_scope_app path sc r : meta_scope path sc → meta_scope path (sc ++ r).
  Proof. intros (x & q & ->). exists x, (q ++ r). done. Qed.
  Lemma value_meta path sc e : meta_scope path sc → under sc e → meta_scope path (e_descs e).
  Proof. intros H (r & _ & ->). by apply meta_scope_app. Qed.

  (** what a spec of a top-level var or const group registers *)
  Lemma vv_spec path sd sc names t vs st : value_scope path (v_scope st) →
    let r := vv WALK (NValueSpec sd sc names t vs) st in
    value_scope path (v_scope r.1) ∧
    ∀ e, e ∈ r.2 → meta_scope path (e_descs e) ∨
      (e_descs e = new_scope path ++ [Desc (id_name (e_ident e)) Term] ∧ e_ident e ∈ names ∧ e_pos e = id_pos (e_ident e)).
  Proof.
    intros Hsc r. subst r. cbn [Pass1.vv]; fold vvl.
    destruct names as [|i0 ns].
    { split; [done|]. intros e He. by apply elem_of_nil in He. }
    set (nm0 := spec_scope_name fs (i0 :: ns)). clearbody nm0. set (st1 := v_push st _).
    assert (Hm1 : meta_scope path (v_scope st1)).
    { subst st1. cbn [v_push v_scope]. destruct Hsc as [->|Hm]; [|by apply meta_scope_app]. by eexists _, []. }
    assert (Hfin : ∀ st2, (∃ x, v_scope st2 = v_scope st1 ++ x) →
        let q := (let '(st3, e3) := vvl vs st2 in (v_pop st3, e3)) in
        value_scope path (v_scope q.1) ∧ ∀ e, e ∈ q.2 → meta_scope path (e_descs e)).
    { intros st2 (x & Hx). cbn zeta.
      assert (HF : Forall (λ n, ∀ m st, grows st (vv m n st)) vs) by (apply Forall_forall; intros; apply vv_grows).
      pose proof (grows_vvl _ _ _ vs HF st2) as [(y & Hy) Hev]. destruct (vvl vs st2) as [st3 e3]. cbn in *. split.
      - rewrite Hy, Hx. subst st1. cbn [v_push v_scope]. unfold scope_pop.
        destruct Hsc as [->|Hm].
        + destruct (x ++ y) as [|a l] eqn:Exy.
          * rewrite <-!List.app_assoc, Exy. by left.
          * right. rewrite <-!List.app_assoc, Exy. destruct (@exists_last _ (a :: l)) as (l' & a' & E); [done|]. rewrite E.
            rewrite List.app_assoc, List.app_assoc, removelast_snoc. by eexists _, l'.
        + right. destruct (@exists_last _ ((Desc nm0 Meta :: x) ++ y)) as (l' & a' & E); [done|].
          assert (E' : ((v_scope st ++ [Desc nm0 Meta]) ++ x) ++ y = (v_scope st ++ l') ++ [a']).
          { rewrite <-!List.app_assoc. f_equal. exact E. }
          rewrite E', removelast_snoc.
          by apply meta_scope_app.
      - intros e He. eapply value_meta; [|by apply Hev]. rewrite Hx. by apply meta_scope_app. }
    assert (Hrest : let q := match t with
       | Some t0 => match vtype_action_of t0 with
          | VSkip => (let '(st3, e3) := vvl vs st1 in (v_pop st3, e3))
          | VWalk => seq (vv WALK t0 st1) (λ st2, let '(st3, e3) := vvl vs st2 in (v_pop st3, e3))
          | VAbort => (st1, [])
          end
       | None => (let '(st3, e3) := vvl vs st1 in (v_pop st3, e3))
       end in value_scope path (v_scope q.1) ∧ ∀ e, e ∈ q.2 → meta_scope path (e_descs e)).
    { assert (H0 : ∃ x, v_scope st1 = v_scope st1 ++ x) by (exists []; by rewrite List.app_nil_r).
      cbn zeta. destruct t as [t0|]; [|by apply Hfin]. destruct (vtype_action_of t0); [by apply Hfin| |].
      - destruct (vv_grows digest ti fs t0 WALK st1) as [Hx Hev]. destruct (Hfin _ Hx) as [K1 K2]. rewrite seq_st. split; [done|].
        intros e [He|He]%seq_ev; [|by apply K2]. eapply value_meta; [done|by apply Hev].
      - split; [by right|]. intros e He. by apply elem_of_nil in He. }
    cbn zeta in Hrest. revert Hrest. match goal with |- context [match t with Some _ => _ | None => _ end] => idtac end.
    destruct (match t with Some t0 => _ | None => _ end) as [st' ev] eqn:E. intros Hrest.
    destruct Hrest as [K1 K2]. split; [done|]. cbn [snd]. intros e [He|He]%elem_of_app; [|left; by apply K2].
    apply elem_of_list_fmap in He as (i & -> & Hi). cbn [e_descs e_ident e_pos]. destruct Hsc as [->|Hm]; [by right|].
    left. by apply meta_scope_app.
  Qed.
  Lemma vv_specs path specs st : (∀ s, s ∈ specs → ∃ sd sc names t vs, s = NValueSpec sd sc names t vs) →
    value_scope path (v_scope st) → ∀ e, e ∈ (vvl specs st).2 → meta_scope path (e_descs e) ∨
      ∃ sd sc names t vs, NValueSpec sd sc names t vs ∈ specs ∧
      e_descs e = new_scope path ++ [Desc (id_name (e_ident e)) Term] ∧ e_ident e ∈ names ∧ e_pos e = id_pos (e_ident e).
  Proof.
    revert st. induction specs as [|s specs IH]; intros st Hs Hsc e He; [by apply elem_of_nil in He|].
    destruct (Hs s (elem_of_list_here _ _)) as (sd & sc & names & t & vs & ->).
    destruct (vv_spec path sd sc names t vs st Hsc) as [K1 K2]. cbn zeta in K1, K2.
    cbn [P_Pass1.vvl] in He. apply seq_ev in He as [He|He].
    - destruct (K2 e He) as [?|(H1 & H2 & H3)]; [by left|]. right. eexists _, _, names, _, _. split; [left|]. done.
    - destruct (IH _ (λ s Hs', Hs s (elem_of_list_further _ _ _ Hs')) K1 e He) as [?|(sd' & sc' & names' & t' & vs' & H1 & H2)]; [by left|].
      right. eexists _, _, names', _, _. split; [right; exact H1|done].
  Qed.

  Lemma meta_not_key path k : ¬ meta_scope path (key_descriptors path k).
  Proof. intros (x & r & E). destruct k; discriminate E. Qed.
  Lemma deep_not_key path k T ds : (∃ a r, r ≠ [] ∧ ds = [Desc path Namespace; Desc T Type_] ++ a :: r) → ds ≠ key_descriptors path k.
  Proof. intros (a & r & Hr & ->). destruct k; cbn; intros E; injection E; intros; subst; done. Qed.

  (** everything registered under the symbol of a package-level entity introduces it *)
  Lemma package_events_key pkg e k : pkg_grammatical pkg → e ∈ package_events digest ti fs pkg →
    e_descs e = key_descriptors (p_path pkg) k → introduces pkg (e_ident e) k ∧ e_pos e = id_pos (e_ident e).
  Proof.
    intros Hg (f & Hf & He)%elem_of_concat_map Hk. destruct (Hg f Hf) as [(fp & fh & fd & nm & decls & ->) Hgf]. clear Hg.
    set (f := NFile fp fh fd nm decls) in *. set (path := p_path pkg) in *.
    pose proof (Hgf f (subnodes_self f)) as Hdecls. cbn in Hdecls.
    assert (Hsub : ∀ d n, d ∈ decls → n ∈ subnodes d → node_grammar n).
    { intros d n Hd Hn. apply Hgf. eapply subnodes_child; [|exact Hn]. by right. }
    unfold file_events in He. apply elem_of_app in He as [He|He].
    - (* types *)
      subst f. cbn [Pass1.tv] in He. apply elem_of_concat_map in He as (d & Hd & He). specialize (Hdecls d Hd).
      destruct d as [| | | | | | | | | | | | | | | | | | | | |p tok doc specs| | |po chs]; try done; try (by apply elem_of_nil in He).

      cbn [Pass1.tv] in He. apply elem_of_concat_map in He as (s & Hs & He).
      pose proof (Hsub _ _ Hd (subnodes_self _) s Hs) as Hss.
      destruct s as [| | | | | | | | | | | | | | | | | | |sd T tps t| | | | |]; try done; try (by apply elem_of_nil in He).
      subst tok. cbn [Pass1.tv] in He. apply elem_of_cons in He as [->|He].
      + cbn in Hk |- *. split; [|done]. left. destruct k; try discriminate Hk. injection Hk as <-.
        eexists. exists (NFile fp fh fd nm decls). split; [done|]. eexists _, _, _, _, _, _. split; [done|]. split; [exact Hd|]. by eapply dd_type.
      + assert (Hgt : grammatical t). { intros n Hn. eapply Hsub; [exact Hd|]. eapply subnodes_child; [exact Hs|]. eapply subnodes_child; [right; right; left|exact Hn]. }
        assert (Hty : type_expr t). { apply (Hsub _ (NTypeSpec sd T tps t) Hd). eapply subnodes_child; [exact Hs|apply subnodes_self]. }
        destruct (tv_members t Hgt Hty _ _ _ _ He) as [Hdp|(H1 & H2 & H3)].
        { by destruct t. }
        * exfalso. by apply (deep_not_key path k (id_name T) _ Hdp).
        * split; [|done]. right. eexists _, p, doc, specs, sd, T, tps, t. split; [exact Hf|]. split; [by right|]. split; [done|]. split; [done|].
          rewrite Hk in H1. destruct k; cbn in H1; try discriminate H1. injection H1 as -> ->. done.
    - (* values and functions *)
      subst f. apply elem_of_concat_map in He as (d & Hd & He). specialize (Hdecls d Hd).
      unfold decl_events in He. destruct d as [| | | | | | | | | | | | | | | | | | | | |p tok doc specs|doc p pe recv nm' t b| |]; try done; try (by apply elem_of_nil in He).
      + assert (Htok : tok = VAR ∨ tok = CONST) by (destruct tok; auto; by apply elem_of_nil in He).
        assert (He' : e ∈ (vvl specs (VState (Some (NGenDecl p tok doc specs)) (new_scope path))).2) by (destruct Htok as [-> | ->]; exact He).
        apply (vv_specs path) in He' as [Hm|(sd & sc & names & t & vs & H1 & H2 & H3 & H4)].
        * exfalso. rewrite Hk in Hm. by apply meta_not_key in Hm.
        * split; [|done]. left. rewrite Hk in H2. destruct k; cbn in H2; try discriminate H2. injection H2 as ->.
          eexists. exists (NFile fp fh fd nm decls). split; [done|]. eexists _, _, _, _, _, _. split; [done|]. split; [exact Hd|]. by eapply dd_value.
        * intros s Hs. pose proof (Hsub _ _ Hd (subnodes_self _) s Hs) as Hss. destruct s; try done; eauto 10.
          -- by destruct Hss as (A1 & A2 & A3), Htok.
          -- by subst tok; destruct Htok.
        * by left.
      + pose proof (Hsub _ _ Hd (subnodes_self _)) as Hr. cbn in Hr. cbn [fv] in He.
        assert (Hrest : ∀ sc' e, sc' = new_scope path ∨ (∃ r, sc' = new_scope path ++ [Desc r Type_]) →
          e ∈ fv (sc' ++ [Desc "func" Meta; Desc (id_name nm') Meta]) t → e_descs e ≠ key_descriptors path k).
        { intros sc' e' Hsc (r & Hr' & E)%fv_under. rewrite E. destruct Hsc as [->|(r0 & ->)]; destruct k; discriminate. }
        destruct recv as [rv|].
        * destruct Hr as (d' & c' & names & rt & rest & i & -> & Hri). cbn [receiver_type_name] in He. rewrite (recv_ident_base _ _ Hri) in He.
          apply elem_of_cons in He as [->|He]; [|exfalso; eapply Hrest; [|exact He|exact Hk]; eauto].
          cbn in Hk |- *. split; [|done]. left. destruct k; try discriminate Hk. injection Hk as <- <-.
          eexists. exists (NFile fp fh fd nm decls). split; [done|]. eexists _, _, _, _, _, _. split; [done|]. split; [exact Hd|]. by eapply dd_method.
        * cbn [receiver_type_name] in He. apply elem_of_cons in He as [->|He]; [|exfalso; eapply Hrest; [|exact He|exact Hk]; eauto].
          cbn in Hk |- *. split; [|done]. left. destruct k; try discriminate Hk. injection Hk as <-.
          eexists. exists (NFile fp fh fd nm decls). split; [done|]. eexists _, _, _, _, _, _. split; [done|]. split; [exact Hd|]. by eapply dd_func.
  Qed.

  (** entries of the table of a package *)
  Lemma table_key env pkg m tbl pos info k : pkg_grammatical pkg → p_module pkg = Some m → clean_module m →
    visit_package_table digest ti fs env pkg = Ok tbl → tbl !! pos = Some info →
    i_symbol info = key_symbol (p_path pkg) m k → introduced_at pkg k pos.
  Proof.
    intros Hg Hm Hcl Ht Hi Hs. unfold visit_package_table in Ht. rewrite (res_fold_put ti env pkg m) in Ht by done.
    injection Ht as <-. apply foldl_put_info in Hi as [Hi|(e & He & <- & ->)]; [by rewrite lookup_empty in Hi|].
    unfold event_info, new_symbol_info in Hs. cbn [i_symbol] in Hs. unfold key_symbol in Hs.
    apply format_symbol_inj_descs in Hs; [|by apply clean_module_symbol].
    destruct (package_events_key pkg e k Hg He Hs) as [K1 K2]. by exists (e_ident e).
  Qed.
End Events.
