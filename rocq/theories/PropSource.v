(** C69: the ranges of the index select, in the text of the source file, the names they stand for. *)
From Coq Require Import Ascii String.
From stdpp Require Import prelude strings gmap sorting.
From Verif Require Import GoStr Scip GoTypes Packages Symbols Document Lookup Pass1 Pass2 Paths
  Loader Index Ast SpecSymbol SpecDecl SpecLookup SpecOcc SpecIndex
  P_Symbols P_Pass1 P_Link P_Lookup P_Pass2 P_Occ P_Scope P_Index PropDecl PropOcc PropIndex PropCross
  Source SpecSource P_Source SpecImport.
Open Scope string_scope.
Open Scope list_scope.
Local Open Scope Z_scope.

(** a range selects at most one text, and only at one place *)
Lemma prefix_compare a b a' b' : a +:+ b = a' +:+ b' → slen a = slen a' → a = a'.
Proof.
  revert a'. induction a as [|c a IH]; intros [|c' a'] E Hl; try done.
  change (String c a +:+ b) with (String c (a +:+ b)) in E. change (String c' a' +:+ b') with (String c' (a' +:+ b')) in E.
  injection E as -> E. f_equal. apply IH; [done|]. rewrite !slen_cons in Hl. lia.
Qed.
Lemma prefix_longer a b a' b' : a +:+ b = a' +:+ b' → (slen a ≤ slen a')%nat → ∃ x, a' = a +:+ x.
Proof.
  revert a'. induction a as [|c a IH]; intros [|c' a'] E Hl; try (by eexists); [rewrite slen_cons in Hl; cbn in Hl; lia|].
  change (String c a +:+ b) with (String c (a +:+ b)) in E. change (String c' a' +:+ b') with (String c' (a' +:+ b')) in E.
  injection E as -> E. destruct (IH a' E) as (x & ->); [rewrite !slen_cons in Hl; lia|]. by exists x.
Qed.
Lemma reaches_same a b a' b' l c : a +:+ b = a' +:+ b' → reaches slen a l c → reaches slen a' l c → a = a'.
Proof.
  intros E H1 H2.
  assert (Hgen : ∀ a b a' b', a +:+ b = a' +:+ b' → reaches slen a l c → reaches slen a' l c →
    (slen a ≤ slen a')%nat → a = a').
  { clear. intros a b a' b' E H1 H2 Hle. destruct (prefix_longer a b a' b' E Hle) as (x & ->).
    apply reaches_fun in H1 as [L1 C1]. apply reaches_fun in H2 as [L2 C2].
    rewrite count_app in L2. assert (Hx : count_char newline x = 0%nat) by lia.
    rewrite last_line_snoc, slen_app in C2 by done. destruct x; [by rewrite app_nil_r|rewrite slen_cons in C2; lia]. }
  destruct (decide (slen a ≤ slen a')%nat) as [Hle|Hle]; [by eapply Hgen|]. symmetry. eapply Hgen; [symmetry; exact E|done|done|lia].
Qed.
Theorem C69_selects_unique : ∀ text r off off' t t',
  selects slen text r off t → selects slen text r off' t' → off = off' ∧ t = t'.
Proof.
  intros text r off off' t t' (a & b & l1 & c1 & l2 & c2 & E1 & -> & D1 & R1 & R2) (a' & b' & l1' & c1' & l2' & c2' & E2 & -> & D2 & R1' & R2').
  rewrite D1 in D2. injection D2 as <- <- <- <-.
  assert (a = a') as <- by (eapply reaches_same; [|exact R1|exact R1']; rewrite <-E1; exact E2).
  split; [done|]. rewrite (app_assoc a t b) in E1. rewrite (app_assoc a t' b') in E2.
  assert (E : a +:+ t = a +:+ t') by (eapply reaches_same; [|exact R2|exact R2']; rewrite <-E1; exact E2).
  clear -E. induction a as [|c a IH]; [done|]. apply IH. by injection E.
Qed.
Print Assumptions C69_selects_unique.

Section Ranges.
  Context (srcs : list src) (Hd : disjoint_files srcs) (s : src) (Hs : s ∈ srcs) (Hdir : s_directives s = []).
  Let fs := file_set srcs.

  Lemma one_line_snoc t : one_line t → ∃ t' c, t = t' +:+ String c "" ∧ c ≠ newline.
  Proof.
    intros [Hne Hc]. induction t as [|c t IH]; [done|]. destruct t as [|c' t].
    - exists "", c. split; [done|]. intros ->. done.
    - destruct IH as (t' & c'' & E & H); [done| |].
      { cbn [count_char] in Hc |- *. lia. }
      exists (String c t'), c''. split; [|done]. by rewrite E.
  Qed.
  (** the positions before and after a text that does not end with a newline *)
  Lemma text_positions a t b : s_text s = a +:+ t +:+ b → (∃ t' c, t = t' +:+ String c "" ∧ c ≠ newline) →
    fs_position fs (s_base s + Z.of_nat (slen a)) =
      Position (s_name s) (Z.of_nat (count_char newline a) + 1) (Z.of_nat (slen (last_line a)) + 1) ∧
    fs_position fs (s_base s + Z.of_nat (slen a) + Z.of_nat (slen t)) =
      Position (s_name s) (Z.of_nat (count_char newline (a +:+ t)) + 1) (Z.of_nat (slen (last_line (a +:+ t))) + 1).
  Proof.
    intros E (t' & c & -> & Hc). split.
    - apply (position_in srcs Hd s Hs Hdir _ _ E). left. left. by destruct t'.
    - rewrite (app_assoc a _ b) in E.
      replace (s_base s + Z.of_nat (slen a) + Z.of_nat (slen (t' +:+ String c ""))) with (s_base s + Z.of_nat (slen (a +:+ t' +:+ String c ""))) by (rewrite (slen_app a); lia).
      apply (position_in srcs Hd s Hs Hdir _ _ E). left. right. exists (a +:+ t'), c. split; [by rewrite <-(app_assoc a)|done].
  Qed.
  Lemma span_selects p t : written s p t → (∃ t' c, t = t' +:+ String c "" ∧ c ≠ newline) →
    selects slen (s_text s) (span (fs_position fs p) (fs_position fs (p + Z.of_nat (slen t)))) (p - s_base s) t.
  Proof.
    intros (a & b & E & ->) Ht. destruct (text_positions a t b E Ht) as [P1 P2].
    exists a, b. eexists _, _, _, _. split; [done|]. split; [lia|]. rewrite decode_span. split; [reflexivity|].
    rewrite P1, P2. cbn [pos_line pos_col]. rewrite !Z.add_simpl_r. split; apply reaches_last.
  Qed.
  Lemma ident_selects i : one_line (id_name i) → written s (id_pos i) (id_name i) →
    selects slen (s_text s) (ident_span fs i) (id_pos i - s_base s) (id_name i).
  Proof. intros H1 H2. apply span_selects; [done|]. by apply one_line_snoc. Qed.
  (** a text of one line that starts k bytes after p, on the same line *)
  Lemma text_selects p k t pre post : written s p (pre +:+ t +:+ post) → slen pre = k → count_char newline pre = 0%nat →
    one_line t →
    selects slen (s_text s) (text_span (fs_position fs p) k (slen t)) (p + Z.of_nat k - s_base s) t.
  Proof.
    intros (a & b & E & ->) <- Hpre [Hne Ht].
    assert (E1 : s_text s = a +:+ (pre +:+ t +:+ post +:+ b)).
    { rewrite E. f_equal. by rewrite <-(app_assoc pre), <-(app_assoc t). }
    assert (P1 : fs_position fs (s_base s + Z.of_nat (slen a)) =
      Position (s_name s) (Z.of_nat (count_char newline a) + 1) (Z.of_nat (slen (last_line a)) + 1)).
    { apply (position_in srcs Hd s Hs Hdir _ _ E1). left. left. destruct pre; [|done]. by destruct t. }
    exists (a +:+ pre), (post +:+ b). eexists _, _, _, _. split; [|split; [|split; [unfold text_span; reflexivity|]]].
    - rewrite E1. by rewrite <-(app_assoc a).
    - rewrite slen_app. lia.
    - rewrite P1. cbn [pos_line pos_col]. split.
      + pose proof (reaches_last slen (a +:+ pre)) as H. rewrite count_app, Hpre, Nat.add_0_r, last_line_snoc, slen_app in H by done.
        rewrite Nat2Z.inj_add in H. rewrite !Z.add_simpl_r. exact H.
      + pose proof (reaches_last slen ((a +:+ pre) +:+ t)) as H.
        rewrite !count_app, Hpre, Ht, !Nat.add_0_r, !last_line_snoc, !slen_app, !Nat2Z.inj_add in H by done.
        rewrite !Z.add_simpl_r. exact H.
  Qed.
End Ranges.

(** imported packages have the path that is written (no package is vendored) *)
Definition paths_as_written (P : project) (p : gpkg) (f : node) : Prop :=
  ∀ ti ptr nm pos lit o ip imp, p_info p = Some ti → NImportSpec ptr nm pos lit ∈ subnodes f →
    ti_pkgname_of ti ptr = Some o → o_kind o = OPkgName ip → imported (pr_heap P) p ip imp →
    quoted (p_path imp) lit.

(** C69: the range of an identifier (as every other property of this development speaks of it: [ident_span]) selects
    the identifier's name at the identifier's place. *)
Theorem C69_identifiers : ∀ P srcs s f i,
  pr_fs P = file_set srcs → disjoint_files srcs → s ∈ srcs → s_directives s = [] → parsed_from s f → i ∈ node_idents f →
  selects slen (s_text s) (ident_span (pr_fs P) i) (id_pos i - s_base s) (id_name i).
Proof.
  intros P srcs s f i -> Hd Hs Hdir Hp Hi. destruct (pf_ident _ _ Hp i Hi). by apply ident_selects.
Qed.
Print Assumptions C69_identifiers.

(** C69: the range of every occurrence of a document selects, in the text of the file, the name of an identifier or
    the path of an import between its quotes; its enclosing range is empty or selects a whole function declaration. *)
Theorem C69_occurrences : ∀ P msgs srcs s p f d o,
  indexed P msgs → pr_fs P = file_set srcs → disjoint_files srcs →
  s ∈ srcs → s_directives s = [] → p ∈ pr_pkgs P → f ∈ p_syntax p → parsed_from s f → paths_as_written P p f →
  document_of (pr_pkgs P) (documents msgs) p f d → o ∈ d_occs d →
  ((∃ i, i ∈ node_idents f ∧ selects slen (s_text s) (oc_range o) (id_pos i - s_base s) (id_name i)) ∨
   (∃ ptr nm pos lit t, NImportSpec ptr nm pos lit ∈ subnodes f ∧ quoted t lit ∧
      selects slen (s_text s) (oc_range o) (pos + 1 - s_base s) t)) ∧
  (oc_enclosing o = [] ∨
   ∃ doc pos e r nm ty b t, NFuncDecl doc pos e r nm ty b ∈ file_decls f ∧ func_text s pos e t ∧
     selects slen (s_text s) (oc_enclosing o) (pos - s_base s) t).
Proof.
  intros P msgs srcs s p f d o
    (digest & objstr & mo & root & version & impl & ie & po & ao & po2 & skip & meta & w & Hix & Hmo & H1 & H2 & H3 & Hic & Hrun)
    Hfs Hdis Hs Hdir Hp Hf Hpf Hpaths Hdoc Ho.
  destruct P as [env objs fs h all proj ps]. cbn [pr_env pr_objs pr_fs pr_heap pr_all pr_proj pr_pkgs] in *. subst fs.
  destruct (success digest env objs _ h objstr mo root version all proj ps impl ie po ao po2 skip meta w Hix Hmo H1 H2 H3 Hic msgs Hrun) as (ds & exts & g0 & g & kk & -> & Htab & _ & Hst & Hds).
  rewrite documents_msgs in Hdoc. destruct Hdoc as (n & Hi & Hdn).
  pose proof (Forall2_lookup_lr _ _ _ _ _ _ Hds Hi Hdn) as Hd. cbn in Hd.
  destruct Hd as (ti & tbl & st & sym & name & torder & lorder & Hti & Hname & Hg' & Hsym & Hv & Hto & Hlo & ->).
  destruct (tpj_info _ _ _ _ (ix_typed _ _ _ _ _ _ Hix) p f Hp Hf) as (ti' & name' & Hti' & Htf & Hdi & _).
  assert (ti' = ti) as -> by congruence.
  pose proof (lk_answers env _ root version g _ _ _ _ Htf) as Ha.
  destruct (visited_occs _ _ _ _ _ _ _ _ _ _ _ _ _ Htf Ha st Hv) as (_ & Hoccs & _).
  pose proof (tf_wf _ _ _ _ _ Htf) as Hwf.
  cbn [to_document d_occs] in Ho. rewrite Hoccs in Ho.
  assert (Hsel : ∀ i, NIdent i ∈ subnodes f → selects slen (s_text s) (ident_span (file_set srcs) i) (id_pos i - s_base s) (id_name i)).
  { intros i Hin. apply elem_of_node_idents in Hin. destruct (pf_ident _ _ Hpf i Hin). by apply ident_selects. }
  assert (Hsel0 : ∀ i, NIdent i ∈ subnodes f →
    selects slen (s_text s) (text_span (fs_position (file_set srcs) (id_pos i)) 0 (slen (id_name i))) (id_pos i - s_base s) (id_name i)).
  { intros i Hin. apply elem_of_node_idents in Hin. destruct (pf_ident _ _ Hpf i Hin) as [O1 W1].
    pose proof (text_selects srcs Hdis s Hs Hdir (id_pos i) 0 (id_name i) "" "") as H. cbn [Z.of_nat] in H. rewrite Z.add_0_r in H. apply H; try done.
    change ("" +:+ id_name i +:+ "") with (id_name i +:+ ""). by rewrite app_nil_r. }
  apply elem_of_cons in Ho as [->|Ho].
  { destruct (wff_file _ _ _ _ Hwf) as (pp & hh & dd & nm & decls & ->). split; [|by left]. left. exists nm.
    assert (Hnm : NIdent nm ∈ subnodes (NFile pp hh dd nm decls)) by (cbn; right; left).
    split; [by apply elem_of_node_idents|]. exact (Hsel0 nm Hnm). }
  apply nsoccs_explained in Ho as (l1 & e & l2 & Hsplit & He).
  assert (Hef : e ∈ file_nodes f) by (rewrite Hsplit; apply elem_of_app; right; left).
  assert (He' : snd e ∈ subnodes f) by (by eapply file_nodes_sub).
  assert (Hid : ∀ i, snd e = NIdent i → ∃ j, j ∈ node_idents f ∧ selects slen (s_text s) (ident_span (file_set srcs) i) (id_pos j - s_base s) (id_name j)).
  { intros i E. rewrite E in He'. exists i. split; [by apply elem_of_node_idents|]. by apply Hsel. }
  assert (Hencl : ∀ i, snd e = NIdent i → enclosing (file_set srcs) (fst e) i = [] ∨
    ∃ doc pos e' r nm ty b t, NFuncDecl doc pos e' r nm ty b ∈ file_decls f ∧ func_text s pos e' t ∧
     selects slen (s_text s) (enclosing (file_set srcs) (fst e) i) (pos - s_base s) t).
  { intros i Hn. destruct e as [par n']. cbn in Hn. subst n'. cbn [fst]. destruct par as [m|]; [|by left].
    destruct (enclosing_cases (file_set srcs) (Some m) i) as [->|(doc & pos & e' & r & nm & ty & b & Em & ->)]; [by left|].
    injection Em as Em. right.
    assert (Hm : m ∈ file_decls f).
    { unfold file_nodes in Hef. apply elem_of_concat_map in Hef as (decl & Hdc & Hef).
      apply with_parent_elem in Hef as [[Hpar _]|(q & Hq & Hqd & _)].
      - exfalso. injection Hpar as Hpar. destruct (wff_file _ _ _ _ Hwf) as (? & ? & ? & ? & ? & E). congruence.
      - injection Hq as <-. rewrite <- (with_parent_snd None decl) in Hqd.
        apply elem_of_list_fmap in Hqd as ([q' m'] & Hm' & Hqd). cbn in Hm'. subst m'.
        apply with_parent_elem in Hqd as [[_ <-]|(r' & _ & Hr1 & Hr2)]; [done|].
        exfalso. pose proof (wff_nested _ _ _ _ Hwf _ _ _ Hdc Hr1 Hr2) as Hx. by rewrite Em in Hx. }
    rewrite Em in Hm. destruct (pf_func _ _ Hpf _ _ _ _ _ _ _ Hm) as (t & Ht).
    eexists _, _, _, _, _, _, _, t. split; [exact Hm|]. split; [exact Ht|].
    destruct Ht as (Hw & -> & Hlast). by apply span_selects. }
  destruct He as [ptr nm pos lit o Hn Hi'|i u pth sym' Hn _ _|i pp u encl Hn Hld He|i def info Hn _ Hdf Hr|i u k Hn _ _ _|i u info Hn _ _ _]; cbn.
  - rewrite Hn in He'. unfold import_refs in Hi'.
    destruct (ti_pkgname_of ti ptr) as [po'|] eqn:Hpn; [|by apply elem_of_nil in Hi'].
    destruct (o_kind po') eqn:Hk; try by apply elem_of_nil in Hi'.
    destruct (imports_of h p imported_path) as [imp|] eqn:Him; [|by apply elem_of_nil in Hi'].
    destruct (g_pkgsyms g !! _); [|by apply elem_of_nil in Hi'].
    apply elem_of_app in Hi' as [Hi'|Hi'].
    + destruct nm as [j|]; [|by apply elem_of_nil in Hi'].
      destruct (_ || _)%bool; [by apply elem_of_nil in Hi'|]. apply elem_of_list_singleton in Hi' as ->.
      split; [|by left]. left. exists j.
      assert (Hj : NIdent j ∈ subnodes f) by (eapply subnodes_trans; [exact He'|]; cbn; right; left).
      split; [by apply elem_of_node_idents|]. exact (Hsel0 j Hj).
    + apply elem_of_list_singleton in Hi' as ->. split; [|by left]. right.
      destruct (pf_import _ _ Hpf _ _ _ _ He') as (Hw & t & Hq & Hol).
      pose proof (Hpaths ti ptr nm pos lit po' imported_path imp Hti He' Hpn Hk (proj1 (imports_of_imported _ _ _ _) Him)) as Hq'.
      assert (t = p_path imp) as ->.
      { destruct Hq as (q & _ & ->), Hq' as (q' & _ & E). injection E as _ E.
        assert (∀ x y c c', x +:+ String c "" = y +:+ String c' "" → x = y) as Hinj.
        { clear. intros x. induction x as [|a x IH]; intros [|b y] c c' E; try done; cbn in E.
          - by destruct y. - by destruct x. - injection E as -> E. f_equal. by eapply IH. }
        by eapply Hinj. }
      exists ptr, nm, pos, lit, (p_path imp). split; [done|]. split; [done|].
      destruct Hq as (q & Hqn & ->). cbn [oc_range Reference].
      apply (text_selects srcs Hdis s Hs Hdir pos 1 (p_path imp) (String q "") (String q "")); [exact Hw|done| |done].
      cbn. by destruct (Ascii.eqb_spec q newline).
  - split; [left; by apply Hid|by left].
  - split; [left; by apply Hid|]. destruct He as [->| ->]; [by left|by apply Hencl].
  - split; [left; by apply Hid|]. by apply Hencl.
  - split; [left; by apply Hid|by left].
  - split; [left; by apply Hid|by left].
Qed.
Print Assumptions C69_occurrences.

(** Columns are byte offsets; a document does not say so (its position encoding is left unspecified), but clients
    that count columns in other units agree with it on every line that is ASCII up to the end of the range. *)
Definition is_ascii (x : string) : Prop := str_forallb (λ c, Nat.ltb (nat_of_ascii c) 128) x = true.
Theorem C69_other_units : ∀ unit text r off t, (∀ x, is_ascii x → unit x = slen x) →
  selects slen text r off t → (∀ a b, text = a +:+ t +:+ b → off = Z.of_nat (slen a) → is_ascii (last_line a) ∧ is_ascii (last_line (a +:+ t))) →
  selects unit text r off t.
Proof.
  intros unit text r off t Hu (a & b & l1 & c1 & l2 & c2 & E1 & E2 & D & R1 & R2) Ha.
  destruct (Ha a b E1 E2) as [A1 A2]. apply reaches_fun in R1 as [-> ->], R2 as [-> ->].
  exists a, b. eexists _, _, _, _. split; [done|]. split; [done|]. split; [exact D|].
  rewrite <-(Hu _ A1), <-(Hu _ A2). split; apply reaches_last.
Qed.
Print Assumptions C69_other_units.

(** C69 is false after a line directive without a column (//line f.y:10, as the output of goyacc and cgo has them):
    go/token answers column 0, and the range of an identifier selects nothing, in no text. *)
Theorem C69_line_directive_refuted : ∀ srcs s i o alt,
  disjoint_files srcs → s ∈ srcs → written s (id_pos i) (id_name i) →
  active (s_directives s) (id_pos i - s_base s) None = Some alt → dir_col alt = 0 →
  (∀ ob path, o = Some ob → o_kind ob ≠ OPkgName path) →
  ∀ unit text off t, ¬ selects unit text (ident_range (file_set srcs) i o) off t.
Proof.
  intros srcs s i o alt [Hpos Hdis] Hs (a & b & E & Hp) H1 C1 Ho unit text off t (x & y & l1 & c1 & l2 & c2 & _ & _ & D & R & _).
  assert (Hcol : ∀ q al, covers s q = true → active (s_directives s) (q - s_base s) None = Some al → dir_col al = 0 →
    pos_col (fs_position (file_set srcs) q) = 0).
  { intros q al Hc Hal H0. cbn [file_set fs_position]. destruct (Z.eqb_spec q 0); [done|].
    destruct (List.find _ srcs) as [s'|] eqn:Ef; [|done].
    apply find_some in Ef as [Hin Ef]. apply elem_of_list_In in Hin. rewrite (Hdis s' s _ Hin Hs Ef Hc).
    unfold unpack. rewrite Hal, H0. destruct (locate _ _ _ _). done. }
  specialize (Hpos s Hs).
  assert (K1 : covers s (id_pos i) = true).
  { unfold covers. rewrite Hp, E, slen_app. apply andb_true_iff. split; apply Z.leb_le; lia. }
  pose proof (Hcol (id_pos i) alt K1 H1 C1) as P1.
  assert (A1 : c1 = -1).
  { unfold ident_range, scip_range in D. rewrite P1 in D.
    assert (match o with Some ob => match o_kind ob with OPkgName _ => if has_prefix (o_name ob) (String dquote "") then 1 else 0 | _ => 0 end | None => 0 end = 0) as E0.
    { destruct o as [ob|]; [|done]. destruct (o_kind ob) eqn:Ek; try done. by destruct (Ho ob _ eq_refl Ek). }
    rewrite E0 in D. change (add32 (int32 (0 - 1)) 0) with (-1) in D.
    destruct (Z.eqb _ _); cbn in D; congruence. }
  apply reaches_fun in R as [_ R]. lia.
Qed.
Print Assumptions C69_line_directive_refuted.
