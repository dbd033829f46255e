(** C81 is false of the code for references to methods of interfaces that another package declares: the run that indexes
    both packages and the run that indexes the referring package only give such a reference different symbols.  So are
    references to methods of a type that is declared under an alias of it, and to fields of types that share a struct. *)
From Coq Require Import Ascii String.
From stdpp Require Import prelude strings gmap sorting.
From Verif Require Import GoStr Scip GoTypes Ast Packages Symbols Document Lookup Pass1 Pass2 Paths Loader Index
  SpecSymbol SpecDecl SpecLookup SpecOcc SpecIndex P_Symbols P_Pass1 P_Link P_Lookup P_Pass2 P_Occ P_Index PropDecl PropOcc PropIndex PropCross
  PropNav PropMember PropEnd.
Open Scope string_scope.
Open Scope list_scope.

(** the same identifier i is a use of the object o of the dependency dep in Q, and in P a use of what i1 of package p1
    declares; dep is p1, as Q knows it *)
Record used_in_both (Q P : project) (p : gpkg) (f : node) (i : Ast.ident) (o : obj) (dep p' p1 : gpkg) (f1 : node) (i1 : Ast.ident) (k : dkey) : Prop := UsedInBoth {
  ub_part : dependency_use Q p f i o dep; ub_whole : use_of P p1 (id_pos i1) p' f i; ub_decl : declaration P p1 f1 i1 k;
  ub_path : p_path dep = p_path p1; ub_module : p_module dep = p_module p1; ub_unsafe : p_path p1 ≠ "unsafe" }.

Lemma whole_refers P msgs p1 f1 i1 k p2 f2 i2 : indexed P msgs → declaration P p1 f1 i1 k → p_path p1 ≠ "unsafe" →
  use_of P p1 (id_pos i1) p2 f2 i2 → ∃ m, p_module p1 = Some m ∧ refers P msgs p2 f2 i2 (key_symbol (p_path p1) m k).
Proof.
  intros HP Hd Hun Hu. destruct (declaration_defined P msgs p1 f1 i1 k HP Hd) as (m & Hm & _). exists m. split; [done|].
  destruct HP as (digest & HP). pose proof (declaration_registers digest P p1 f1 i1 k m Hm Hd) as [Hr Hb].
  destruct (dc_typed _ _ _ _ _ Hd) as (ti & def & Hti & _).
  eapply (registered_referred digest P msgs HP p1 f1 ti i1 _ (dc_pkg _ _ _ _ _ Hd) (dc_file _ _ _ _ _ Hd) Hti (dc_wf _ _ _ _ _ Hd) Hb (dc_pos _ _ _ _ _ Hd) Hr); done.
Qed.
Lemma differ_refers Q P msgs msgs' p f i o dep p' p1 f1 i1 k m ds :
  indexed Q msgs → indexed P msgs' → used_in_both Q P p f i o dep p' p1 f1 i1 k → p_module p1 = Some m → clean_module m →
  (∀ root version, composed (pr_env Q) root version dep o = format_symbol (Sym "scip-go" (SPkg "gomod" (m_path m) (m_version m)) ds)) →
  ds ≠ key_descriptors (p_path p1) k →
  ∃ s s', refers Q msgs p f i s ∧ refers P msgs' p' f i s' ∧ defines P msgs' p1 f1 i1 s' ∧ s ≠ s'.
Proof.
  intros HQ HP [U1 U2 D E1 E2 E3] Hm Hc Hs Hne. destruct (whole_refers P msgs' p1 f1 i1 k p' f i HP D E3 U2) as (m' & Hm' & Hr).
  assert (m' = m) as -> by congruence. destruct (declaration_defined P msgs' p1 f1 i1 k HP D) as (m' & Hm2 & Hdef). assert (m' = m) as -> by congruence.
  eexists _, _. split; [|split; [exact Hr|split; [exact Hdef|]]].
  - eapply use_refers_as; [exact HQ|exact U1|exact Hs|]. apply format_symbol_nonempty.
  - intros E. apply Hne. unfold key_symbol in E. apply format_symbol_inj_descs in E; [done|]. by apply clean_module_symbol.
Qed.

(** whatever interface, method and program: the two references have different symbols, and the one in the index of the
    part is not the symbol that the index of the whole project defines *)
Theorem C81_interface_method_refuted : ∀ Q P msgs msgs' p f i o dep p' p1 f1 i1 T n m rt tn,
  indexed Q msgs → indexed P msgs' → used_in_both Q P p f i o dep p' p1 f1 i1 (KeyMember T n) → p_module p1 = Some m → clean_module m →
  o_origin o = None → o_kind o = OFunc (Some (Some rt)) → base_named rt tn → tn_name tn ≠ "" →
  ∃ s s', refers Q msgs p f i s ∧ refers P msgs' p' f i s' ∧ defines P msgs' p1 f1 i1 s' ∧ s ≠ s'.
Proof.
  intros Q P msgs msgs' p f i o dep p' p1 f1 i1 T n m rt tn HQ HP U Hm Hc Ho Hk Hb Hn.
  destruct (du_dep _ _ _ _ _ _ (ub_part _ _ _ _ _ _ _ _ _ _ _ _ U)) as (tp & q & Htp & _).
  eapply differ_refers; [exact HQ|exact HP|exact U|exact Hm|exact Hc| |].
  - intros root version. apply (compose_method (pr_env Q) root version dep m o tp rt tn); try done. by rewrite (ub_module _ _ _ _ _ _ _ _ _ _ _ _ U).
  - unfold key_descriptors. intros [=].
Qed.
Print Assumptions C81_interface_method_refuted.

(** ... and so for methods whose receiver is written as an alias of the type *)
Theorem C81_alias_receiver_refuted : ∀ Q P msgs msgs' p f i o dep p' p1 f1 i1 r n m rt tn,
  indexed Q msgs → indexed P msgs' → used_in_both Q P p f i o dep p' p1 f1 i1 (KeyMethod r n) → p_module p1 = Some m → clean_module m →
  o_origin o = None → o_kind o = OFunc (Some (Some rt)) → base_named rt tn → tn_name tn ≠ "" → tn_name tn ≠ r →
  ∃ s s', refers Q msgs p f i s ∧ refers P msgs' p' f i s' ∧ defines P msgs' p1 f1 i1 s' ∧ s ≠ s'.
Proof.
  intros Q P msgs msgs' p f i o dep p' p1 f1 i1 r n m rt tn HQ HP U Hm Hc Ho Hk Hb Hn Hr.
  destruct (du_dep _ _ _ _ _ _ (ub_part _ _ _ _ _ _ _ _ _ _ _ _ U)) as (tp & q & Htp & _).
  eapply differ_refers; [exact HQ|exact HP|exact U|exact Hm|exact Hc| |].
  - intros root version. apply (compose_method (pr_env Q) root version dep m o tp rt tn); try done. by rewrite (ub_module _ _ _ _ _ _ _ _ _ _ _ _ U).
  - unfold key_descriptors. intros [=]. done.
Qed.
Print Assumptions C81_alias_receiver_refuted.
