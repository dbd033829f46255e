(** Example packages used to show that the hypotheses of the theorems are met,
    and decision procedures for position well-formedness on concrete trees. *)
From Coq Require Import Ascii String.
From stdpp Require Import prelude strings gmap.
From Verif Require Import GoStr Scip GoTypes Ast Packages Symbols Document Lookup Pass1
  SpecSymbol SpecDecl P_Symbols P_Pass1.
Open Scope string_scope.
Open Scope list_scope.

Definition sepb (a b : node) : bool :=
  forallb (λ p, Z.leb p 0 || negb (existsb (Z.eqb p) (poss b)))%bool (poss a).
Fixpoint pairwise_sepb (l : list node) : bool :=
  match l with [] => true | a :: l' => (forallb (sepb a) l' && pairwise_sepb l')%bool end.
Definition wf_posb (f : node) : bool := forallb (λ m, pairwise_sepb (node_children m)) (subnodes f).
Lemma sepb_ok a b : sepb a b = true → sep a b.
Proof.
  unfold sepb, sep. intros H p Hp Ha Hb. apply elem_of_list_In in Ha.
  rewrite forallb_forall in H. specialize (H p Ha). apply orb_true_iff in H as [H|H].
  - apply Z.leb_le in H. lia.
  - apply negb_true_iff in H. assert (existsb (Z.eqb p) (poss b) = true); [|congruence].
    apply existsb_exists. exists p. split; [by apply elem_of_list_In|apply Z.eqb_refl].
Qed.
Lemma pairwise_sepb_ok l : pairwise_sepb l = true → pairwise_sep l.
Proof.
  induction l as [|a l IH]; [done|]. cbn. intros [H1 H2]%andb_true_iff. split; [|auto].
  intros b Hb. apply sepb_ok. rewrite forallb_forall in H1. by apply H1, elem_of_list_In.
Qed.
Lemma wf_posb_ok f : wf_posb f = true → wf_pos f.
Proof.
  unfold wf_posb. rewrite forallb_forall. intros H m Hm. by apply pairwise_sepb_ok, H, elem_of_list_In.
Qed.
Definition wf_pkgb (pkg : gpkg) : bool :=
  (forallb wf_posb (p_syntax pkg) && pairwise_sepb (p_syntax pkg))%bool.
Lemma wf_pkgb_ok pkg : wf_pkgb pkg = true → wf_pkg_pos pkg.
Proof.
  unfold wf_pkgb. intros [H1 H2]%andb_true_iff. split; [|by apply pairwise_sepb_ok].
  intros f Hf. apply wf_posb_ok. rewrite forallb_forall in H1. by apply H1, elem_of_list_In.
Qed.
Definition common_valuesb (pkg : gpkg) : bool :=
  forallb (λ f, forallb (λ m, match m with
    | NValueSpec _ _ _ (Some (NFieldList _ | NField _ _ _ _ | NParenExpr _ _ | NUnaryExpr _ _ | NBinaryExpr _ _
        | NFuncLit _ _ | NBlockStmt _ _ | NImportSpec _ _ _ _ | NTypeSpec _ _ _ _ | NValueSpec _ _ _ _ _
        | NGenDecl _ _ _ _ | NFuncDecl _ _ _ _ _ _ _ | NFile _ _ _ _ _ | NOther _ _)) _ => false
    | _ => true end) (subnodes f)) (p_syntax pkg).
Lemma common_valuesb_ok pkg : common_valuesb pkg = true → pkg_common_value_types pkg.
Proof.
  unfold common_valuesb. rewrite forallb_forall. intros H f Hf d c ns t vs Hin.
  specialize (H f). rewrite <- elem_of_list_In in H. specialize (H Hf).
  rewrite forallb_forall in H. specialize (H (NValueSpec d c ns (Some t) vs)).
  rewrite <- elem_of_list_In in H. specialize (H Hin). by destruct t.
Qed.

Lemma common_before_all pkg i : pkg_common_value_types pkg → common_before pkg i.
Proof.
  intros H s (f & p & tok & doc & l1 & sd & sc & names & t & vs & l2 & Hf & Hd & _ & Hs) d c ns t' vs' Hin.
  apply (H f Hf d c ns t' vs'). eapply subnodes_child; [exact Hd|]. eapply subnodes_child; [|exact Hin]. cbn. apply elem_of_app. by left.
Qed.

(** package p
    // T docs
    type T struct { F int; *E }
    func (t *T) M() {}
    // Block.
    var ( // A docs
          a int
          b = 1 )
    type I interface { N() }
    func f() {} *)
Definition empty_fields : node := NFieldList [].
Definition mk (p : nat) (n : string) (z : Z) : ident := Ident p n z.
Definition d_T : node := NGenDecl 12 TYPE "T docs" [NTypeSpec "" (mk 1 "T" 17) empty_fields
   (NStructType 2 19 (NFieldList [NField "" "" [mk 3 "F" 28] (NIdent (mk 4 "int" 30));
                                  NField "" "" [] (NStarExpr 36 (NIdent (mk 5 "E" 37)))]))].
Definition d_M : node := NFuncDecl "" 41 60 (Some (NFieldList [NField "" "" [mk 6 "t" 47] (NStarExpr 49 (NIdent (mk 7 "T" 50)))]))
   (mk 8 "M" 53) (NFuncType 41 empty_fields empty_fields empty_fields) (Some (NBlockStmt 57 [])).
Definition d_vars : node := NGenDecl 62 VAR "Block."
   [NValueSpec "A docs" "" [mk 9 "a" 70] (Some (NIdent (mk 10 "int" 72))) [];
    NValueSpec "" "" [mk 11 "b" 80] None [NOther 84 []]].
Definition d_I : node := NGenDecl 90 TYPE "" [NTypeSpec "" (mk 12 "I" 95) empty_fields
   (NInterfaceType 13 97 (NFieldList [NField "" "" [mk 14 "N" 109]
      (NFuncType 110 empty_fields empty_fields empty_fields)]))].
Definition d_f : node := NFuncDecl "" 120 130 None (mk 15 "f" 125)
   (NFuncType 120 empty_fields empty_fields empty_fields) (Some (NBlockStmt 128 [])).
Definition p_file : node := NFile 1 false "" (mk 0 "p" 9) [d_T; d_M; d_vars; d_I; d_f].
Definition p_mod : gmodule := GMod "ex.org" "v1.0.0" "" "" None.
Definition nT : tname := TName 10 (Some "ex.org/p") "T".
Definition nI : tname := TName 12 (Some "ex.org/p") "I".
Definition p_tpkg : tpkg := TPkg "ex.org/p" [SEntry "I" true (TNamed nI []); SEntry "T" true (TNamed nT []);
   SEntry "a" false (TBasic BInt false)].
Definition p_pkg : gpkg := GPkg 1 "ex.org/p" "p" (Some p_mod) [] [p_file] (Some p_tpkg) None.
Definition p_env : tenv := λ tn _,
  if Nat.eqb (tn_id tn) 10 then TStruct [(FHdr 103 "F" (Some "ex.org/p") false "", TBasic BInt false)]
  else TInterface [("N", TSig [] [] false)] "".
Definition p_objF : obj := Obj 103 "F" (Some p_tpkg) 28 (OVar true) (TBasic BInt false) None.
Definition p_objM : obj := Obj 108 "M" (Some p_tpkg) 53 (OFunc (Some (Some (TPointer (TNamed nT []))))) (TSig [] [] false) None.
Definition p_objN : obj := Obj 114 "N" (Some p_tpkg) 109 (OFunc (Some (Some (TNamed nI [])))) (TSig [] [] false) None.
Definition p_obja : obj := Obj 109 "a" (Some p_tpkg) 70 (OVar false) (TBasic BInt false) None.
Definition p_objT : obj := Obj 10 "T" (Some p_tpkg) 17 OTypeName (TNamed nT []) None.
Definition p_ti : tinfo := TInfo
  (λ i, match i with 1 => Some p_objT | 3 => Some p_objF | 8 => Some p_objM | 9 => Some p_obja
                   | 14 => Some p_objN | _ => None end)
  (λ _, None) (λ _, None) [] (λ _, None) (λ _, "sig").
Definition p_fs : fset := FSet (λ p, Position "p.go" 1 p) (λ p, if Z.leb p 200 then Some "p.go" else None).
Definition p_digest : string → string := λ s, s.

Lemma p_wf : wf_pkg_pos p_pkg.
Proof. apply wf_pkgb_ok. vm_compute. reflexivity. Qed.
Lemma p_common : pkg_common_value_types p_pkg.
Proof. apply common_valuesb_ok. vm_compute. reflexivity. Qed.
Lemma p_declares decl i k par :
  decl ∈ [d_T; d_M; d_vars; d_I; d_f] → decl_declares decl i k par → pkg_declares_by p_pkg i k par.
Proof.
  intros H Hd. exists p_file. split; [left|].
  by exists 1%Z, false, "", (mk 0 "p" 9), [d_T; d_M; d_vars; d_I; d_f], decl.
Qed.
Ltac in_list := cbn; rewrite ?elem_of_cons, ?elem_of_nil; tauto.
Lemma p_declares_T : pkg_declares_by p_pkg (mk 1 "T" 17) (KeyType "T") d_T.
Proof. eapply (p_declares d_T); [in_list|]. eapply (dd_type _ _ _ _ (mk 1 "T" 17)). left. Qed.
Lemma p_declares_F : pkg_declares_by p_pkg (mk 3 "F" 28) (KeyMember "T" "F")
  (NField "" "" [mk 3 "F" 28] (NIdent (mk 4 "int" 30))).
Proof. eapply (p_declares d_T); [in_list|]. eapply (dd_field _ _ _ _ (mk 1 "T" 17) _ _ _ _ _ _ [mk 3 "F" 28] _ (mk 3 "F" 28)); left. Qed.
Lemma p_declares_E : pkg_declares_by p_pkg (mk 5 "E" 37) (KeyMember "T" "E")
  (NField "" "" [] (NStarExpr 36 (NIdent (mk 5 "E" 37)))).
Proof.
  eapply (p_declares d_T); [in_list|].
  eapply (dd_embedded _ _ _ _ (mk 1 "T" 17) _ _ _ _ _ _ _ (mk 5 "E" 37)); [left|right; left|].
  repeat constructor.
Qed.
Lemma p_declares_M : pkg_declares_by p_pkg (mk 8 "M" 53) (KeyMethod "T" "M") d_M.
Proof.
  eapply (p_declares d_M); [in_list|]. eapply (dd_method _ _ _ _ _ _ _ _ (mk 8 "M" 53) _ _ (mk 7 "T" 50)).
  repeat constructor.
Qed.
Lemma p_declares_a : pkg_declares_by p_pkg (mk 9 "a" 70) (KeyValue "a") d_vars.
Proof.
  eapply (p_declares d_vars); [in_list|]. eapply (dd_value _ _ _ _ _ _ _ _ _ (mk 9 "a" 70)); [by left|left|left].
Qed.
Lemma p_declares_N : pkg_declares_by p_pkg (mk 14 "N" 109) (KeyMember "I" "N")
  (NField "" "" [mk 14 "N" 109] (NFuncType 110 empty_fields empty_fields empty_fields)).
Proof. eapply (p_declares d_I); [in_list|]. eapply (dd_imethod _ _ _ _ (mk 12 "I" 95) _ _ _ _ _ _ _ _ (mk 14 "N" 109)); left. Qed.
Lemma p_declares_f : pkg_declares_by p_pkg (mk 15 "f" 125) (KeyFunc "f") d_f.
Proof. eapply (p_declares d_f); [in_list|]. apply (dd_func _ _ _ (mk 15 "f" 125)). Qed.
Lemma p_table_ok : ∃ tbl, visit_package_table p_digest p_ti p_fs p_env p_pkg = Ok tbl.
Proof. unfold visit_package_table. rewrite (res_fold_put p_ti p_env p_pkg p_mod) by done. eauto. Qed.
Lemma p_ptrs : distinct_ptrs p_pkg.
Proof.
  assert (H : ∀ i j, i ∈ node_idents p_file → j ∈ node_idents p_file → id_ptr i = id_ptr j → i = j).
  { intros i j Hi Hj. rewrite elem_of_list_In in Hi, Hj. vm_compute in Hi, Hj.
    repeat (destruct Hi as [<-|Hi]; [repeat (destruct Hj as [<-|Hj]; [vm_compute; congruence|]); done|]). done. }
  intros f i j Hf Hi Hj. apply elem_of_list_singleton in Hf as ->.
  apply H; unfold node_idents; apply elem_of_list_omap; [exists (NIdent i)|exists (NIdent j)]; done.
Qed.
Lemma p_groups i : no_group_before p_pkg i.
Proof.
  intros s p tok d specs (f & q & tok' & doc & l1 & sd & sc & names & t & vs & l2 & Hf & Hd & _ & Hs) _.
  apply elem_of_list_singleton in Hf as ->. cbn in Hd. rewrite elem_of_cons in Hd. destruct Hd as [[=]|H].
  assert (Hb : forallb (λ decl, match decl with
     | NGenDecl _ _ _ specs => forallb (λ s, forallb (λ m, match m with NGenDecl _ _ _ _ => false | _ => true end)
         (subnodes s)) specs | _ => true end) [d_T; d_M; d_vars; d_I; d_f] = true) by reflexivity.
  rewrite forallb_forall in Hb. specialize (Hb _ (proj1 (elem_of_list_In _ _) H)). cbn in Hb.
  rewrite forallb_forall in Hb. specialize (Hb s). rewrite <- elem_of_list_In in Hb. specialize (Hb ltac:(apply elem_of_app; by left)).
  rewrite forallb_forall in Hb. intros Hin. by specialize (Hb _ (proj1 (elem_of_list_In _ _) Hin)).
Qed.
