(** What the theorems assume of a loaded and type-checked program, as a decision procedure: [contract i] checks on
    the directory described by i everything that [search_indexed] assumes, and [contract_ok] gives the hypothesis from
    it.  The Snap files evaluate it on the directories of /repo/internal/testdata/snapshots: the hypotheses hold of
    the programs the project itself tests with. *)
From Coq Require Import Ascii String.
From stdpp Require Import prelude strings gmap sorting relations.
From Verif Require Import GoStr Scip GoTypes Ast Packages Symbols Document Lookup Pass1 Pass2 Paths Env Loader Index
  Quote Fingerprint Impls Signature Source Program SpecSymbol SpecDecl SpecLookup SpecOcc SpecIndex SpecTypes SpecImpl
  P_Pass2 P_Index P_Mem P_Extract PropImpl PropDet PropCross PropFind ExDecl Snapshot.
Open Scope string_scope.
Open Scope list_scope.

(** *** Equality of types and objects *)
Section Eqb.
  Context {A : Type} (f : A → A → bool).
  Definition eqb_list := fix go (l l' : list A) : bool :=
    match l, l' with
    | [], [] => true
    | x :: l, y :: l' => (f x y && go l l')%bool
    | _, _ => false
    end.
  Definition eqb_opt (a b : option A) : bool :=
    match a, b with None, None => true | Some x, Some y => f x y | _, _ => false end.
  Lemma eqb_list_ok l l' : Forall (λ x, ∀ y, f x y = true → x = y) l → eqb_list l l' = true → l = l'.
  Proof.
    intros H. revert l'. induction H as [|x l Hx _ IH]; intros [|y l']; cbn; try done.
    intros [E1 E2]%andb_true_iff. f_equal; auto.
  Qed.
  Lemma eqb_opt_ok a b : (∀ x y, f x y = true → x = y) → eqb_opt a b = true → a = b.
  Proof. intros H. destruct a, b; cbn; try done. intros E. f_equal. auto. Qed.
End Eqb.
Definition same {A} `{EqDecision A} (x y : A) : bool := bool_decide (x = y).
Definition tname_eqb (a b : tname) : bool :=
  (Nat.eqb (tn_id a) (tn_id b) && eqb_opt String.eqb (tn_pkg a) (tn_pkg b) && String.eqb (tn_name a) (tn_name b))%bool.
Definition fhdr_eqb (a b : fhdr) : bool :=
  (Nat.eqb (fh_id a) (fh_id b) && String.eqb (fh_name a) (fh_name b) && eqb_opt String.eqb (fh_pkg a) (fh_pkg b) &&
   Bool.eqb (fh_embedded a) (fh_embedded b) && String.eqb (fh_tag a) (fh_tag b))%bool.
Fixpoint ty_eqb (t u : ty) : bool :=
  match t, u with
  | TBasic k a, TBasic k' a' => (same k k' && Bool.eqb a a')%bool
  | TNamed n l, TNamed n' l' => (tname_eqb n n' && eqb_list ty_eqb l l')%bool
  | TAlias n t, TAlias n' t' => (tname_eqb n n' && ty_eqb t t')%bool
  | TPointer t, TPointer t' => ty_eqb t t'
  | TSlice t, TSlice t' => ty_eqb t t'
  | TArray n t, TArray n' t' => (Z.eqb n n' && ty_eqb t t')%bool
  | TMap k v, TMap k' v' => (ty_eqb k k' && ty_eqb v v')%bool
  | TChan d t, TChan d' t' => (Nat.eqb d d' && ty_eqb t t')%bool
  | TTuple l, TTuple l' => eqb_list ty_eqb l l'
  | TSig ps rs v, TSig ps' rs' v' => (eqb_list ty_eqb ps ps' && eqb_list ty_eqb rs rs' && Bool.eqb v v')%bool
  | TStruct l, TStruct l' => eqb_list (λ a b, fhdr_eqb a.1 b.1 && ty_eqb a.2 b.2)%bool l l'
  | TInterface l s, TInterface l' s' => (eqb_list (λ a b, String.eqb a.1 b.1 && ty_eqb a.2 b.2)%bool l l' && String.eqb s s')%bool
  | TTypeParam n i, TTypeParam n' i' => (tname_eqb n n' && Nat.eqb i i')%bool
  | TUnion l, TUnion l' => eqb_list (λ a b, Bool.eqb a.1 b.1 && ty_eqb a.2 b.2)%bool l l'
  | _, _ => false
  end.
Lemma str_eqb_ok a b : String.eqb a b = true → a = b. Proof. by intros ?%String.eqb_eq. Qed.
Lemma tname_eqb_ok a b : tname_eqb a b = true → a = b.
Proof.
  destruct a, b. unfold tname_eqb. cbn. intros [[H1 H2]%andb_true_iff H3]%andb_true_iff.
  apply Nat.eqb_eq in H1. apply (eqb_opt_ok _ _ _ str_eqb_ok) in H2. apply str_eqb_ok in H3. by subst.
Qed.
Lemma fhdr_eqb_ok a b : fhdr_eqb a b = true → a = b.
Proof.
  destruct a, b. unfold fhdr_eqb. cbn. intros [[[[H1 H2]%andb_true_iff H3]%andb_true_iff H4]%andb_true_iff H5]%andb_true_iff.
  apply Nat.eqb_eq in H1. apply str_eqb_ok in H2, H5. apply (eqb_opt_ok _ _ _ str_eqb_ok) in H3. apply Bool.eqb_prop in H4. by subst.
Qed.
Lemma ty_eqb_ok t : ∀ u, ty_eqb t u = true → t = u.
Proof.
  induction t using ty_ind'; intros u E; destruct u; cbn [ty_eqb] in E; try discriminate;
    repeat match goal with H : (_ && _)%bool = true |- _ => apply andb_true_iff in H as [? ?] end;
    repeat match goal with
    | H : same _ _ = true |- _ => apply bool_decide_eq_true_1 in H
    | H : Bool.eqb _ _ = true |- _ => apply Bool.eqb_prop in H
    | H : tname_eqb _ _ = true |- _ => apply tname_eqb_ok in H
    | H : Nat.eqb _ _ = true |- _ => apply Nat.eqb_eq in H
    | H : Z.eqb _ _ = true |- _ => apply Z.eqb_eq in H
    | H : String.eqb _ _ = true |- _ => apply str_eqb_ok in H
    | IH : ∀ u, ty_eqb ?t u = true → ?t = u, H : ty_eqb ?t _ = true |- _ => apply IH in H
    end; try (by subst); f_equal; try done.
  - eapply eqb_list_ok; eauto.
  - eapply eqb_list_ok; eauto.
  - eapply (eqb_list_ok _ ps); eauto.
  - eapply (eqb_list_ok _ rs); eauto.
  - eapply eqb_list_ok; [|exact E]. eapply Forall_impl; [exact H|]. intros [a t] IH [b t'] [E1 E2]%andb_true_iff. cbn in *.
    apply fhdr_eqb_ok in E1. apply IH in E2. by subst.
  - eapply eqb_list_ok; [|eassumption]. eapply Forall_impl; [exact H|]. intros [a t] IH [b t'] [E1 E2]%andb_true_iff. cbn in *.
    apply str_eqb_ok in E1. apply IH in E2. by subst.
  - eapply eqb_list_ok; [|exact E]. eapply Forall_impl; [exact H|]. intros [a t] IH [b t'] [E1 E2]%andb_true_iff. cbn in *.
    apply Bool.eqb_prop in E1. apply IH in E2. by subst.
Qed.
Definition entry_eqb (a b : scope_entry) : bool :=
  (String.eqb (se_name a) (se_name b) && Bool.eqb (se_is_typename a) (se_is_typename b) && ty_eqb (se_typ a) (se_typ b))%bool.
Definition tpkg_eqb (a b : tpkg) : bool :=
  (String.eqb (tp_path a) (tp_path b) && eqb_list entry_eqb (tp_scope a) (tp_scope b))%bool.
Lemma tpkg_eqb_ok a b : tpkg_eqb a b = true → a = b.
Proof.
  destruct a, b. unfold tpkg_eqb. cbn. intros [H1 H2]%andb_true_iff. apply str_eqb_ok in H1. subst. f_equal.
  eapply eqb_list_ok; [|exact H2]. apply Forall_forall. intros [x1 x2 x3] _ [y1 y2 y3]. unfold entry_eqb. cbn.
  intros [[E1 E2]%andb_true_iff E3]%andb_true_iff. apply str_eqb_ok in E1. apply Bool.eqb_prop in E2. apply ty_eqb_ok in E3. by subst.
Qed.
Definition okind_eqb (a b : okind) : bool :=
  match a, b with
  | OPkgName s, OPkgName s' => String.eqb s s'
  | OConst, OConst | OTypeName, OTypeName | OLabel, OLabel | OBuiltin, OBuiltin | ONil, ONil => true
  | OVar x, OVar y => Bool.eqb x y
  | OFunc s, OFunc s' => eqb_opt (eqb_opt ty_eqb) s s'
  | _, _ => false
  end.
Lemma okind_eqb_ok a b : okind_eqb a b = true → a = b.
Proof.
  destruct a, b; cbn; try done; intros E.
  - by apply str_eqb_ok in E as ->.
  - by apply Bool.eqb_prop in E as ->.
  - f_equal. eapply eqb_opt_ok; [|exact E]. intros x y. apply eqb_opt_ok, ty_eqb_ok.
Qed.
Fixpoint obj_eqb (a b : obj) {struct a} : bool :=
  match a, b with
  | Obj i n p z k t g, Obj i' n' p' z' k' t' g' =>
      (Nat.eqb i i' && String.eqb n n' && eqb_opt tpkg_eqb p p' && Z.eqb z z' && okind_eqb k k' && ty_eqb t t' &&
       match g, g' with None, None => true | Some o, Some o' => obj_eqb o o' | _, _ => false end)%bool
  end.
Lemma obj_eqb_ok : ∀ a b, obj_eqb a b = true → a = b.
Proof.
  fix IH 1. intros [i n p z k t g] [i' n' p' z' k' t' g']. cbn [obj_eqb].
  intros [[[[[[H1 H2]%andb_true_iff H3]%andb_true_iff H4]%andb_true_iff H5]%andb_true_iff H6]%andb_true_iff H7]%andb_true_iff.
  apply Nat.eqb_eq in H1. apply str_eqb_ok in H2. apply (eqb_opt_ok _ _ _ tpkg_eqb_ok) in H3. apply Z.eqb_eq in H4.
  apply okind_eqb_ok in H5. apply ty_eqb_ok in H6. subst. f_equal.
  destruct g as [o|], g' as [o'|]; try done. f_equal. by apply IH.
Qed.

(** *** Lists *)
Fixpoint nodupb {A} `{Countable A} (seen : gmap A unit) (l : list A) : bool :=
  match l with
  | [] => true
  | x :: l => match seen !! x with Some _ => false | None => nodupb (<[x := ()]> seen) l end
  end.
Lemma nodupb_seen {A} `{Countable A} (l : list A) : ∀ seen, nodupb seen l = true → NoDup l ∧ ∀ x, x ∈ l → seen !! x = None.
Proof.
  induction l as [|x l IH]; intros seen; cbn [nodupb]; [split; [constructor|by intros ? ?%elem_of_nil]|].
  destruct (seen !! x) eqn:E; [done|]. intros [Hn Hs]%IH. split.
  - constructor; [|done]. intros Hx. specialize (Hs x Hx). by rewrite lookup_insert in Hs.
  - intros y [->|Hy]%elem_of_cons; [done|]. specialize (Hs y Hy). by apply lookup_insert_None in Hs as [? _].
Qed.
Lemma nodupb_ok {A} `{Countable A} (l : list A) : nodupb ∅ l = true → NoDup l.
Proof. intros E. exact (proj1 (nodupb_seen l ∅ E)). Qed.
Lemma forallb_elem {A} (f : A → bool) l x : forallb f l = true → x ∈ l → f x = true.
Proof. rewrite forallb_forall. intros H Hx. by apply H, elem_of_list_In. Qed.
Lemma assoc_in {B} (l : list (nat * B)) k b : assoc l k = Some b → (k, b) ∈ l.
Proof.
  unfold assoc. destruct (List.find _ l) as [[k' b']|] eqn:E; [|done]. cbn. intros [= ->].
  apply find_some in E as [Hin Hk]. apply Nat.eqb_eq in Hk. cbn in Hk. subst k'. by apply elem_of_list_In.
Qed.
Lemma assoc_nodup {B} (l : list (nat * B)) k b : NoDup (map fst l) → (k, b) ∈ l → assoc l k = Some b.
Proof.
  unfold assoc. intros Hn Hin. induction l as [|[k' b'] l IH]; [by apply elem_of_nil in Hin|].
  cbn [map fst] in Hn. apply NoDup_cons in Hn as [Hk Hn]. cbn [List.find fst]. apply elem_of_cons in Hin as [[= <- <-]|Hin].
  - by rewrite Nat.eqb_refl.
  - destruct (Nat.eqb_spec k' k) as [->|]; [|by apply IH]. destruct Hk. apply elem_of_list_In, in_map_iff.
    exists (k, b). split; [done|]. by apply elem_of_list_In.
Qed.

(** *** Loading changes only paths and modules *)
Definition as_loaded (h0 h : pheap) : Prop := ∀ q p, h !! q = Some p → ∃ p0, h0 !! q = Some p0 ∧
  p_ptr p = p_ptr p0 ∧ p_imports p = p_imports p0 ∧ p_syntax p = p_syntax p0 ∧ p_types p = p_types p0 ∧ p_info p = p_info p0.
Lemma normalize_as_loaded o w g g' : normalize_package o w g = Ok g' →
  p_ptr g' = p_ptr g ∧ p_imports g' = p_imports g ∧ p_syntax g' = p_syntax g ∧ p_types g' = p_types g ∧ p_info g' = p_info g.
Proof.
  unfold normalize_package. destruct (io_driver_set o); [by intros [= <-]|].
  destruct (is_standard_lib g || io_indexing_stdlib o)%bool; cbn [p_module with_module with_path].
  - destruct (resolve_local _ _); cbn; [by intros [= <-]|done].
  - destruct (p_module g); [|done]. destruct (resolve_local _ _); cbn; [by intros [= <-]|done].
Qed.
Section AsLoaded.
  Context (o : index_opts) (w : world) (h0 : pheap).
  Lemma lstep_as_loaded s s' : lstep o w s s' → as_loaded h0 (ls_heap s) → as_loaded h0 (ls_heap s').
  Proof.
    intros [h t p st g Hp Hs|h t p st g g' order Hp Hs Hn Ho] H; cbn [ls_heap] in *; [done|].
    intros q p' [[-> ->]|[Hne Hq]]%lookup_insert_Some; [|by apply H].
    destruct (H _ _ Hp) as (p0 & H0 & E1 & E2 & E3 & E4 & E5). destruct (normalize_as_loaded _ _ _ _ Hn) as (F1 & F2 & F3 & F4 & F5).
    exists p0. split; [done|]. by rewrite F1, F2, F3, F4, F5.
  Qed.
  Lemma rtc_as_loaded s s' : rtc (lstep o w) s s' → as_loaded h0 (ls_heap s) → as_loaded h0 (ls_heap s').
  Proof. induction 1; [done|]. intros H'. apply IHrtc. by eapply lstep_as_loaded. Qed.
  Lemma loop_as_loaded h t pj ps h' t' pj' : load_loop o w h t pj ps h' t' pj' → as_loaded h0 h → as_loaded h0 h'.
  Proof.
    induction 1 as [|h t pj p ps h1 t1 g q h2 t2 pj2 Ha _ _ _ IH]; [done|]. intros H. apply IH.
    exact (rtc_as_loaded _ _ Ha H).
  Qed.
End AsLoaded.

(** *** The checks *)
Definition plain_kind (k : okind) : bool := match k with OPkgName _ => false | _ => true end.
Definition universe_objectb (o : obj) : bool :=
  match o_kind o with
  | OTypeName | OConst | OBuiltin | ONil => negb (is_exported (o_name o))
  | OFunc (Some (Some (TNamed tn []))) =>
      (match o_origin o with None => true | Some _ => false end && String.eqb (o_name o) "Error" &&
       String.eqb (tn_name tn) "error" && match tn_pkg tn with None => true | Some _ => false end)%bool
  | _ => false
  end.
Lemma universe_objectb_ok o : universe_objectb o = true → universe_object o.
Proof.
  unfold universe_objectb. destruct (o_kind o) as [| | | |[[[| tn [|] | | | | | | | | | | | |]|]|]| | |] eqn:K; try done;
    try (intros H%negb_true_iff; apply uo_plain; [rewrite K; tauto|done]).
  intros [[[H1 H2]%andb_true_iff H3]%andb_true_iff H4]%andb_true_iff. destruct (o_origin o) eqn:Ho; [done|].
  apply str_eqb_ok in H2, H3. destruct (tn_pkg tn) eqn:Hp; [done|]. by eapply uo_error_method.
Qed.
Definition go_objectb (m : gmap nat obj) (o : obj) : bool :=
  (Nat.eqb (count_char "." (o_name o)) 0 &&
   match m !! o_id (origin o) with Some o' => obj_eqb o' (origin o) | None => false end &&
   eqb_opt String.eqb (tp_path <$> o_pkg (origin o)) (tp_path <$> o_pkg o) &&
   match o_pkg o with
   | Some tp => negb (String.eqb (tp_path tp) "") && negb (String.eqb (tp_path tp) "_")
   | None => universe_objectb o
   end && plain_kind (o_kind o))%bool.
Lemma go_objectb_ok m o : go_objectb m o = true → go_object (λ n, m !! n) o.
Proof.
  unfold go_objectb. intros [[[[H1 H2]%andb_true_iff H3]%andb_true_iff H4]%andb_true_iff H5]%andb_true_iff. split.
  - by apply Nat.eqb_eq in H1.
  - destruct (m !! _); [|done]. by apply obj_eqb_ok in H2 as ->.
  - exact (eqb_opt_ok _ _ _ str_eqb_ok H3).
  - destruct (o_pkg o) as [tp|]; [|by apply universe_objectb_ok].
    apply andb_true_iff in H4 as [H4 H6]. apply negb_true_iff in H4, H6. by apply String.eqb_neq in H4, H6.
  - intros p E. by rewrite E in H5.
Qed.
Definition pos_fitsb (p : position) : bool :=
  (Z.leb 1 (pos_line p) && Z.leb (pos_line p) (2^31) && Z.leb 1 (pos_col p) && Z.leb (pos_col p) (2^31))%bool.
Lemma pos_fitsb_ok p : pos_fitsb p = true → pos_fits p.
Proof. unfold pos_fitsb, pos_fits. rewrite !andb_true_iff, !Z.leb_le. tauto. Qed.
Definition ident_eqb (a b : Ast.ident) : bool :=
  (Nat.eqb (id_ptr a) (id_ptr b) && String.eqb (id_name a) (id_name b) && Z.eqb (id_pos a) (id_pos b))%bool.
Lemma ident_eqb_ok a b : ident_eqb a b = true → a = b.
Proof.
  destruct a, b. unfold ident_eqb. cbn. intros [[H1 H2]%andb_true_iff H3]%andb_true_iff.
  apply Nat.eqb_eq in H1. apply str_eqb_ok in H2. apply Z.eqb_eq in H3. by subst.
Qed.
Definition nested_ok (c : node) : bool := match c with NFuncDecl _ _ _ _ _ _ _ | NFile _ _ _ _ _ => false | _ => true end.
Definition qualb (uses : nat → option obj) (e : option node * node) : bool :=
  match e.2 with
  | NIdent i =>
      match uses (id_ptr i) with
      | Some o =>
          (plain_kind (o_kind o) ||
           match e.1 with
           | Some (NImportSpec _ (Some j) _ _) => ident_eqb j i
           | Some (NSelectorExpr (NIdent j) s) => ident_eqb j i && negb (Nat.eqb (id_ptr s) (id_ptr i))
           | _ => false
           end)%bool
      | None => true
      end
  | _ => true
  end.
Definition quoteb (e : nat * obj) : bool := (plain_kind (o_kind e.2) || negb (has_prefix (o_name e.2) (String dquote "")))%bool.
Section File.
  Context (fs : fset) (r : raw) (m : gmap nat obj) (paths : list string).
  (** a file of a package with the tables r; [paths]: the packages it may import *)
  Definition fileb (f : node) : bool :=
    let ids := node_idents f in
    (match f with NFile _ _ _ _ _ => true | _ => false end &&
     forallb (λ d, forallb (λ n, forallb nested_ok (node_children n)) (subnodes d)) (file_decls f) &&
     forallb (λ d, match d with NFile _ _ _ _ _ => false | _ => true end) (file_decls f) &&
     nodupb ∅ (map id_ptr ids) && nodupb ∅ (map id_pos ids) &&
     forallb (qualb (assoc (r_uses r))) (file_nodes f) &&
     forallb (λ i, pos_fitsb (fs_position fs (id_pos i)) && pos_fitsb (fs_position fs (id_pos i + Z.of_nat (slen (id_name i)))%Z) &&
                   Z.ltb (pos_col (fs_position fs (id_pos i)) + Z.of_nat (slen (id_name i))) (2^31)) ids &&
     forallb (λ d, match d with NFuncDecl _ p e _ _ _ _ => pos_fitsb (fs_position fs p) && pos_fitsb (fs_position fs e) | _ => true end) (file_decls f) &&
     forallb (λ n, match n with
       | NImportSpec _ _ p _ => pos_fitsb (fs_position fs p) &&
           forallb (λ s, Z.ltb (pos_col (fs_position fs p) + Z.of_nat (slen s)) (2^31)) paths
       | _ => true end) (subnodes f) &&
     forallb (λ i, match assoc (r_defs r) (id_ptr i) with Some d => Z.eqb (o_pos d) (id_pos i) | None => true end) ids &&
     match fs_file fs (file_package_pos f) with
     | Some name => forallb (λ i, eqb_opt String.eqb (fs_file fs (id_pos i)) (Some name)) ids
     | None => false
     end)%bool.
  Definition rawb : bool :=
    (forallb quoteb (r_uses r) && forallb quoteb (r_defs r) &&
     forallb (λ e : nat * obj, negb (plain_kind (o_kind e.2)) || go_objectb m e.2) (r_uses r) &&
     forallb (λ o, plain_kind (o_kind o)) (r_cases r) && nodupb ∅ (map fst (r_defs r)))%bool.
  Lemma fileb_ok hobjs formatted imports f : fileb f = true → rawb = true →
    (∀ path imp, imports path = Some imp → p_path imp ∈ paths) →
    typed_file fs (info hobjs formatted r) imports (λ n, m !! n) f ∧ defs_at_idents (info hobjs formatted r) f ∧
    ∃ name, file_of fs f name ∧ ∀ i, NIdent i ∈ subnodes f → fs_file fs (id_pos i) = Some name.
  Proof.
    unfold fileb, rawb. cbv zeta. intros HF HR Hi.
    apply andb_true_iff in HF as [HF F11]. apply andb_true_iff in HF as [HF F10]. apply andb_true_iff in HF as [HF F9].
    apply andb_true_iff in HF as [HF F8]. apply andb_true_iff in HF as [HF F7]. apply andb_true_iff in HF as [HF F6].
    apply andb_true_iff in HF as [HF F5]. apply andb_true_iff in HF as [HF F4]. apply andb_true_iff in HF as [HF F3].
    apply andb_true_iff in HF as [F1 F2].
    apply andb_true_iff in HR as [HR R5]. apply andb_true_iff in HR as [HR R4]. apply andb_true_iff in HR as [HR R3].
    apply andb_true_iff in HR as [R1 R2].
    assert (Hk : ∀ o path, o_kind o = OPkgName path → plain_kind (o_kind o) = false) by (intros o path ->; done).
    split; [split|split].
    - split.
      + destruct f; try done. eauto 10.
      + intros d n c Hd Hn Hc. pose proof (forallb_elem _ _ _ (forallb_elem _ _ _ (forallb_elem _ _ _ F2 Hd) Hn) Hc) as H. by destruct c.
      + intros d Hd. pose proof (forallb_elem _ _ _ F3 Hd) as H. by destruct d.
      + by apply nodupb_ok.
      + intros par i o path Hin Hu Ho. pose proof (forallb_elem _ _ _ F6 Hin) as H. unfold qualb in H. cbn [fst snd] in H.
        cbn [ti_uses info] in Hu. rewrite Hu, (Hk _ _ Ho) in H. cbn [orb] in H.
        destruct par as [[]|]; try done.
        * destruct x; try done. apply andb_true_iff in H as [H1 H2]. apply ident_eqb_ok in H1 as ->. right.
          exists sel. split; [done|]. by apply negb_true_iff, Nat.eqb_neq in H2.
        * destruct name as [j|]; [|done]. apply ident_eqb_ok in H as ->. left. eauto.
      + intros ptr o path Hu Ho. assert (quoteb (ptr, o) = true) as H.
        { destruct Hu as [Hu|Hu]; apply assoc_in in Hu; [exact (forallb_elem _ _ _ R1 Hu)|exact (forallb_elem _ _ _ R2 Hu)]. }
        unfold quoteb in H. cbn [snd] in H. rewrite (Hk _ _ Ho) in H. by apply negb_true_iff in H.
      + intros i Hin. apply elem_of_node_idents in Hin. pose proof (forallb_elem _ _ _ F7 Hin) as H.
        apply andb_true_iff in H as [[H1 H2]%andb_true_iff H3]. apply Z.ltb_lt in H3. split; [by apply pos_fitsb_ok|]. split; [by apply pos_fitsb_ok|done].
      + intros d p e rr nm t b Hin. pose proof (forallb_elem _ _ _ F8 Hin) as H. apply andb_true_iff in H as [H1 H2]. split; by apply pos_fitsb_ok.
      + intros ptr nm p l path imp Hin Himp. pose proof (forallb_elem _ _ _ F9 Hin) as H. apply andb_true_iff in H as [H1 H2].
        split; [by apply pos_fitsb_ok|]. apply Z.ltb_lt. exact (forallb_elem _ _ _ H2 (Hi _ _ Himp)).
    - intros ptr o Hu Ho. apply assoc_in in Hu. pose proof (forallb_elem _ _ _ R3 Hu) as H. cbn [snd] in H.
      apply go_objectb_ok. apply orb_true_iff in H as [H|H]; [|done]. destruct (o_kind o) eqn:K; try done. by destruct (Ho imported_path).
    - intros o path Hin E. cbn [ti_case_objs info] in Hin. pose proof (forallb_elem _ _ _ R4 Hin) as H. cbn in H. rewrite (Hk _ _ E) in H. done.
    - split; [|by apply nodupb_ok]. intros i d Hin Hd. apply elem_of_node_idents in Hin. pose proof (forallb_elem _ _ _ F10 Hin) as H. cbn in H.
      cbn [ti_defs info] in Hd. rewrite Hd in H. by apply Z.eqb_eq in H.
    - destruct (fs_file fs (file_package_pos f)) as [name|] eqn:E; [|done]. exists name. split; [done|].
      intros i Hin. apply elem_of_node_idents in Hin. pose proof (forallb_elem _ _ _ F11 Hin) as H. exact (eqb_opt_ok _ _ _ str_eqb_ok H).
  Qed.
End File.

Section Contract.
  Context (i : input).
  Definition raw_objects (e : gpkg * option raw) : list obj :=
    match e.2 with Some r => map snd (r_defs r) ++ map snd (r_uses r) | None => [] end.
  (** the objects of the program by their pointers *)
  Definition objects : gmap nat obj :=
    foldr (λ o m, <[o_id (origin o) := origin o]> m) ∅
      (List.concat (map raw_objects (in_packages i)) ++
       List.concat (map (λ e : nat * (list obj * list obj), e.2.1 ++ e.2.2) (in_msets i)) ++
       List.concat (map snd (in_scopes i))).
  Definition msetsb (m : gmap nat obj) : bool :=
    (forallb (λ e : nat * (list obj * list obj), nodupb ∅ (map obj_Id e.2.1) && nodupb ∅ (map obj_Id e.2.2) &&
        forallb (go_objectb m) e.2.1 && forallb (go_objectb m) e.2.2 &&
        (match default (TStruct []) (assoc (in_unders i) e.1) with TInterface _ _ => true | _ => false end ||
         forallb (λ o, existsb (obj_eqb o) e.2.2) e.2.1)) (in_msets i) &&
     forallb (λ e : nat * ty, match e.2 with
        | TInterface ms _ => eqb_list (λ a b : string * ty, String.eqb a.1 b.1 && ty_eqb a.2 b.2)
            (map (λ o, (obj_Id o, o_type o)) (match assoc (in_msets i) e.1 with Some x => x.1 | None => [] end)) ms
        | _ => true end) (in_unders i))%bool.
  (** a package of a table, under its path with a module *)
  Definition keyedb (h : pheap) (e : string * nat) : bool :=
    match h !! e.2 with
    | Some p => (String.eqb (p_path p) e.1 && match p_module p with Some _ => true | None => false end)%bool
    | None => false
    end.
  Definition projectb (h : pheap) (all : ptab) (e : string * nat) : bool :=
    match h !! e.2 with
    | Some p => match p_info p with Some _ => eqb_opt Nat.eqb (all !! e.1) (Some e.2) | None => false end
    | None => false
    end.
  Definition scopeb (m : gmap nat obj) (h : pheap) (proj : ptab) (e : string * nat) : bool :=
    match proj !! e.1 with
    | Some _ => true
    | None => match h !! e.2 with
              | Some p => forallb (λ o, go_objectb m o && match o_pkg o with Some tp => String.eqb (tp_path tp) (p_path p) | None => false end)%bool
                            (run_scope i p)
              | None => true
              end
    end.
  Definition import_paths (h : pheap) (p : gpkg) : list string :=
    omap (λ e : string * nat, p_path <$> h !! e.2) (p_imports p).
  Definition packageb (m : gmap nat obj) (fs : fset) (h : pheap) (p : gpkg) : bool :=
    match raw_of i (p_ptr p) with
    | Some r => (rawb r m && forallb (fileb fs r (import_paths h p)) (p_syntax p))%bool
    | None => false
    end.
  Definition contract_of (m : gmap nat obj) (fs : fset) (h : pheap) (all proj : ptab) (ps : list gpkg) : bool :=
    (nodupb ∅ (0 :: map (λ e : gpkg * option raw, p_ptr e.1) (in_packages i)) &&
     forallb (λ e : gpkg * option raw, match e.2 with Some r => nodupb ∅ (map fst (r_defs r)) | None => true end) (in_packages i) &&
     msetsb m && forallb (keyedb h) (map_to_list all) && forallb (keyedb h) (map_to_list proj) &&
     forallb (projectb h all) (map_to_list proj) && forallb (scopeb m h proj) (map_to_list all) &&
     forallb (packageb m fs h) ps &&
     nodupb ∅ (map (λ e : gpkg * node, fs_file fs (file_package_pos e.2)) (files_in_order ps)))%bool.
  Definition contract : bool :=
    match load_run (run_opts i) (run_world i) 0 (run_heap i) (in_roots i) with
    | Some (h, all, proj) =>
        contract_of objects (file_set (in_sources i)) h all proj (packages_of h proj (map_to_list proj).*1)
    | None => false
    end.

  Definition run_project (h : pheap) (all proj : ptab) : project :=
    Project (run_env i) (λ n, objects !! n) (file_set (in_sources i)) h all proj (packages_of h proj (map_to_list proj).*1).
  Definition run_types : type_info := TypeInfo (run_mset i) (λ _ _, true) (run_level i) (run_scope i).
  Definition run_iteration (all proj : ptab) : iteration :=
    Iteration run_maps (run_orders i) (map_to_list proj).*1 (map_to_list all).*1 (map_to_list proj).*1.

  Lemma msetsb_ok m : msetsb m = true → method_sets (run_env i) (run_mset i) (λ n, m !! n).
  Proof.
    unfold msetsb. intros [H1 H2]%andb_true_iff.
    assert (Hm : ∀ t, run_mset i t = [] ∨ ∃ n ms, (n, ms) ∈ in_msets i ∧ (run_mset i t = ms.1 ∨ run_mset i t = ms.2)).
    { intros t. unfold run_mset. destruct t; try (by left).
      - destruct (assoc (in_msets i) (tn_id tn)) as [ms|] eqn:E; [right|by left]. apply assoc_in in E. eauto.
      - destruct t; try (by left). destruct (assoc (in_msets i) (tn_id tn)) as [ms|] eqn:E; [right|by left]. apply assoc_in in E. eauto. }
    split.
    - intros t. destruct (Hm t) as [->|(n & ms & Hin & Hc)]; [constructor|].
      pose proof (forallb_elem _ _ _ H1 Hin) as H. rewrite !andb_true_iff in H. cbn [fst snd] in H. destruct H as [[[[Ha Hb] _] _] _].
      destruct Hc as [-> | ->]; by apply nodupb_ok.
    - intros tn args o Hn Ho. unfold run_mset in *. destruct (assoc (in_msets i) (tn_id tn)) as [ms|] eqn:E; [|by apply elem_of_nil in Ho].
      apply assoc_in in E. pose proof (forallb_elem _ _ _ H1 E) as H. rewrite !andb_true_iff in H. cbn [fst snd] in H. destruct H as [_ H].
      unfold is_interface in Hn. cbn [underlying run_env] in Hn. unfold run_env in Hn. rewrite Hn in H. cbn [orb] in H.
      pose proof (forallb_elem _ _ _ H Ho) as Hx. apply existsb_exists in Hx as (o' & Hin & Heq). apply obj_eqb_ok in Heq as <-. by apply elem_of_list_In.
    - intros tn args ms s He. unfold run_env in He. destruct (assoc (in_unders i) (tn_id tn)) as [u|] eqn:E; [|done].
      cbn in He. rewrite He in E. clear He. apply assoc_in in E. pose proof (forallb_elem _ _ _ H2 E) as H. cbn [fst snd] in H.
      apply eqb_list_ok in H.
      + rewrite <- H. unfold run_mset. by destruct (assoc (in_msets i) (tn_id tn)).
      + apply Forall_forall. intros [a t] _ [b t'] [E1 E2]%andb_true_iff. cbn in *. apply str_eqb_ok in E1. apply ty_eqb_ok in E2. by subst.
    - intros t o Ho. destruct (Hm t) as [E|(n & ms & Hin & Hc)]; [rewrite E in Ho; by apply elem_of_nil in Ho|].
      pose proof (forallb_elem _ _ _ H1 Hin) as H. rewrite !andb_true_iff in H. cbn [fst snd] in H. destruct H as [[[_ Ha] Hb] _].
      apply go_objectb_ok. destruct Hc as [E|E]; rewrite E in Ho; [exact (forallb_elem _ _ _ Ha Ho)|exact (forallb_elem _ _ _ Hb Ho)].
  Qed.

  Section Ok.
    Context (h : pheap) (all proj : ptab).
    Context (Hload : load_packages (run_opts i) (run_world i) 0 (run_heap i) (in_roots i) h all proj).
    Context (m : gmap nat obj) (Hm : m = objects).
    Notation fs := (file_set (in_sources i)).
    Notation ps := (packages_of h proj (map_to_list proj).*1).
    Context (Hc : contract_of m fs h all proj ps = true).

    Lemma as_given q p : h !! q = Some p → ∃ p0, (<[0 := builtin_pkg 0 (with_default_version (run_opts i))]> (run_heap i)) !! q = Some p0 ∧
      p_ptr p = p_ptr p0 ∧ p_imports p = p_imports p0 ∧ p_syntax p = p_syntax p0 ∧ p_types p = p_types p0 ∧ p_info p = p_info p0.
    Proof.
      revert q p. change (as_loaded (<[0 := builtin_pkg 0 (with_default_version (run_opts i))]> (run_heap i)) h).
      eapply loop_as_loaded; [exact Hload|]. intros q p Hq. exists p. done.
    Qed.
    (** the type information of a loaded package is that of the tables *)
    Lemma loaded_info q p : h !! q = Some p → p_info p = info (in_hobjs i) (in_formatted i) <$> raw_of i (p_ptr p).
    Proof.
      intros Hq. unfold contract_of in Hc. rewrite !andb_true_iff in Hc. destruct Hc as [[[[[[[[Hn _] _] _] _] _] _] _] _].
      apply nodupb_ok in Hn. destruct (as_given _ _ Hq) as (p0 & H0 & Hp & _ & _ & _ & Hi). rewrite Hi, Hp. clear Hi Hp Hq p.
      apply NoDup_cons in Hn as [Hz Hn].
      unfold raw_of. apply lookup_insert_Some in H0 as [[<- <-]|[Hne H0]].
      - cbn [p_ptr builtin_pkg p_info]. destruct (List.find _ _) as [e|] eqn:E; [|done]. apply find_some in E as [Hin E].
        apply Nat.eqb_eq in E. destruct Hz. apply elem_of_list_In, in_map_iff. eauto.
      - unfold run_heap in H0. apply elem_of_list_to_map_2 in H0. apply elem_of_list_In, in_map_iff in H0 as (e & [= <- <-] & Hin).
        cbn [p_ptr complete p_info]. f_equal. revert Hin Hn. clear. induction (in_packages i) as [|e' l IH]; [done|].
        cbn [map List.find]. intros [->|Hin] Hn; [by rewrite Nat.eqb_refl|]. apply NoDup_cons in Hn as [Hx Hn].
        destruct (Nat.eqb_spec (p_ptr e'.1) (p_ptr e.1)) as [E|]; [|by apply IH]. destruct Hx. rewrite E. apply elem_of_list_In, in_map_iff. eauto.
    Qed.
    Lemma raw_in ptr r : raw_of i ptr = Some r → ∃ e, e ∈ in_packages i ∧ e.2 = Some r.
    Proof.
      unfold raw_of. destruct (List.find _ _) as [e|] eqn:E; [|done]. intros Hr. exists e. split; [|done].
      apply find_some in E as [E _]. by apply elem_of_list_In.
    Qed.
    Lemma of_table {A} (t : gmap string A) (f : string * A → bool) k q :
      forallb f (map_to_list t) = true → t !! k = Some q → f (k, q) = true.
    Proof. intros H Hk. eapply forallb_elem; [exact H|]. by apply elem_of_map_to_list. Qed.
    Lemma keyedb_ok t : forallb (keyedb h) (map_to_list t) = true → keyed h t.
    Proof.
      intros H k q Hk. pose proof (of_table _ _ _ _ H Hk) as E. unfold keyedb in E. cbn [fst snd] in E.
      destruct (h !! q) as [p|] eqn:Hh; [|done]. apply andb_true_iff in E as [E1 E2]. apply str_eqb_ok in E1. destruct (p_module p) as [md|] eqn:Em; [|done]. by exists p, md.
    Qed.
    Lemma contract_indexable : indexable (λ n, objects !! n) fs h all proj ps.
    Proof.
      pose proof loaded_info as Hinfo. unfold contract_of in Hc. rewrite !andb_true_iff in Hc. destruct Hc as [[[[[[[[_ Hd] _] Ha] Hp] Hj] _] Hk] Hf].
      apply keyedb_ok in Ha, Hp. subst m.
      assert (Hps : ∀ p, p ∈ ps → ∃ q, h !! q = Some p).
      { intros p Hin. destruct (packages_of_order h proj _ Hp ltac:(reflexivity)) as [_ H]. destruct (H p Hin) as (q & _ & Hq). eauto. }
      assert (Himp : ∀ p path imp, imports_of h p path = Some imp → p_path imp ∈ import_paths h p).
      { intros p path imp. unfold imports_of. destruct (List.find _ _) as [e|] eqn:E; [|done]. intros He.
        apply find_some in E as [E _]. unfold import_paths. apply elem_of_list_omap. exists e. split; [by apply elem_of_list_In|]. by rewrite He. }
      assert (Hfile : ∀ p f, p ∈ ps → f ∈ p_syntax p → ∃ ti, p_info p = Some ti ∧ typed_file fs ti (imports_of h p) (λ n, objects !! n) f ∧ defs_at_idents ti f ∧
        ∃ name, file_of fs f name ∧ ∀ i0, NIdent i0 ∈ subnodes f → fs_file fs (id_pos i0) = Some name).
      { intros p f Hin Hfi. pose proof (forallb_elem _ _ _ Hk Hin) as E. unfold packageb in E. destruct (Hps p Hin) as [q Hq].
        pose proof (Hinfo q p Hq) as Hi. destruct (raw_of i (p_ptr p)) as [r|]; [|done]. apply andb_true_iff in E as [E1 E2].
        pose proof (forallb_elem _ _ _ E2 Hfi) as E3. exists (info (in_hobjs i) (in_formatted i) r). split; [exact Hi|].
        eapply fileb_ok; [exact E3|exact E1|]. apply Himp. }
      split.
      - split; [done|]. split; [done|]. intros k q p Hq Hh. pose proof (of_table _ _ _ _ Hj Hq) as E. unfold projectb in E. cbn [fst snd] in E.
        rewrite Hh in E. destruct (p_info p); [|done]. apply eqb_opt_ok in E; [|intros ? ?; by apply Nat.eqb_eq]. eauto.
      - apply packages_of_order; [done|reflexivity].
      - split.
        + intros p f Hin Hfi. destruct (Hfile p f Hin Hfi) as (ti & H1 & H2 & H3 & name & H4 & _). eauto 10.
        + intros a b p f q f' name Ha' Hb' Hn Hn'. apply nodupb_ok in Hf.
          eapply (NoDup_lookup _ a b (Some name) Hf).
          * change (map (λ e : gpkg * node, fs_file fs (file_package_pos e.2)) (files_in_order ps))
              with ((λ e : gpkg * node, fs_file fs (file_package_pos e.2)) <$> files_in_order ps). rewrite list_lookup_fmap, Ha'. cbn. by rewrite Hn.
          * change (map (λ e : gpkg * node, fs_file fs (file_package_pos e.2)) (files_in_order ps))
              with ((λ e : gpkg * node, fs_file fs (file_package_pos e.2)) <$> files_in_order ps). rewrite list_lookup_fmap, Hb'. cbn. by rewrite Hn'.
      - intros p f name j Hin Hfi Hn Hj'. destruct (Hfile p f Hin Hfi) as (ti & _ & _ & _ & name' & H4 & H5).
        unfold file_of in *. assert (name' = name) as -> by congruence. by apply H5.
    Qed.
    Lemma contract_analysable : analysable (run_env i) (run_mset i) (λ n, objects !! n) (run_scope i) h all proj.
    Proof.
      unfold contract_of in Hc. rewrite !andb_true_iff in Hc. destruct Hc as [[[[[[[[_ _] Hs] Ha] Hp] Hj] Hsc] _] _].
      apply keyedb_ok in Ha, Hp. subst m. split.
      - by apply msetsb_ok.
      - exact Ha.
      - intros k q Hq. destruct (Hp k q Hq) as (p & md & Hh & Hk & Hm). pose proof (of_table _ _ _ _ Hj Hq) as E. unfold projectb in E. cbn [fst snd] in E.
        rewrite Hh in E. destruct (p_info p) as [ti|] eqn:Hti; [|done]. exists p, md, ti. done.
      - intros k q p o Hq Hn Hh Ho. pose proof (of_table _ _ _ _ Hsc Hq) as E. unfold scopeb in E. cbn [fst snd] in E. rewrite Hn, Hh in E.
        pose proof (forallb_elem _ _ _ E Ho) as Hx. apply andb_true_iff in Hx as [H1 H2]. split; [by apply go_objectb_ok|].
        destruct (o_pkg o) as [tp|]; [|done]. apply str_eqb_ok in H2. eauto.
    Qed.
    Lemma contract_iteration : iteration_ok h all proj (run_iteration all proj).
    Proof.
      pose proof loaded_info as Hinfo. unfold contract_of in Hc. rewrite !andb_true_iff in Hc. destruct Hc as [[[[[[[[_ Hd] _] _] _] _] _] _] _].
      split; [split; intros; reflexivity|]. split; [|split; [apply Permutation_refl|split; apply Permutation_refl]]. split; [split; intros; reflexivity|].
      intros q p ti ob Hq Hti. pose proof (Hinfo q p Hq) as Hi. cbn [it_search run_iteration or_defs run_orders].
      destruct (raw_of i (p_ptr p)) as [r|] eqn:Er; [|by rewrite Hi in Hti]. rewrite Hi in Hti. injection Hti as <-. cbn [ti_defs info].
      destruct (raw_in _ _ Er) as (e & He & Hr). pose proof (forallb_elem _ _ _ Hd He) as Hn. cbn in Hn. rewrite Hr in Hn. apply nodupb_ok in Hn.
      rewrite elem_of_list_In, in_map_iff. split.
      - intros ([k o] & <- & Hin). exists k. apply assoc_nodup; [done|]. by apply elem_of_list_In.
      - intros [k Hk]. apply assoc_in in Hk. exists (k, ob). split; [done|]. by apply elem_of_list_In.
    Qed.
  End Ok.

  (** What is assumed of a program holds of a directory that passes the checks. *)
  Theorem contract_ok msgs : contract = true → run_index i = Some msgs →
    ∃ h all proj, load_packages (run_opts i) (run_world i) 0 (run_heap i) (in_roots i) h all proj ∧
      search_indexed (run_project h all proj) run_types msgs.
  Proof.
    unfold contract, run_index. destruct (load_run _ _ _ _ _) as [[[h all] proj]|] eqn:E; [|done].
    intros Hc Hr. pose proof (load_run_sound _ _ _ _ _ _ _ _ E) as Hl. exists h, all, proj. split; [exact Hl|].
    destruct (Index.index _ _ _ _ _ _ _ _ _ _ _ _ _ _ _ _) as [ms [[err|]|]] eqn:Ei; try done. injection Hr as ->.
    exists (run_digest i), ascii_only, crc32, (run_objstr i), (io_module_root (run_opts i)), (io_module_version (run_opts i)),
      (run_iteration all proj), "", (Meta "" "" "" []), (λ _ _, None).
    split; [exact (contract_indexable h all proj Hl _ eq_refl Hc)|]. split; [exact (contract_analysable h all proj _ eq_refl Hc)|].
    split; [exact (contract_iteration h all proj Hl _ Hc)|]. exact Ei.
  Qed.
End Contract.
Print Assumptions contract_ok.

(** *** The hypotheses of the theorems about declarations and implementations *)
(** the identifiers that name the types of a file *)
Definition type_idents (f : node) : list Ast.ident :=
  List.concat (map (λ d, match d with
    | NGenDecl _ TYPE _ specs => omap (λ s, match s with NTypeSpec _ nm _ _ => Some nm | _ => None end) specs
    | _ => [] end) (file_decls f)).
Lemma type_idents_ok f j : (∃ p h d nm decls, f = NFile p h d nm decls) → j ∈ type_idents f →
  ∃ p doc specs, file_declares f j (KeyType (id_name j)) (NGenDecl p TYPE doc specs).
Proof.
  intros (p & hd & d & nm & decls & ->). unfold type_idents. cbn [file_decls]. rewrite elem_of_list_In, in_concat.
  intros (l & Hl & Hj). apply in_map_iff in Hl as (decl & <- & Hd). destruct decl; try done. destruct tok; try done.
  apply elem_of_list_In, elem_of_list_omap in Hj as (sp & Hsp & E). destruct sp; try done. injection E as <-.
  exists p0, doc, specs. exists p, hd, d, nm, decls, (NGenDecl p0 TYPE doc specs). split; [done|]. split; [by apply elem_of_list_In|].
  by eapply dd_type.
Qed.
Definition namedb (t : ty) : bool := match t with TNamed _ _ => true | _ => false end.
Lemma namedb_ok t : namedb t = true ↔ SpecImpl.named t.
Proof. unfold SpecImpl.named. destruct t; split; intros H; try done; try (destruct H as (?&?&?); done). eauto. Qed.
Section Scopes.
  Context (i : input).
  Definition level_typeb (p : gpkg) (o : obj) : bool :=
    (match o_kind o with OTypeName => true | _ => false end && match p_types p with None => true | Some _ => run_level i p o end &&
     namedb (o_type o) && negb (String.eqb (p_name p) "builtin"))%bool.
  Definition declb (r : raw) (j : Ast.ident) : bool :=
    (Z.ltb 0 (id_pos j) && negb (String.eqb (id_name j) "_") && match assoc (r_uses r) (id_ptr j) with None => true | Some _ => false end &&
     forallb (λ o, negb (Z.eqb (o_pos o) (id_pos j))) (r_cases r))%bool.
  Definition is_level_ident (r : raw) (p : gpkg) (j : Ast.ident) : bool :=
    match assoc (r_defs r) (id_ptr j) with Some o => level_typeb p o | None => false end.
  Definition level_idents (r : raw) (p : gpkg) : list Ast.ident :=
    List.filter (is_level_ident r p) (List.concat (map node_idents (p_syntax p))).
  Definition package_scopeb (methods : gmap Z unit) (p : gpkg) : bool :=
    match raw_of i (p_ptr p) with
    | Some r =>
        (wf_pkgb p &&
         forallb (λ e : nat * obj, negb (level_typeb p e.2) ||
           existsb (λ f, existsb (λ j, Nat.eqb (id_ptr j) e.1 && declb r j) (type_idents f)) (p_syntax p)) (r_defs r) &&
         nodupb ∅ (map id_name (level_idents r p)) &&
         forallb (λ j, match methods !! id_pos j with None => true | Some _ => false end) (level_idents r p))%bool
    | None => false
    end.
  Definition method_positions : gmap Z unit :=
    foldr (λ (o : obj) m, <[o_pos o := ()]> m) ∅ (List.concat (map (λ e : nat * (list obj * list obj), e.2.1 ++ e.2.2) (in_msets i))).
  Definition cleanb (m : gmodule) : bool := (no_leading_space (m_path m) && no_leading_space (m_version m))%bool.
  Definition tablesb (h : pheap) (e : string * nat) : bool :=
    match h !! e.2 with
    | Some p =>
        (match p_module p with Some m => cleanb m | None => true end &&
         forallb (λ o, match o_origin o with None => true | Some _ => false end) (run_scope i p) && nodupb ∅ (map o_name (run_scope i p)))%bool
    | None => true
    end.
  Definition scopes_of (h : pheap) (all : ptab) (ps : list gpkg) : bool :=
    (forallb (tablesb h) (map_to_list all) && forallb (package_scopeb method_positions) ps)%bool.
  Definition scopesb : bool :=
    match load_run (run_opts i) (run_world i) 0 (run_heap i) (in_roots i) with
    | Some (h, all, proj) => scopes_of h all (packages_of h proj (map_to_list proj).*1)
    | None => false
    end.
  Lemma method_positions_in t o : o ∈ run_mset i t → method_positions !! o_pos o = Some ().
  Proof.
    intros Ho. assert (Hin : o ∈ List.concat (map (λ e : nat * (list obj * list obj), e.2.1 ++ e.2.2) (in_msets i))).
    { assert (∃ e, e ∈ in_msets i ∧ o ∈ e.2.1 ++ e.2.2) as (e & He & Hoe).
      { unfold run_mset in Ho. destruct t; try (by apply elem_of_nil in Ho).
        - destruct (assoc (in_msets i) (tn_id tn)) as [ms|] eqn:E; [|by apply elem_of_nil in Ho]. apply assoc_in in E.
          exists (tn_id tn, ms). split; [done|]. apply elem_of_app. by left.
        - destruct t; try (by apply elem_of_nil in Ho). destruct (assoc (in_msets i) (tn_id tn)) as [ms|] eqn:E; [|by apply elem_of_nil in Ho].
          apply assoc_in in E. exists (tn_id tn, ms). split; [done|]. apply elem_of_app. by right. }
      apply elem_of_list_In, in_concat. exists (e.2.1 ++ e.2.2). split; [apply in_map_iff; exists e; split; [done|by apply elem_of_list_In]|by apply elem_of_list_In]. }
    unfold method_positions. revert Hin. generalize (List.concat (map (λ e : nat * (list obj * list obj), e.2.1 ++ e.2.2) (in_msets i))). clear.
    induction l as [|x l IH]; [by intros ?%elem_of_nil|]. cbn [foldr]. intros [->|Hin]%elem_of_cons; [by rewrite lookup_insert|].
    destruct (decide (o_pos x = o_pos o)) as [->|Hne]; [by rewrite lookup_insert|]. rewrite lookup_insert_ne by done. by apply IH.
  Qed.
  Section ScopesOk.
    Context (h : pheap) (all proj : ptab).
    Context (Hload : load_packages (run_opts i) (run_world i) 0 (run_heap i) (in_roots i) h all proj).
    Notation ps := (packages_of h proj (map_to_list proj).*1).
    Context (Hc : contract_of i (objects i) (file_set (in_sources i)) h all proj ps = true) (Hs : scopes_of h all ps = true).
    Notation P := (run_project i h all proj). Notation F := (run_types i).
    Lemma package_tables p : p ∈ ps → ∃ r, raw_of i (p_ptr p) = Some r ∧ p_info p = Some (info (in_hobjs i) (in_formatted i) r) ∧
      package_scopeb method_positions p = true.
    Proof.
      intros Hp. unfold scopes_of in Hs. apply andb_true_iff in Hs as [_ H2]. pose proof (forallb_elem _ _ _ H2 Hp) as H.
      pose proof (contract_indexable i h all proj Hload _ eq_refl Hc) as Hix.
      destruct (ix_order _ _ _ _ _ _ Hix) as [_ Ho]. destruct (Ho p Hp) as (q & _ & Hq).
      pose proof (loaded_info i h all proj Hload _ Hc q p Hq) as Hi. unfold package_scopeb in *.
      destruct (raw_of i (p_ptr p)) as [r|]; [|done]. exists r. done.
    Qed.
    (** the identifier of a type in the scope of a package of the project *)
    Lemma project_type_ident p f j o : project_type P F p f j o → ∃ r, raw_of i (p_ptr p) = Some r ∧ j ∈ level_idents r p ∧ assoc (r_defs r) (id_ptr j) = Some o.
    Proof.
      intros [Hd (ti & Hti & Ho) Hk Hn Hl Hr]. pose proof (dc_pkg _ _ _ _ _ Hd) as Hp. destruct (package_tables p Hp) as (r & Hraw & Hi & _).
      assert (ti = info (in_hobjs i) (in_formatted i) r) as -> by congruence. cbn [ti_defs info] in Ho. exists r. split; [done|]. split; [|done].
      unfold level_idents. apply elem_of_list_In, filter_In. split.
      - apply in_concat. exists (node_idents f). split; [apply in_map_iff; exists f; split; [done|]; apply elem_of_list_In, (dc_file _ _ _ _ _ Hd)|].
        apply elem_of_list_In, elem_of_node_idents. by eapply declared_ident.
      - unfold is_level_ident. rewrite Ho. unfold level_typeb. rewrite Hk. rewrite !andb_true_iff. split; [split; [split; [done|]|by apply namedb_ok]|].
        + destruct Hl as [-> |Hl]; [done|]. destruct (p_types p); done.
        + by apply negb_true_iff, String.eqb_neq.
    Qed.
    Lemma contract_scopes : scopes_ok P F.
    Proof.
      pose proof (contract_indexable i h all proj Hload _ eq_refl Hc) as Hix.
      assert (Htab : ∀ k q p, all !! k = Some q → h !! q = Some p → tablesb h (k, q) = true ∧ tablesb h (k, q) =
        (match p_module p with Some m => cleanb m | None => true end &&
         forallb (λ o, match o_origin o with None => true | Some _ => false end) (run_scope i p) && nodupb ∅ (map o_name (run_scope i p)))%bool).
      { intros k q p Hq Hh. unfold scopes_of in Hs. apply andb_true_iff in Hs as [H1 _]. split; [exact (of_table _ _ _ _ H1 Hq)|].
        unfold tablesb. cbn [snd]. by rewrite Hh. }
      split.
      - intros p ti k o Hp Hti Ho Hk Hl Hn Hb. destruct (package_tables p Hp) as (r & Hraw & Hi & H). unfold package_scopeb in H. rewrite Hraw in H.
        assert (ti = info (in_hobjs i) (in_formatted i) r) as -> by congruence. cbn [ti_defs info] in Ho. rewrite !andb_true_iff in H. destruct H as [[[Hw H] _] _].
        pose proof (assoc_in _ _ _ Ho) as Hin. pose proof (forallb_elem _ _ _ H Hin) as E. cbn [fst snd] in E.
        assert (level_typeb p o = true) as Hlt.
        { unfold level_typeb. rewrite Hk, !andb_true_iff. split; [split; [split; [done|]|by apply namedb_ok]|by apply negb_true_iff, String.eqb_neq].
          destruct Hl as [-> |Hl]; [done|]. destruct (p_types p); done. }
        rewrite Hlt in E. cbn [negb orb] in E. apply existsb_exists in E as (f & Hf & E). apply existsb_exists in E as (j & Hj & E).
        apply andb_true_iff in E as [E1 E2]. apply Nat.eqb_eq in E1. apply elem_of_list_In in Hf, Hj. subst k.
        destruct (tpj_info _ _ _ _ (ix_typed _ _ _ _ _ _ Hix) p f Hp Hf) as (ti' & name & _ & Htf & _).
        destruct (type_idents_ok f j (wff_file _ _ _ _ (tf_wf _ _ _ _ _ Htf)) Hj) as (pp & doc & specs & Hdecl).
        unfold declb in E2. rewrite !andb_true_iff in E2. destruct E2 as [[[D1 D2] D3] D4].
        exists f, j. split; [done|]. split; [|by eexists|done|done|done|done]. split; [done|done| |by apply wf_pkgb_ok|done|by apply Z.ltb_lt in D1|by apply negb_true_iff, String.eqb_neq in D2|].
        + exists (NGenDecl pp TYPE doc specs). done.
        + exists (info (in_hobjs i) (in_formatted i) r), o. split; [exact Hi|]. split; [exact Ho|]. cbn [ti_uses ti_case_objs info]. split; [by destruct (assoc (r_uses r) (id_ptr j))|].
          intros c Hcase. pose proof (forallb_elem _ _ _ D4 Hcase) as E. by apply negb_true_iff, Z.eqb_neq in E.
      - intros p f j o f' j' o' H1 H2 E. pose proof (dc_pkg _ _ _ _ _ (pt_decl _ _ _ _ _ _ H1)) as Hp.
        destruct (project_type_ident _ _ _ _ H1) as (r & Hraw & Hin & Ho). destruct (project_type_ident _ _ _ _ H2) as (r' & Hraw' & Hin' & Ho').
        assert (r' = r) as -> by congruence. destruct (package_tables p Hp) as (r' & Hr' & _ & H). assert (r' = r) as -> by congruence.
        unfold package_scopeb in H. rewrite Hraw in H. rewrite !andb_true_iff in H. destruct H as [[_ Hn] _]. apply nodupb_ok in Hn.
        apply elem_of_list_lookup in Hin as [a Ha]. apply elem_of_list_lookup in Hin' as [b Hb].
        assert (a = b) as ->.
        { change (map id_name (level_idents r p)) with (id_name <$> level_idents r p) in Hn. eapply (NoDup_lookup _ a b (id_name j) Hn); rewrite list_lookup_fmap.
          - by rewrite Ha. - rewrite Hb. cbn. by rewrite E. }
        congruence.
      - intros p o [(q & Hq & Hh & Hj) _ _ _ Ho _ _ _]. destruct (Htab _ _ _ Hq Hh) as [H Ee]. rewrite Ee in H. rewrite !andb_true_iff in H. destruct H as [[_ H] _].
        pose proof (forallb_elem _ _ _ H Ho) as E. cbn in E. by destruct (o_origin o).
      - intros p o o' [(q & Hq & Hh & Hj) _ _ _ Ho _ _ _] [_ _ _ _ Ho' _ _ _] E. destruct (Htab _ _ _ Hq Hh) as [H Ee]. rewrite Ee in H. rewrite !andb_true_iff in H. destruct H as [_ Hn].
        apply nodupb_ok in Hn. cbn [tf_scope run_types] in Ho, Ho'. apply elem_of_list_lookup in Ho as [a Ha]. apply elem_of_list_lookup in Ho' as [b Hb].
        assert (a = b) as ->; [|congruence]. change (map o_name (run_scope i p)) with (o_name <$> run_scope i p) in Hn.
        eapply (NoDup_lookup _ a b (o_name o) Hn); rewrite list_lookup_fmap; [by rewrite Ha|]. rewrite Hb. cbn. by rewrite E.
      - intros t m p f j o Hm Hpt E. apply method_positions_in in Hm. destruct (project_type_ident _ _ _ _ Hpt) as (r & Hraw & Hin & _).
        destruct (package_tables p (dc_pkg _ _ _ _ _ (pt_decl _ _ _ _ _ _ Hpt))) as (r' & Hr' & _ & H). unfold package_scopeb in H. rewrite Hraw in H.
        rewrite !andb_true_iff in H. destruct H as [_ H]. pose proof (forallb_elem _ _ _ H Hin) as Hx. cbn in Hx. rewrite <- E, Hm in Hx. done.
      - intros k q p m Hq Hh Hm. cbn [pr_all pr_heap run_project] in *. destruct (Htab _ _ _ Hq Hh) as [H Ee]. rewrite Ee in H. rewrite Hm, !andb_true_iff in H. destruct H as [[H _] _].
        unfold cleanb in H. apply andb_true_iff in H. done.
    Qed.
  End ScopesOk.
  (** The hypotheses of the theorems about implementations hold of a directory that passes the checks. *)
  Theorem scopes_contract_ok msgs : contract i = true → scopesb = true → run_index i = Some msgs →
    ∃ h all proj, load_packages (run_opts i) (run_world i) 0 (run_heap i) (in_roots i) h all proj ∧
      search_indexed (run_project i h all proj) (run_types i) msgs ∧ scopes_ok (run_project i h all proj) (run_types i) ∧
      ∀ p, p ∈ pr_pkgs (run_project i h all proj) → wf_pkg_pos p.
  Proof.
    intros Hc Hs Hr. pose proof Hc as Hc'. unfold contract in Hc'. unfold scopesb in Hs. pose proof Hr as Hr'. unfold run_index in Hr'.
    destruct (load_run _ _ _ _ _) as [[[h all] proj]|] eqn:E; [|done]. pose proof (load_run_sound _ _ _ _ _ _ _ _ E) as Hl.
    exists h, all, proj. split; [done|]. split; [|split; [by apply contract_scopes|]].
    - destruct (Index.index _ _ _ _ _ _ _ _ _ _ _ _ _ _ _ _) as [ms [[err|]|]] eqn:Ei; try done. injection Hr' as ->.
      exists (run_digest i), ascii_only, crc32, (run_objstr i), (io_module_root (run_opts i)), (io_module_version (run_opts i)),
        (run_iteration i all proj), "", (Meta "" "" "" []), (λ _ _, None).
      split; [exact (contract_indexable i h all proj Hl _ eq_refl Hc')|]. split; [exact (contract_analysable i h all proj _ eq_refl Hc')|].
      split; [exact (contract_iteration i h all proj Hl _ Hc')|]. exact Ei.
    - intros p Hp. destruct (package_tables h all proj Hl Hc' Hs p Hp) as (r & Hraw & _ & H). unfold package_scopeb in H. rewrite Hraw, !andb_true_iff in H.
      destruct H as [[[H _] _] _]. by apply wf_pkgb_ok.
  Qed.
End Scopes.
Print Assumptions scopes_contract_ok.
