(** Trees determine the structure of types; matching *)
From Coq Require Import Ascii String.
From stdpp Require Import prelude strings.
From Verif Require Import GoStr Scip GoTypes Quote Fingerprint SpecTypes P_Finger.
Open Scope string_scope.
Open Scope list_scope.
Local Open Scope Z_scope.

Lemma slist_inj l : ∀ l', slist l = slist l' → l = l'.
Proof. induction l as [|x l IH]; intros [|y l'] H; try done. cbn in H. injection H as -> H. f_equal. auto. Qed.
Lemma tree_unalias t : tree (unalias t) = tree t.
Proof. induction t; try done. Qed.
Lemma type_ok_unalias u t : type_ok u t → type_ok u (unalias t).
Proof. induction t; intros H; try done. inversion H; subst. cbn. auto. Qed.
Lemma unalias_not_alias t tn r : unalias t ≠ TAlias tn r.
Proof. induction t; try done. Qed.
Lemma name_tree_inj u a b : name_ok u a → name_ok u b → name_tree a = name_tree b → same_name a b.
Proof.
  unfold name_ok, name_tree, same_name. destruct (tn_pkg a), (tn_pkg b); intros Ha Hb H; try done.
  - injection H as -> ->. done.
  - injection H as ->. done.
Qed.
Lemma field_name_inj u f g : field_ok u f → field_ok u g → field_name_tree f = field_name_tree g →
  fh_name f = fh_name g ∧ (is_exported (fh_name f) = false → fh_pkg f = fh_pkg g).
Proof.
  intros [_ Hf] [_ Hg]. unfold field_name_tree.
  destruct (is_exported (fh_name f)) eqn:Ef, (is_exported (fh_name g)) eqn:Eg; intros H; try done.
  - by injection H as ->.
  - destruct (Hf eq_refl) as [p Hp], (Hg eq_refl) as [q Hq]. rewrite Hp, Hq in H |- *. injection H as -> ->. done.
Qed.
Lemma name_tree_sym u tn s : name_ok u tn → name_tree tn = SSym s → s = "error" ∨ s = "comparable".
Proof. unfold name_ok, name_tree. destruct (tn_pkg tn); [done|]. intros H [= <-]. done. Qed.
Lemma basic_not_named u k tn l : name_ok u tn →
  match l with [] => name_tree tn | _ => slist (SSym "inst" :: name_tree tn :: map tree l) end = tree (TBasic k false) → False.
Proof.
  intros Hn. destruct l as [|t l].
  - unfold name_ok, name_tree in *. destruct (tn_pkg tn) as [p|].
    + destruct Hn as [_ Hn]. destruct k; try done. cbn. intros [= -> H]. by apply Hn.
    + destruct k; cbn; intros [= E]; rewrite E in Hn; destruct Hn; done.
  - by destruct k.
Qed.
Lemma any_not_named u ms s tn l : name_ok u tn →
  match l with [] => name_tree tn | _ => slist (SSym "inst" :: name_tree tn :: map tree l) end = tree (TInterface ms s) → False.
Proof.
  intros Hn. destruct l as [|t l].
  - unfold name_ok, name_tree in *. destruct (tn_pkg tn) as [p|].
    + by destruct ms.
    + destruct ms; cbn; [|done]. intros [= E]; rewrite E in Hn; destruct Hn; done.
  - by destruct ms.
Qed.
Section Structure.
  Context (u : unicode).
  Notation IHt t := (∀ r, type_ok u t → type_ok u r → tricky t = false → tree t = tree r → same_structure t r).
  Lemma structure_args l : ∀ l', Forall (λ t, IHt t) l → Forall (type_ok u) l → Forall (type_ok u) l' →
    existsb tricky l = false → map tree l = map tree l' → Forall2 same_structure l l'.
  Proof.
    induction l as [|t l IH]; intros [|r l'] Hi Hl Hl' Ht E; try done.
    inversion Hi; inversion Hl; inversion Hl'; subst. cbn in Ht, E. apply orb_false_iff in Ht as [Ht1 Ht2]. injection E as E1 E2.
    constructor; auto.
  Qed.
  Lemma structure_fields fs : ∀ fs', Forall (λ f, IHt f.2) fs → Forall (field_ok u) (map fst fs) → Forall (type_ok u) (map snd fs) →
    Forall (field_ok u) (map fst fs') → Forall (type_ok u) (map snd fs') →
    existsb (λ f, tricky f.2) fs = false →
    List.concat (map (λ f, [field_name_tree f.1; SSym (format_bool (fh_embedded f.1)); SStr (fh_tag f.1); tree f.2]) fs) =
    List.concat (map (λ f, [field_name_tree f.1; SSym (format_bool (fh_embedded f.1)); SStr (fh_tag f.1); tree f.2]) fs') →
    Forall2 same_field (map fst fs) (map fst fs') ∧ Forall2 same_structure (map snd fs) (map snd fs').
  Proof.
    induction fs as [|[f t] fs IH]; intros [|[g r] fs'] Hi Hf Ht Hf' Ht' Hk E; [by split; constructor|done|done|].
    inversion Hi; inversion Hf; inversion Ht; inversion Hf'; inversion Ht'; subst. cbn [existsb snd] in Hk. apply orb_false_iff in Hk as [Hk1 Hk2].
    cbn [map List.concat app fst snd] in E. injection E as E1 E2 E3 E4 E5.
    destruct (IH fs') as [X1 X2]; [done..|]. cbn [map fst snd] in *. split; constructor; auto.
    destruct (field_name_inj u f g) as [Y1 Y2]; [done..|]. split; [done|]. split; [done|]. split; [|done].
    by destruct (fh_embedded f), (fh_embedded g).
  Qed.
  Lemma tree_structure t : IHt t.
  Proof.
    induction t as [k a|tn l IH|tn t IH|t IH|t IH|n t IH|k v IHk IHv|d t IH|l IH|ps rs v IHp IHr|fs IH|ms s IH|tn i|l IH] using ty_ind';
      intros r Hok Hr Htr E.
    3: { inversion Hok; subst. cbn in Htr, E. pose proof (IH r ltac:(done) Hr Htr E) as X. inversion X; subst;
         [eapply ss_basic|eapply ss_named|eapply ss_pointer|eapply ss_slice|eapply ss_array|eapply ss_map|eapply ss_chan|eapply ss_tuple
         |eapply ss_sig|eapply ss_struct|eapply ss_any]; eauto. }
    all: rewrite <- (tree_unalias r) in E; apply type_ok_unalias in Hr; inversion Hok; subst;
      destruct (unalias r) as [k' a'|tn' l'|tn' r'|r'|r'|n' r'|k' v'|d' r'|l'|ps' rs' v'|fs' |ms' s'|tn' i'|l'] eqn:Er;
      inversion Hr; subst; try (by apply unalias_not_alias in Er).
    all: cbn [tree] in E; try discriminate E.
    all: try (destruct l' as [|? ?]; [unfold name_tree in E; destruct (tn_pkg tn')|]; discriminate E).
    all: try (destruct l as [|? ?]; [unfold name_tree in E; destruct (tn_pkg tn)|]; discriminate E).
    all: try (destruct k'; discriminate E).
    all: try (destruct k; discriminate E).
    all: try (destruct ms'; discriminate E).
    all: try (destruct ms; discriminate E).
    all: try (destruct k', ms; discriminate E).
    all: try (destruct k, ms'; discriminate E).
    - assert (k = k') as -> by (destruct k, k'; try done). by eapply ss_basic.
    - exfalso. eapply (basic_not_named u k tn' l'); [done|]; symmetry; exact E.
    - exfalso. eapply (basic_not_named u k' tn l); [done|]; exact E.
    - cbn [tricky] in Htr. destruct l as [|t l], l' as [|r' l'].
      + eapply (ss_named _ _ tn tn' [] []); [done|done|by eapply name_tree_inj|constructor].
      + unfold name_tree in E. by destruct (tn_pkg tn).
      + unfold name_tree in E. by destruct (tn_pkg tn').
      + apply slist_inj in E. injection E as E1 E2 E3.
        eapply ss_named; [done|done|by eapply name_tree_inj|]. eapply structure_args; [done..|]. cbn [map]. by rewrite E2, E3.
    - exfalso. eapply (any_not_named u ms' s' tn l); [done|]; exact E.
    - injection E as E. eapply ss_pointer; [done|done|]. by apply IH.
    - injection E as E. eapply ss_slice; [done|done|]. by apply IH.
    - injection E as -> E. eapply ss_array; [done|done|]. by apply IH.
    - injection E as E1 E2. cbn in Htr. apply orb_false_iff in Htr as [T1 T2]. eapply ss_map; [done|done|by apply IHk|by apply IHv].
    - injection E as E1%Nat2Z.inj E. subst. eapply ss_chan; [done|done|]. by apply IH.
    - apply slist_inj in E. injection E as E. eapply ss_tuple; [done|done|]. by eapply structure_args.
    - apply slist_inj in E. injection E as E1 E2. apply (slist_inj (SSym "tuple" :: map tree ps) (SSym "tuple" :: map tree ps')) in E1 || idtac.
      cbn in Htr. apply orb_false_iff in Htr as [T1 T2].
      assert (v = v' ∧ map tree rs = map tree rs') as [-> E3].
      { destruct v, v'; cbn in E2; try discriminate; injection E2 as E2; apply slist_inj in E2; done. }
      eapply ss_sig; [done|done|eapply structure_args; try done|by eapply structure_args].
      by apply slist_inj in E1.
    - apply slist_inj in E. injection E as E. cbn in Htr. destruct (structure_fields fs fs') as [X1 X2]; [done..|].
      by eapply ss_struct.
    - exfalso. eapply (any_not_named u ms s tn' l'); [done|]; symmetry; exact E.
    - destruct ms; [|done]. destruct ms'; [|done]. by eapply ss_any.
    - done.
  Qed.
End Structure.

(** *** Matching *)
Fixpoint size (x : sexpr) : nat := match x with SCons a d => S (size a + size d) | _ => 0 end.
Lemma tpi_other a d : a ≠ SSym "typeparam" → type_param_index (SCons a d) = PDone (-1).
Proof. destruct a; try done. intros H. cbn. destruct (String.eqb_spec s "typeparam"); [congruence|done]. Qed.
Lemma tpi_param i : type_param_index (type_param i) = PDone i.
Proof. reflexivity. Qed.
Lemma tpi_ground y : ground y → type_param_index y = PDone (-1).
Proof. destruct y; try done. intros (H & _ & _). by apply tpi_other. Qed.
Lemma ground_max y : ground y → max_type_param y = PDone (-1).
Proof.
  induction y as [| | | |a IHa d IHd]; try done. intros (H & Ha & Hd). cbn [max_type_param]. rewrite tpi_other by done.
  cbn [pbind]. cbn iota. by rewrite IHa, IHd.
Qed.
Lemma ground_occurs b l y : ground y → occurs b l y = PDone false.
Proof.
  induction y as [| | | |a IHa d IHd]; try done. intros (H & Ha & Hd). cbn [occurs]. rewrite tpi_other by done.
  cbn [pbind]. cbn iota. rewrite IHa by done. cbn. by apply IHd.
Qed.
Lemma uni_ground fuel : ∀ x y st, ground x → ground y → (size y < fuel)%nat → uni fuel x y st = PDone (bool_decide (x = y), st).
Proof.
  induction fuel as [|fuel IH]; intros x y st Hx Hy Hf; [lia|]. cbn [uni]. rewrite (tpi_ground x Hx), (tpi_ground y Hy). cbn [pbind binding_of].
  change (Z.leb 0 (-1)) with false. cbn [pbind]. cbn iota.
  destruct (Nat.eqb_spec (dynamic_type x) (dynamic_type y)) as [Ed|Ed]; cbn [negb].
  2:{ rewrite bool_decide_eq_false_2; [done|]. intros ->. done. }
  destruct x as [|s|n|s|xa xd], y as [|s'|n'|s'|ya yd]; cbn in Ed; try discriminate Ed; try done.
  destruct Hx as (Hx1 & Hx2 & Hx3), Hy as (Hy1 & Hy2 & Hy3). cbn [size] in Hf. rewrite IH by (done || lia). cbn [pbind].
  destruct (decide (xa = ya)) as [->|Hne]; cycle 1.
  - rewrite !bool_decide_eq_false_2 by congruence. done.
  - rewrite (bool_decide_eq_true_2 (ya = ya)) by done. cbn [negb].
    assert (Hd : ∀ b, b = bool_decide (xd = yd) → PDone (b, st) = PDone (bool_decide (SCons ya xd = SCons ya yd), st)).
    { intros b ->. do 2 f_equal. apply bool_decide_ext. split; congruence. }
    destruct (is_nil xd) eqn:En; [|destruct (is_nil yd) eqn:Em].
    + apply Hd. destruct xd; try done. by destruct yd.
    + apply Hd. destruct yd; try done. by destruct xd.
    + rewrite IH by (done || lia). by apply Hd.
Qed.

(** params_below n x: the parameters of x are below n *)
Fixpoint params_below (n : Z) (x : sexpr) : Prop :=
  match type_param_index x with
  | PDone i => if Z.leb 0 i then i < n else match x with SCons a d => params_below n a ∧ params_below n d | _ => True end
  | _ => False
  end.
Lemma params_below_param n i : 0 <= i → params_below n (type_param i) ↔ i < n.
Proof. intros H. unfold type_param. cbn. destruct i; try done; lia. Qed.
Lemma params_below_cons n a d : a ≠ SSym "typeparam" → params_below n (SCons a d) ↔ params_below n a ∧ params_below n d.
Proof. intros H. cbn [params_below]. rewrite tpi_other by done. done. Qed.
Lemma params_below_mono n m x : n <= m → params_below n x → params_below m x.
Proof.
  intros Hnm. induction x as [| | | |a IHa d IHd]; try done. cbn [params_below]. destruct (type_param_index _) as [i| |]; try done.
  destruct (Z.leb 0 i); [lia|]. intros [H1 H2]. auto.
Qed.
Lemma well_formed_max x : well_formed x → ∃ m, max_type_param x = PDone m ∧ -1 <= m ∧ params_below (m + 1) x.
Proof.
  induction 1 as [i Hi|a d Ha _ (m & Hm & Hm1 & Hm2) _ (n & Hn & Hn1 & Hn2)| | | |].
  - exists i. split; [|split; [lia|]].
    + cbn. by rewrite (proj2 (Z.leb_le 0 i)) by lia.
    + apply params_below_param; lia.
  - exists (m `max` n). split; [|split; [lia|]].
    + cbn [max_type_param]. rewrite tpi_other by done. cbn [pbind]. change (Z.leb 0 (-1)) with false. cbn iota. by rewrite Hm, Hn.
    + apply params_below_cons; [done|]. split; eapply params_below_mono; [|done| |done]; lia.
  - by exists (-1).
  - by exists (-1).
  - by exists (-1).
  - by exists (-1).
Qed.

(** **** A tree matches itself *)
Definition unbound (n : Z) (st : bindings) : Prop :=
  (∀ b, cell st b = SNil) ∧ (n <= Z.of_nat (length (bx st))) ∧ (n <= Z.of_nat (length (by_ st))).
Lemma index_below l i : 0 <= i < Z.of_nat (length l) → ∃ c, index l i = PDone c.
Proof.
  intros H. unfold index. rewrite (proj2 (Z.ltb_ge i 0)) by lia. destruct (lookup_lt_is_Some_2 l (Z.to_nat i)) as [c ->]; [lia|]. eauto.
Qed.
Lemma uni_refl x : well_formed x → ∀ n fuel st, params_below n x → unbound n st → (size x < fuel)%nat →
  ∃ st', uni fuel x x st = PDone (true, st') ∧ unbound n st'.
Proof.
  induction 1 as [i Hi|a d Ha Hwa IHa Hwd IHd| |s|k|s]; intros n [|fuel] st Hb Hu Hf; try lia.
  - apply params_below_param in Hb; [|done]. destruct Hu as (Hc & Hl1 & Hl2). cbn [uni]. rewrite tpi_param. cbn [pbind]. unfold binding_of.
    rewrite (proj2 (Z.leb_le 0 i)) by lia.
    destruct (index_below (bx st) i) as [c1 ->]; [lia|]. destruct (index_below (by_ st) i) as [c2 ->]; [lia|]. cbn [pbind]. rewrite !Hc. cbn [is_nil].
    eexists. split; [done|]. split; [done|]. cbn. rewrite insert_length. done.
  - apply params_below_cons in Hb as [Hba Hbd]; [|done]. cbn [size] in Hf. cbn [uni]. rewrite tpi_other by done. cbn [pbind binding_of].
    change (Z.leb 0 (-1)) with false. cbn [pbind]. cbn iota. cbn [dynamic_type Nat.eqb negb].
    destruct (IHa n fuel st Hba Hu) as (st1 & -> & Hu1); [lia|]. cbn [pbind negb].
    destruct (is_nil d) eqn:Ed; [by exists st1|]. apply IHd; [done|done|lia].
  - by exists st.
  - exists st. cbn. rewrite bool_decide_eq_true_2 by done. done.
  - exists st. cbn. rewrite bool_decide_eq_true_2 by done. done.
  - exists st. cbn. rewrite bool_decide_eq_true_2 by done. done.
Qed.
Lemma cell_init bx by_ n b : cell (Bindings bx by_ (replicate n SNil)) b = SNil.
Proof.
  unfold cell. cbn. destruct (replicate n SNil !! b) eqn:E; [|done]. by apply lookup_replicate in E as [-> _].
Qed.
Lemma matches_self x : well_formed x → matches_returns x x true.
Proof.
  intros Hx. destruct (well_formed_max x Hx) as (m & Hm & Hm1 & Hb). exists (S (size x)). intros fuel Hf. unfold matches. rewrite Hm. cbn [pbind].
  destruct (uni_refl x Hx (m + 1) fuel (Bindings (List.seq 0 (Z.to_nat (m + 1))) (List.seq (Z.to_nat (m + 1)) (Z.to_nat (m + 1)))
    (replicate (Z.to_nat (m + 1) + Z.to_nat (m + 1)) SNil)) Hb) as (st' & -> & _); [|lia|done].
  split; [intros b; apply cell_init|]. cbn [bx by_]. rewrite !seq_length. lia.
Qed.
Lemma ground_match x y : ground x → ground y → matches_returns x y (bool_decide (x = y)).
Proof.
  intros Hx Hy. exists (S (size y)). intros fuel Hf. unfold matches. rewrite (ground_max x Hx), (ground_max y Hy). cbn [pbind].
  rewrite uni_ground by (done || lia). done.
Qed.

(** **** Matching against a type without parameters *)
Definition agrees (σ : Z → sexpr) (st : bindings) : Prop := ∀ b, cell st b ≠ SNil → σ (Z.of_nat b) = cell st b.
Definition one_sided (n : nat) (st : bindings) : Prop :=
  bx st = List.seq 0 n ∧ length (cells st) = n ∧ (∀ b, ground (cell st b)).
Lemma index_seq n i : 0 <= i < Z.of_nat n → index (List.seq 0 n) i = PDone (Z.to_nat i).
Proof.
  intros H. unfold index. rewrite (proj2 (Z.ltb_ge i 0)) by lia. rewrite (proj2 (lookup_seq 0 n (Z.to_nat i) (Z.to_nat i))); [done|]. lia.
Qed.
Lemma instance_ground σ x y : ground x → instance_of σ x y ↔ x = y.
Proof.
  intros Hx. split.
  - intros H. induction H as [i Hi|a d a' d' Ha _ IHa _ IHd| | | |]; try done.
    + by destruct Hx.
    + destruct Hx as (_ & H1 & H2). by rewrite (IHa H1), (IHd H2).
  - intros <-. induction x as [| | | |a IHa d IHd]; try constructor; destruct Hx as (? & ? & ?); auto.
Qed.
Lemma instance_param σ i y : 0 <= i → instance_of σ (type_param i) y ↔ y = σ i.
Proof.
  intros Hi. split; [|intros ->; by constructor]. intros H. inversion H; subst; [done|]. done.
Qed.
Lemma instance_cons σ a d a' d' : a ≠ SSym "typeparam" → instance_of σ (SCons a d) (SCons a' d') ↔ instance_of σ a a' ∧ instance_of σ d d'.
Proof.
  intros Ha. split; [|intros [? ?]; by constructor]. intros H. inversion H; subst; done.
Qed.
Lemma instance_nil σ x : well_formed x → (∀ i, σ i ≠ SNil) → instance_of σ x SNil ↔ x = SNil.
Proof.
  intros Hx Hσ. split; [|intros ->; constructor]. intros H. inversion H; subst; [|done]. exfalso. eapply Hσ. done.
Qed.
Lemma uni_one_sided x : well_formed x → ∀ n y fuel st, params_below (Z.of_nat n) x → one_sided n st → ground y → no_empty y → y ≠ SNil →
  (S (size y) < fuel)%nat →
  ∃ b st', uni fuel x y st = PDone (b, st') ∧ one_sided n st' ∧
    (b = true → (∀ σ, agrees σ st' → agrees σ st ∧ instance_of σ x y)) ∧
    (∀ σ, (∀ i, σ i ≠ SNil) → agrees σ st → instance_of σ x y → b = true ∧ agrees σ st').
Proof.
  induction 1 as [i Hi|a d Ha Hwa IHa Hwd IHd| |s|k|s]; intros n y [|fuel] st Hb Hst Hy Hne Hnn Hf; try lia.
  - apply params_below_param in Hb; [|done]. cbn [uni]. rewrite tpi_param. cbn [pbind]. unfold binding_of at 1.
    rewrite (proj2 (Z.leb_le 0 i)) by lia. pose proof Hst as (Hbx & Hlen & Hg). rewrite Hbx, index_seq by lia. cbn [pbind].
    rewrite (tpi_ground y Hy). cbn [pbind]. unfold binding_of. change (Z.leb 0 (-1)) with false. cbn [pbind].
    destruct (is_nil (cell st (Z.to_nat i))) eqn:En.
    + cbn iota. cbn [is_nil]. cbn iota. unfold bind. rewrite ground_occurs by done. cbn [pbind].
      assert (Hc : cell st (Z.to_nat i) = SNil) by (by destruct (cell st (Z.to_nat i))).
      do 2 eexists. split; [done|]. set (st' := Bindings _ _ _).
      assert (Hself : cell st' (Z.to_nat i) = y).
      { unfold cell. cbn. rewrite list_lookup_insert by lia. done. }
      assert (Hoth : ∀ b, b ≠ Z.to_nat i → cell st' b = cell st b).
      { intros b Hbn. unfold cell. cbn. rewrite list_lookup_insert_ne by done. done. }
      split; [|split].
      * split; [done|]. split; [cbn; by rewrite insert_length|]. intros b. destruct (decide (b = Z.to_nat i)) as [->|Hbn]; [by rewrite Hself|].
        by rewrite Hoth.
      * intros _ σ Hσ. split.
        -- intros b Hbb. destruct (decide (b = Z.to_nat i)) as [->|Hbn]; [by rewrite Hc in Hbb|]. rewrite <- Hoth by done. apply Hσ. by rewrite Hoth.
        -- apply instance_param; [done|]. rewrite <- Hself, <- Hσ; [f_equal; lia|by rewrite Hself].
      * intros σ Hnn' Hσ Hin. split; [done|]. apply instance_param in Hin; [|done].
        intros b Hbb. destruct (decide (b = Z.to_nat i)) as [->|Hbn]; [rewrite Hself, Hin; f_equal; lia|]. rewrite Hoth in Hbb |- * by done. by apply Hσ.
    + cbn iota. cbn [is_nil]. cbn iota. rewrite uni_ground by (done || (apply Hg) || lia).
      assert (Hc : cell st (Z.to_nat i) ≠ SNil) by (by destruct (cell st (Z.to_nat i))).
      do 2 eexists. split; [done|]. split; [done|]. split.
      * intros Hbd%bool_decide_eq_true σ Hσ. split; [done|]. apply instance_param; [done|]. rewrite <- Hbd, <- Hσ; [f_equal; lia|done].
      * intros σ _ Hσ Hin. split; [|done]. apply instance_param in Hin; [|done]. apply bool_decide_eq_true. rewrite Hin, <- Hσ; [f_equal; lia|done].
  - apply params_below_cons in Hb as [Hba Hbd]; [|done]. cbn [uni]. rewrite tpi_other by done. cbn [pbind]. unfold binding_of. change (Z.leb 0 (-1)) with false.
    cbn [pbind]. rewrite (tpi_ground y Hy). cbn [pbind]. change (Z.leb 0 (-1)) with false. cbn [pbind]. cbn iota.
    destruct y as [|s'|n'|s'|ya yd]; [done| | | |]; cbn [dynamic_type Nat.eqb negb].
    1-3: exists false, st; split; [done|]; split; [done|]; split; [done|]; intros σ _ _ Hin; inversion Hin; subst; by destruct Ha.
    destruct Hy as (Hy1 & Hy2 & Hy3), Hne as (Hne1 & Hne2 & Hne3). cbn [size] in Hf.
    destruct (IHa n ya fuel st Hba Hst Hy2 Hne2 Hne1) as (b1 & st1 & -> & Hst1 & H1 & H2); [lia|]. cbn [pbind].
    destruct b1; cbn [negb]; cycle 1.
    { exists false, st1. split; [done|]. split; [done|]. split; [done|]. intros σ Hσ1 Hσ2 Hin. apply instance_cons in Hin as [Hin _]; [|done].
      by destruct (H2 σ Hσ1 Hσ2 Hin). }
    destruct (is_nil d) eqn:Ed; [|destruct (is_nil yd) eqn:Eyd].
    + assert (d = SNil) as -> by (by destruct d). exists (is_nil yd), st1. split; [done|]. split; [done|]. split.
      * intros Hyd σ Hσ. destruct (H1 eq_refl σ Hσ) as [X1 X2]. split; [done|]. assert (yd = SNil) as -> by (by destruct yd). by repeat constructor.
      * intros σ Hσ1 Hσ2 Hin. apply instance_cons in Hin as [Hin1 Hin2]; [|done]. destruct (H2 σ Hσ1 Hσ2 Hin1) as [_ X]. split; [|done].
        by inversion Hin2; subst.
    + assert (yd = SNil) as -> by (by destruct yd). exists false, st1. split; [done|]. split; [done|]. split; [done|].
      intros σ Hσ1 Hσ2 Hin. apply instance_cons in Hin as [_ Hin2]; [|done]. apply instance_nil in Hin2; [|done|done]. by subst d.
    + destruct (IHd n yd fuel st1 Hbd Hst1 Hy3 Hne3) as (b2 & st2 & -> & Hst2 & H3 & H4); [by intros ->|lia|].
      exists b2, st2. split; [done|]. split; [done|]. split.
      * intros -> σ Hσ. destruct (H3 eq_refl σ Hσ) as [X1 X2]. destruct (H1 eq_refl σ X1) as [X3 X4]. split; [done|]. by constructor.
      * intros σ Hσ1 Hσ2 Hin. apply instance_cons in Hin as [Hin1 Hin2]; [|done]. destruct (H2 σ Hσ1 Hσ2 Hin1) as [_ X]. by apply H4.
  - rewrite uni_ground by (done || lia). do 2 eexists. split; [done|]. split; [done|]. split.
    + intros Hbd%bool_decide_eq_true σ Hσ. split; [done|]. by apply instance_ground.
    + intros σ _ Hσ Hin. split; [|done]. apply bool_decide_eq_true. by apply (instance_ground σ).
  - rewrite uni_ground by (done || lia). do 2 eexists. split; [done|]. split; [done|]. split.
    + intros Hbd%bool_decide_eq_true σ Hσ. split; [done|]. by apply instance_ground.
    + intros σ _ Hσ Hin. split; [|done]. apply bool_decide_eq_true. by apply (instance_ground σ).
  - rewrite uni_ground by (done || lia). do 2 eexists. split; [done|]. split; [done|]. split.
    + intros Hbd%bool_decide_eq_true σ Hσ. split; [done|]. by apply instance_ground.
    + intros σ _ Hσ Hin. split; [|done]. apply bool_decide_eq_true. by apply (instance_ground σ).
  - rewrite uni_ground by (done || lia). do 2 eexists. split; [done|]. split; [done|]. split.
    + intros Hbd%bool_decide_eq_true σ Hσ. split; [done|]. by apply instance_ground.
    + intros σ _ Hσ Hin. split; [|done]. apply bool_decide_eq_true. by apply (instance_ground σ).
Qed.
Lemma match_one_sided x y : well_formed x → ground y → no_empty y → y ≠ SNil →
  ∃ b, matches_returns x y b ∧ (b = true ↔ ∃ σ, (∀ i, σ i ≠ SNil) ∧ instance_of σ x y).
Proof.
  intros Hx Hy Hne Hnn. destruct (well_formed_max x Hx) as (m & Hm & Hm1 & Hb). set (n := Z.to_nat (m + 1)).
  set (st := Bindings (List.seq 0 n) [] (replicate (n + 0) SNil)).
  assert (Hst : one_sided n st).
  { split; [done|]. split; [cbn; rewrite replicate_length; lia|]. intros b. unfold st. by rewrite cell_init. }
  assert (Hag : ∀ σ, agrees σ st). { intros σ b Hbb. unfold st in Hbb. by rewrite cell_init in Hbb. }
  destruct (uni_one_sided x Hx n y (S (S (size y))) st) as (b & st' & Hu & Hst' & H1 & H2); [|done..|lia|].
  { eapply params_below_mono; [|done]. lia. }
  exists b. split.
  - exists (S (S (size y))). intros fuel Hf. unfold matches. rewrite Hm, (ground_max y Hy). cbn [pbind]. change (Z.to_nat (-1 + 1)) with 0%nat.
    cbn [List.seq]. fold n st.
    destruct (uni_one_sided x Hx n y fuel st) as (b' & st'' & Hu' & Hst'' & H1' & H2'); [|done..|lia|].
    { eapply params_below_mono; [|done]. lia. }
    rewrite Hu'. cbn [pbind]. f_equal.
    assert (Hex : ∀ b0 st0, one_sided n st0 → (b0 = true → ∀ σ, agrees σ st0 → agrees σ st ∧ instance_of σ x y) → b0 = true →
      ∃ σ, (∀ i, σ i ≠ SNil) ∧ instance_of σ x y).
    { intros b0 st0 _ H Hb0. exists (λ i, match cell st0 (Z.to_nat i) with SNil => SSym "any" | c => c end). split.
      - intros i. by destruct (cell st0 (Z.to_nat i)).
      - apply H; [done|]. intros k Hk. rewrite Nat2Z.id. by destruct (cell st0 k). }
    destruct b, b'; try done.
    + destruct (Hex true st' Hst' H1 eq_refl) as (σ & Hσ & Hin). by destruct (H2' σ Hσ (Hag σ) Hin).
    + destruct (Hex true st'' Hst'' H1' eq_refl) as (σ & Hσ & Hin). by destruct (H2 σ Hσ (Hag σ) Hin).
  - split.
    + intros ->. exists (λ i, match cell st' (Z.to_nat i) with SNil => SSym "any" | c => c end). split.
      * intros i. by destruct (cell st' (Z.to_nat i)).
      * apply H1; [done|]. intros k Hk. rewrite Nat2Z.id. by destruct (cell st' k).
    + intros (σ & Hσ & Hin). by apply (H2 σ Hσ (Hag σ) Hin).
Qed.
