(** What findImplementations does to the relationships of each SymbolInformation. *)
From Coq Require Import Ascii String.
From stdpp Require Import prelude strings gmap.
From Verif Require Import GoStr Scip GoTypes Ast Packages Symbols Lookup Quote Fingerprint Impls P_Rel.
Open Scope string_scope.
Open Scope list_scope.

Lemma with_rels_id i : with_rels (λ l, l) i = i.
Proof. by destruct i. Qed.
Lemma with_rels_comp f f' i : with_rels f (with_rels f' i) = with_rels (λ l, f (f' l)) i.
Proof. done. Qed.
Lemma cell_info_upd f m c : cell_info (upd_cell f m c) c = with_rels f <$> cell_info m c.
Proof.
  destruct c as [id pos|n]; cbn.
  - unfold get_info_by_path. cbn. rewrite lookup_alter. destruct (g_symbols (mm_g m) !! id) as [[p t]|]; cbn; [|done].
    unfold pget. by rewrite lookup_alter.
  - by rewrite list_lookup_alter.
Qed.
Lemma cell_info_upd_other f m c c' : c ≠ c' → cell_info (upd_cell f m c) c' = cell_info m c'.
Proof.
  intros Hne. destruct c as [id pos|n], c' as [id' pos'|n']; cbn; try done.
  - unfold get_info_by_path. cbn. destruct (decide (id = id')) as [<-|Hi].
    + rewrite lookup_alter. destruct (g_symbols (mm_g m) !! id) as [[p t]|]; cbn; [|done].
      unfold pget. rewrite lookup_alter_ne; [done|]. congruence.
    + by rewrite lookup_alter_ne.
  - rewrite list_lookup_alter_ne; [done|congruence].
Qed.

Inductive op := OAdd (c : cell) (s : string) | OCanon (c : cell).
Definition run_op (m : mem) (o : op) : mem := match o with OAdd c s => add_rel s m c | OCanon c => canon m c end.
Definition op_cell (o : op) : cell := match o with OAdd c _ | OCanon c => c end.
Definition op_fun (o : op) : list relationship → list relationship :=
  match o with OAdd _ s => λ l, l ++ [implementation_of s] | OCanon _ => canonicalize_relationships end.
Definition apply_op (c : cell) (l : list relationship) (o : op) : list relationship :=
  if decide (op_cell o = c) then op_fun o l else l.
Lemma run_op_upd m o : run_op m o = upd_cell (op_fun o) m (op_cell o).
Proof. by destruct o. Qed.
Lemma run_ops_info ops : ∀ m c, cell_info (foldl run_op m ops) c = with_rels (λ l, foldl (apply_op c) l ops) <$> cell_info m c.
Proof.
  induction ops as [|o ops IH]; intros m c; cbn [foldl].
  - destruct (cell_info m c) as [i|]; cbn; [|done]. by rewrite with_rels_id.
  - rewrite IH, run_op_upd. destruct (decide (op_cell o = c)) as [<-|Hne].
    + rewrite cell_info_upd. assert (E : ∀ l, apply_op (op_cell o) l o = op_fun o l) by (intros l; unfold apply_op; by rewrite decide_True).
      destruct (cell_info m (op_cell o)) as [i|]; cbn [fmap option_fmap option_map]; [|done]. f_equal. unfold with_rels.
      cbn [i_symbol i_documentation i_relationships i_kind i_display_name i_signature i_enclosing]. by rewrite E.
    + rewrite cell_info_upd_other by done. assert (E : ∀ l, apply_op c l o = l) by (intros l; unfold apply_op; by rewrite decide_False).
      destruct (cell_info m c) as [i|]; cbn [fmap option_fmap option_map]; [|done]. f_equal. unfold with_rels. by rewrite E.
Qed.
(** the packages and the symbols of packages are not changed *)
Definition same_shape (m m' : mem) : Prop :=
  g_pkgsyms (mm_g m) = g_pkgsyms (mm_g m') ∧ length (mm_new m) = length (mm_new m') ∧
  ∀ id, match g_symbols (mm_g m) !! id, g_symbols (mm_g m') !! id with
        | Some (p, _), Some (p', _) => p = p' | None, None => True | _, _ => False end.
Lemma same_shape_refl m : same_shape m m.
Proof. split; [done|]. split; [done|]. intros id. by destruct (g_symbols (mm_g m) !! id) as [[p t]|]. Qed.
Lemma same_shape_trans a b c : same_shape a b → same_shape b c → same_shape a c.
Proof.
  intros (A1 & A2 & A3) (B1 & B2 & B3). split; [congruence|]. split; [congruence|]. intros id. specialize (A3 id). specialize (B3 id).
  destruct (g_symbols (mm_g a) !! id) as [[p t]|], (g_symbols (mm_g b) !! id) as [[p' t']|], (g_symbols (mm_g c) !! id) as [[p'' t'']|]; try done. congruence.
Qed.
Lemma run_op_shape m o : same_shape m (run_op m o).
Proof.
  rewrite run_op_upd. destruct (op_cell o) as [id pos|n]; cbn.
  - split; [done|]. split; [done|]. intros id'. cbn. destruct (decide (id = id')) as [<-|Hne].
    + rewrite lookup_alter. by destruct (g_symbols (mm_g m) !! id) as [[p t]|].
    + rewrite lookup_alter_ne by done. by destruct (g_symbols (mm_g m) !! id') as [[p t]|].
  - split; [done|]. split; [symmetry; apply alter_length|]. intros id'. cbn. by destruct (g_symbols (mm_g m) !! id') as [[p t]|].
Qed.
Lemma run_ops_shape ops : ∀ m, same_shape m (foldl run_op m ops).
Proof. induction ops as [|o ops IH]; intros m; [apply same_shape_refl|]. cbn. eapply same_shape_trans; [apply run_op_shape|apply IH]. Qed.

(** the symbols added to a cell *)
Definition adds (c : cell) (ops : list op) : list string :=
  omap (λ o, match o with OAdd c' s => if decide (c' = c) then Some s else None | OCanon _ => None end) ops.
Lemma elem_of_adds c ops s : s ∈ adds c ops ↔ OAdd c s ∈ ops.
Proof.
  unfold adds. rewrite elem_of_list_omap. split.
  - intros ([c' s'|c'] & Ho & E); [|done]. destruct (decide (c' = c)) as [->|]; [|done]. by injection E as <-.
  - intros H. exists (OAdd c s). split; [done|]. by rewrite decide_True.
Qed.
Lemma canonicalize_ops c ops : ∀ l, canonicalize_relationships (foldl (apply_op c) l ops) = canonicalize_relationships (l ++ map implementation_of (adds c ops)).
Proof.
  induction ops as [|o ops IH]; intros l; cbn [foldl]; [cbn; by rewrite List.app_nil_r|].
  rewrite IH. unfold apply_op. destruct o as [c' s|c']; cbn [op_cell op_fun adds omap list_omap].
  - destruct (decide (c' = c)) as [->|]; [|done]. cbn. by rewrite <- List.app_assoc.
  - destruct (decide (c' = c)) as [->|]; [|done]. apply canonicalize_app.
Qed.
(** every addition is followed by a canonicalization *)
Definition closed (ops : list op) : Prop :=
  ∀ c s, OAdd c s ∈ ops → ∃ a b, ops = a ++ OCanon c :: b ∧ ∀ s, OAdd c s ∉ b.
Lemma closed_nil : closed [].
Proof. intros c s H. by apply elem_of_nil in H. Qed.
Lemma closed_app a b : closed a → closed b → closed (a ++ b).
Proof.
  intros Ha Hb c s H.
  assert (D : ∀ l : list op, (∃ s, OAdd c s ∈ l) ∨ ∀ s, OAdd c s ∉ l).
  { induction l as [|o l [[s' X]|X]]; [right; intros s'; apply not_elem_of_nil|left; exists s'; by right|].
    destruct o as [c' s'|c']; [destruct (decide (c' = c)) as [->|]|].
    - left. exists s'. by left.
    - right. intros s''. rewrite not_elem_of_cons. split; [congruence|apply X].
    - right. intros s''. rewrite not_elem_of_cons. split; [congruence|apply X]. }
  destruct (D b) as [[s' X]|X].
  - destruct (Hb c s' X) as (x & y & -> & Y). exists (a ++ x), y. split; [by rewrite List.app_assoc|done].
  - apply elem_of_app in H as [H|H]; [|by destruct (X s)]. destruct (Ha c s H) as (x & y & -> & Y). exists x, (y ++ b).
    split; [by rewrite <- List.app_assoc|]. intros s'. rewrite not_elem_of_app. auto.
Qed.
Lemma closed_concat l : Forall closed l → closed (List.concat l).
Proof. induction 1; [apply closed_nil|]. cbn. by apply closed_app. Qed.
Lemma canonicalize_nil : canonicalize_relationships [] = [].
Proof. reflexivity. Qed.
Lemma only_canon c ops : (∀ s, OAdd c s ∉ ops) → ∀ l, canonicalize_relationships l = l → foldl (apply_op c) l ops = l.
Proof.
  induction ops as [|o ops IH]; intros H l Hl; [done|]. cbn. assert (apply_op c l o = l) as ->.
  { unfold apply_op. destruct o as [c' s|c']; cbn; destruct (decide (c' = c)) as [->|]; [|done|done|done]. destruct (H s). by left. }
  apply IH; [|done]. intros s Hs. apply (H s). by right.
Qed.
Lemma closed_rels c ops : closed ops → foldl (apply_op c) [] ops = canonicalize_relationships (map implementation_of (adds c ops)).
Proof.
  intros Hc. destruct (adds c ops) as [|s ss] eqn:E.
  - rewrite only_canon; [done| |done]. intros s Hs. apply elem_of_adds in Hs. rewrite E in Hs. by apply elem_of_nil in Hs.
  - assert (Hs : OAdd c s ∈ ops) by (apply elem_of_adds; rewrite E; by left). destruct (Hc c s Hs) as (a & b & -> & Hb).
    transitivity (canonicalize_relationships (foldl (apply_op c) [] (a ++ OCanon c :: b))).
    + rewrite foldl_app. cbn [foldl]. set (x := foldl (apply_op c) [] a).
      assert (apply_op c x (OCanon c) = canonicalize_relationships x) as -> by (unfold apply_op; cbn [op_cell op_fun]; by rewrite decide_True).
      rewrite only_canon; [by rewrite canonicalize_idemp|done|by rewrite canonicalize_idemp].
    + rewrite canonicalize_ops, E. done.
Qed.
Lemma canonical_symbols ss : let l := canonicalize_relationships (map implementation_of ss) in
  ∀ r, r ∈ l ↔ r_symbol r ∈ ss ∧ r = implementation_of (r_symbol r).
Proof.
  intros l r. assert (F : ∀ s, rel_for (map implementation_of ss) s = if decide (s ∈ ss) then Some (implementation_of s) else None).
  { clear. induction ss as [|x ss IH]; intros s; cbn; [by rewrite decide_False by apply not_elem_of_nil|]. rewrite IH.
    destruct (String.eqb_spec x s) as [->|E].
    - rewrite (decide_True (P := s ∈ s :: ss)) by by left. by destruct (decide (s ∈ ss)).
    - destruct (decide (s ∈ ss)) as [H|H].
      + by rewrite decide_True by by right.
      + rewrite decide_False; [done|]. intros [?|?]%elem_of_cons; congruence. }
  split.
  - intros Hr. pose proof (rel_for_nodup l r (canonicalize_nodup _) Hr) as E. unfold l in E. rewrite canonicalize_for, F in E.
    destruct (decide (r_symbol r ∈ ss)); [|done]. injection E as E. done.
  - intros [Hs Hr]. apply (rel_for_elem l (r_symbol r)); [|apply canonicalize_nodup]. unfold l. rewrite canonicalize_for, F, decide_True by done. congruence.
Qed.

(** *** findImplementations as a list of operations *)
Section Ops.
  Context (env : tenv) (mset : ty → list obj) (constraint_ok : ty → ty → bool).
  Notation passes := (passes env mset constraint_ok).
  Definition method_ops (t : impldef) (ms : list (string * (cell * string))) : list op :=
    omap (λ nc, match d_methods t !! (nc : string * (cell * string)).1 with Some (c, _) => Some (OAdd c nc.2.2) | None => None end) ms.
  Definition iface_ops (o : orders) (pass : nat) (key : string) (t : impldef) (ki : string * impldef) : list op :=
    if passes t ki.2 then OAdd (d_sym t) (d_symbol ki.2) :: method_ops t (or_imethods o pass key ki.1 (d_methods ki.2)) else [].
  Definition type_ops (o : orders) (pass : nat) (ifaces : defs) (kt : string * impldef) : list op :=
    List.concat (map (iface_ops o pass kt.1 kt.2) (or_ifaces o pass kt.1 ifaces)) ++
    OCanon (d_sym kt.2) :: map (λ nc : string * (cell * string), OCanon nc.2.1) (or_tmethods o pass kt.1 (d_methods kt.2)).
  Definition pass_ops (o : orders) (pass : nat) (types ifaces : defs) : list op :=
    List.concat (map (type_ops o pass ifaces) (or_types o pass types)).

  Lemma foldl_run_concat {A} (f : A → list op) l : ∀ m, foldl (λ m x, foldl run_op m (f x)) m l = foldl run_op m (List.concat (map f l)).
  Proof. induction l as [|x l IH]; intros m; [done|]. cbn. by rewrite IH, foldl_app. Qed.
  Lemma find_ops o pass types ifaces m n :
    find_implementations env mset constraint_ok o pass types ifaces m n =
    (foldl run_op m (pass_ops o pass types ifaces), (n + length (or_types o pass types))%nat).
  Proof.
    unfold find_implementations, pass_ops. generalize (or_types o pass types) as l. intros l. revert m n.
    induction l as [|[key t] l IH]; intros m n; [cbn; f_equal; lia|]. cbn [foldl map List.concat]. rewrite foldl_app.
    match goal with |- foldl ?f ?x l = _ => transitivity (foldl f (foldl run_op m (type_ops o pass ifaces (key, t)), S n) l) end.
    { f_equal. cbn [fst snd]. f_equal. unfold type_ops. cbn [fst snd]. rewrite foldl_app. cbn [foldl].
      assert (E1 : ∀ l m, foldl (λ m ki, let '(ikey, i) := (ki : string * impldef) in
            if passes t i then
              foldl (λ m nc, let '(name, (_, s)) := (nc : string * (cell * string)) in
                  match d_methods t !! name with Some (c, _) => add_rel s m c | None => m end)
                (add_rel (d_symbol i) m (d_sym t)) (or_imethods o pass key ikey (d_methods i))
            else m) m l = foldl run_op m (List.concat (map (iface_ops o pass key t) l))).
      { clear. induction l as [|[ikey i] l IH]; intros m; [done|]. cbn [foldl map List.concat]. rewrite foldl_app, <- IH. f_equal.
        unfold iface_ops. cbn [fst snd]. destruct (passes t i); [|done]. cbn [foldl run_op]. unfold method_ops.
        generalize (add_rel (d_symbol i) m (d_sym t)) as m'. generalize (or_imethods o pass key ikey (d_methods i)) as ms. clear.
        induction ms as [|[name [c s]] ms IH]; intros m; [done|]. cbn [foldl omap list_omap fst snd].
        destruct (d_methods t !! name) as [[c' s']|]; [cbn [foldl run_op]|]; apply IH. }
      rewrite E1.
      assert (E2 : ∀ l m, foldl (λ m nc, canon m (nc : string * (cell * string)).2.1) m l = foldl run_op m (map (λ nc : string * (cell * string), OCanon nc.2.1) l)).
      { clear. induction l as [|x l IH]; intros m; [done|]. cbn. by rewrite IH. }
      rewrite E2. done. }
    rewrite IH. cbn. f_equal. lia.
  Qed.

  (** orders are permutations *)
  Record search_orders (o : orders) : Prop := OrdersOk {
    oo_types : ∀ n d, or_types o n d ≡ₚ map_to_list d;
    oo_ifaces : ∀ n k d, or_ifaces o n k d ≡ₚ map_to_list d;
    oo_imethods : ∀ n k k' d, or_imethods o n k k' d ≡ₚ map_to_list d;
    oo_tmethods : ∀ n k d, or_tmethods o n k d ≡ₚ map_to_list d;
    oo_collect : ∀ d, or_collect o d ≡ₚ map_to_list d;
    oo_packages : ∀ t, or_packages o t ≡ₚ map fst (map_to_list t) }.
  Lemma in_order {A} (l : list (string * A)) (d : gmap string A) k x : l ≡ₚ map_to_list d → (k, x) ∈ l ↔ d !! k = Some x.
  Proof. intros ->. apply elem_of_map_to_list. Qed.
  (** what a pass adds *)
  Definition contributes (types ifaces : defs) (c : cell) (s : string) : Prop :=
    ∃ kt t ki i, types !! kt = Some t ∧ ifaces !! ki = Some i ∧ passes t i = true ∧
      (c = d_sym t ∧ s = d_symbol i ∨ ∃ name s' c', d_methods t !! name = Some (c, s') ∧ d_methods i !! name = Some (c', s)).
  Lemma elem_of_concat' {A B} (f : A → list B) l (b : B) : b ∈ List.concat (map f l) ↔ ∃ a, a ∈ l ∧ b ∈ f a.
  Proof.
    rewrite elem_of_list_In, in_concat. split.
    - intros (x & Hx & Hb). apply in_map_iff in Hx as (a & <- & Ha). exists a. by rewrite !elem_of_list_In.
    - intros (a & Ha & Hb). rewrite elem_of_list_In in Ha. rewrite elem_of_list_In in Hb. exists (f a). split; [by apply in_map|done].
  Qed.
  Lemma pass_adds o pass types ifaces c s : search_orders o → OAdd c s ∈ pass_ops o pass types ifaces ↔ contributes types ifaces c s.
  Proof.
    intros Ho. unfold pass_ops, contributes. rewrite elem_of_concat'. split.
    - intros ([kt t] & Ht & Hop). apply (in_order _ _ _ _ (oo_types o Ho pass types)) in Ht. unfold type_ops in Hop. cbn [fst snd] in Hop.
      apply elem_of_app in Hop as [Hop|Hop].
      + apply elem_of_concat' in Hop as ([ki i] & Hi & Hop). apply (in_order _ _ _ _ (oo_ifaces o Ho pass kt ifaces)) in Hi.
        unfold iface_ops in Hop. cbn [fst snd] in Hop. destruct (passes t i) eqn:Hp; [|by apply elem_of_nil in Hop].
        exists kt, t, ki, i. split; [done|]. split; [done|]. split; [done|]. apply elem_of_cons in Hop as [E|Hop]; [left; by injection E as -> ->|right].
        unfold method_ops in Hop. apply elem_of_list_omap in Hop as ([name [c' s']] & Hm & E). cbn [fst snd] in E.
        apply (in_order _ _ _ _ (oo_imethods o Ho pass kt ki (d_methods i))) in Hm.
        destruct (d_methods t !! name) as [[c'' s'']|] eqn:En; [|done]. injection E as -> ->. exists name, s'', c'. done.
      + exfalso. apply elem_of_cons in Hop as [E|Hop]; [done|]. by apply elem_of_list_fmap in Hop as (? & ? & _).
    - intros (kt & t & ki & i & Ht & Hi & Hp & H). exists (kt, t). split; [by apply (in_order _ _ _ _ (oo_types o Ho pass types))|].
      unfold type_ops. cbn [fst snd]. apply elem_of_app. left. apply elem_of_concat'. exists (ki, i).
      split; [by apply (in_order _ _ _ _ (oo_ifaces o Ho pass kt ifaces))|]. unfold iface_ops. cbn [fst snd]. rewrite Hp.
      destruct H as [[-> ->]|(name & s' & c' & H1 & H2)]; [by left|right]. unfold method_ops. apply elem_of_list_omap.
      exists (name, (c', s)). split; [by apply (in_order _ _ _ _ (oo_imethods o Ho pass kt ki (d_methods i)))|]. cbn. by rewrite H1.
  Qed.
  Lemma pass_closed o pass types ifaces : search_orders o → closed (pass_ops o pass types ifaces).
  Proof.
    intros Ho. apply closed_concat. rewrite Forall_forall. intros ops Hops. apply elem_of_list_fmap in Hops as ([kt t] & -> & Ht).
    intros c s Hop. unfold type_ops in *. cbn [fst snd] in *.
    assert (Hc : OCanon c ∈ OCanon (d_sym t) :: map (λ nc : string * (cell * string), OCanon nc.2.1) (or_tmethods o pass kt (d_methods t))).
    { apply elem_of_app in Hop as [Hop|Hop].
      - apply elem_of_concat' in Hop as ([ki i] & Hi & Hop). unfold iface_ops in Hop. cbn [fst snd] in Hop.
        destruct (passes t i) eqn:Hp; [|by apply elem_of_nil in Hop]. apply elem_of_cons in Hop as [E|Hop]; [injection E as -> ->; by left|right].
        unfold method_ops in Hop. apply elem_of_list_omap in Hop as ([name [c' s']] & Hm & E). cbn [fst snd] in E.
        destruct (d_methods t !! name) as [[c'' s'']|] eqn:En; [|done]. injection E as -> ->.
        apply elem_of_list_fmap. exists (name, (c, s'')). split; [done|]. by apply (in_order _ _ _ _ (oo_tmethods o Ho pass kt (d_methods t))).
      - exfalso. apply elem_of_cons in Hop as [E|Hop]; [done|]. by apply elem_of_list_fmap in Hop as (? & ? & _). }
    apply elem_of_list_split in Hc as (a & b & E). exists (List.concat (map (iface_ops o pass kt t) (or_ifaces o pass kt ifaces)) ++ a), b.
    split; [by rewrite E, List.app_assoc|]. intros s' Hs'.
    assert (X : OAdd c s' ∈ OCanon (d_sym t) :: map (λ nc : string * (cell * string), OCanon nc.2.1) (or_tmethods o pass kt (d_methods t))).
    { rewrite E. apply elem_of_app. right. by right. }
    apply elem_of_cons in X as [X|X]; [done|]. by apply elem_of_list_fmap in X as (? & ? & _).
  Qed.
End Ops.
