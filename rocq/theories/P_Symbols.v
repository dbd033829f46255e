(** Proofs about internal/symbols. *)
From Coq Require Import Ascii String.
From stdpp Require Import prelude strings.
From Verif Require Import GoStr Scip GoTypes Ast Packages Symbols SpecSymbol.
Open Scope string_scope.
Open Scope list_scope.

Definition starts_with (e : ascii) (s : string) : bool :=
  match s with String c _ => Ascii.eqb c e | "" => false end.

Lemma read_until_escape e s rest :
  starts_with e rest = false →
  read_until e (escape_with e s +:+ String e rest) = Some (s, rest).
Proof.
  intros Hr. induction s as [|c s IH].
  - cbn [escape_with]. rewrite app_nil_l. cbn. rewrite Ascii.eqb_refl.
    destruct rest as [|c' r']; [done|]. cbn in Hr. by rewrite Hr.
  - cbn [escape_with]. destruct (Ascii.eqb_spec c e) as [->|Hne].
    + rewrite !app_cons. cbn. rewrite Ascii.eqb_refl. by rewrite IH.
    + rewrite !app_cons. cbn. apply Ascii.eqb_neq in Hne. rewrite Hne. by rewrite IH.
Qed.

Lemma read_simple_app s rest :
  str_forallb is_simple_char s = true →
  match rest with String c _ => is_simple_char c = false | "" => True end →
  read_simple (s +:+ rest) = (s, rest).
Proof.
  intros Hs Hr. induction s as [|c s IH].
  - rewrite app_nil_l. destruct rest as [|c r]; cbn; [done|]. by rewrite Hr.
  - cbn in Hs. apply andb_true_iff in Hs as [Hc Hs]. rewrite app_cons. cbn. rewrite Hc.
    by rewrite IH.
Qed.

Lemma suffix_head k r : ∃ c t, suffix_string k +:+ r = String c t ∧
  is_simple_char c = false ∧ c ≠ "`"%char ∧ c ≠ " "%char.
Proof. destruct k; cbn; eexists _, _; (split; [reflexivity|]); repeat split; try reflexivity; discriminate. Qed.

Lemma read_suffix_string k r : read_suffix (suffix_string k +:+ r) = Some (k, r).
Proof. by destruct k. Qed.

Lemma read_name_format n k r :
  read_name (format_name n +:+ suffix_string k +:+ r) = Some (n, suffix_string k +:+ r).
Proof.
  destruct (suffix_head k r) as (c & t & Heq & Hs & Hb & _).
  unfold format_name. destruct (str_forallb is_simple_char n) eqn:Hn.
  - assert (read_simple (n +:+ suffix_string k +:+ r) = (n, suffix_string k +:+ r)) as Hrs.
    { apply read_simple_app; [done|]. by rewrite Heq. }
    unfold read_name. destruct n as [|a n].
    + rewrite app_nil_l in *. rewrite Heq in *.
      destruct c as [[] [] [] [] [] [] [] []]; try (by rewrite Hrs). by destruct Hb.
    + rewrite app_cons in *. cbn in Hn. apply andb_true_iff in Hn as [Ha Hn].
      destruct a as [[] [] [] [] [] [] [] []]; try (by rewrite Hrs). discriminate.
  - rewrite !app_cons. unfold read_name. rewrite <-app_assoc, app_cons, app_nil_l.
    apply read_until_escape. rewrite Heq. cbn. by apply Ascii.eqb_neq.
Qed.

Lemma format_descriptors_head ds :
  match format_descriptors ds with String c _ => c ≠ " "%char | "" => True end.
Proof.
  destruct ds as [|d ds]; [done|]. cbn [format_descriptors foldr]. fold (format_descriptors ds).
  unfold format_descriptor. rewrite <-app_assoc.
  destruct (suffix_head (d_suffix d) (format_descriptors ds)) as (c & t & Heq & _ & _ & Hsp).
  unfold format_name. destruct (str_forallb is_simple_char (d_name d)) eqn:Hn.
  - destruct (d_name d) as [|a n].
    + rewrite app_nil_l, Heq. done.
    + rewrite app_cons. cbn in Hn. apply andb_true_iff in Hn as [Ha _]. by intros ->.
  - by rewrite app_cons.
Qed.

Lemma slen_format_descriptor d : slen (format_descriptor d) > 0.
Proof. unfold format_descriptor. rewrite slen_app. destruct (d_suffix d); unfold slen; cbn; lia. Qed.

Lemma read_descriptors_format ds fuel :
  slen (format_descriptors ds) ≤ fuel →
  read_descriptors fuel (format_descriptors ds) = Some ds.
Proof.
  revert fuel. induction ds as [|d ds IH]; intros fuel Hf; [by destruct fuel|].
  cbn [format_descriptors foldr] in *. fold (format_descriptors ds) in *.
  pose proof (slen_format_descriptor d). rewrite slen_app in Hf.
  destruct fuel as [|fuel]; [lia|].
  destruct (format_descriptor d +:+ format_descriptors ds) as [|c0 s0] eqn:Heq.
  { apply (f_equal slen) in Heq. rewrite slen_app in Heq. unfold slen in *; cbn in *; lia. }
  cbn [read_descriptors]. rewrite <-Heq. unfold format_descriptor. rewrite <-app_assoc.
  rewrite read_name_format, read_suffix_string, IH by lia. by destruct d.
Qed.

Lemma format_field_read s rest :
  starts_with " " rest = false →
  read_until " " (format_field s +:+ String " " rest) = Some (dot_if_empty s, rest).
Proof. intros H. unfold format_field. by apply read_until_escape. Qed.

Lemma format_field_head s t :
  no_leading_space s = true → starts_with " " (format_field s +:+ t) = false.
Proof.
  unfold format_field. destruct s as [|c s]; [done|]. cbn.
  destruct (Ascii.eqb_spec c " ") as [->|Hne]; [done|]. intros _. rewrite app_cons. cbn.
  by apply Ascii.eqb_neq.
Qed.

Lemma read_symbol_format s :
  clean_symbol s = true → read_symbol (format_symbol s) = Some (normal_symbol s).
Proof.
  unfold clean_symbol. intros H. apply andb_true_iff in H as [H H3].
  apply andb_true_iff in H as [H1 H2]. unfold read_symbol, format_symbol.
  rewrite format_field_read by (by apply format_field_head).
  rewrite format_field_read by (by apply format_field_head).
  rewrite format_field_read by (by apply format_field_head).
  rewrite format_field_read.
  2: { pose proof (format_descriptors_head (s_descriptors s)) as Hd.
       destruct (format_descriptors (s_descriptors s)); [done|]. cbn. by apply Ascii.eqb_neq. }
  rewrite read_descriptors_format by done. done.
Qed.

Lemma format_symbol_inj s1 s2 :
  clean_symbol s1 = true → clean_symbol s2 = true →
  format_symbol s1 = format_symbol s2 → normal_symbol s1 = normal_symbol s2.
Proof.
  intros H1 H2 H. apply read_symbol_format in H1, H2. rewrite H in H1. congruence.
Qed.

(** the composed symbols of a package never collide for different descriptors *)
Lemma format_symbol_inj_descs sch p ds1 ds2 :
  clean_symbol (Sym sch p []) = true →
  format_symbol (Sym sch p ds1) = format_symbol (Sym sch p ds2) → ds1 = ds2.
Proof.
  intros Hc H. apply format_symbol_inj in H; [|done|done]. by injection H.
Qed.

Lemma format_symbol_nonempty s : format_symbol s ≠ "".
Proof.
  unfold format_symbol. intros H. apply app_eq_nil in H as [_ H]. discriminate.
Qed.

(** *** Composer *)
Lemma assoc_nat_cons_eq {A} k (a : A) l : assoc_nat k ((k, a) :: l) = Some a.
Proof. cbn. by rewrite Nat.eqb_refl. Qed.

Section Composer.
  Context (env : tenv).

  Definition run_calls (c : composer) (h : list (option gpkg * option obj)) : composer :=
    foldl (λ c call, (compose env c call.1 call.2).2) c h.

  Lemma compose_memo_mono c pkg o k s :
    assoc_nat k (c_memo c) = Some s →
    assoc_nat k (c_memo (compose env c pkg o).2) = Some s.
  Proof.
    intros Hk. unfold compose. destruct o as [o|]; [|done].
    destruct (o_pkg o); [|done]. destruct (assoc_nat (o_id (origin o)) (c_memo c)) eqn:Hm; [done|].
    destruct (o_pkg (origin o)); [|done].
    destruct (describe env t0 (origin o)); [done|]. cbn.
    destruct (Nat.eqb_spec k (o_id (origin o))) as [->|]; [congruence|done].
  Qed.
  Lemma run_memo_mono c h k s :
    assoc_nat k (c_memo c) = Some s → assoc_nat k (c_memo (run_calls c h)) = Some s.
  Proof.
    revert c. induction h as [|call h IH]; intros c Hk; [done|]. cbn. apply IH.
    by apply compose_memo_mono.
  Qed.
  Lemma compose_nonempty_memo c pkg o s c' :
    compose env c pkg (Some o) = (s, c') → s ≠ "" →
    assoc_nat (o_id (origin o)) (c_memo c') = Some s ∧ o_pkg o ≠ None.
  Proof.
    unfold compose. destruct (o_pkg o); [|intros [= <- <-]; done].
    destruct (assoc_nat (o_id (origin o)) (c_memo c)) eqn:Hm; [intros [= <- <-]; done|].
    destruct (o_pkg (origin o)); [|intros [= <- <-]; done].
    destruct (describe env t0 (origin o)); [intros [= <- <-]; done|].
    intros [= <- <-] _. cbn [c_memo]. by rewrite assoc_nat_cons_eq.
  Qed.

  Lemma compose_stable c0 h1 pkg o s h2 pkg' o' :
    (compose env (run_calls c0 h1) pkg (Some o)).1 = s → s ≠ "" →
    o_id (origin o') = o_id (origin o) → o_pkg o' ≠ None →
    (compose env (run_calls c0 (h1 ++ (pkg, Some o) :: h2)) pkg' (Some o')).1 = s.
  Proof.
    intros Hs Hne Hid Hp. unfold run_calls. rewrite foldl_app. cbn [foldl].
    fold (run_calls c0 h1). set (c1 := run_calls c0 h1) in *. cbn [fst snd].
    destruct (compose env c1 pkg (Some o)) as [s' c2] eqn:Hc. cbn in Hs |- *. subst s'.
    destruct (compose_nonempty_memo _ _ _ _ _ Hc Hne) as [Hm _].
    fold (run_calls c2 h2). apply (run_memo_mono _ h2) in Hm.
    unfold compose. destruct (o_pkg o'); [|done]. by rewrite Hid, Hm.
  Qed.

  (** Fresh-composer equality *)
  Definition fresh_answer c pkg o :=
    (compose env (new_composer (c_default_path c) (c_default_version c)) pkg o).1.

  Lemma run_defaults c h :
    c_default_path (run_calls c h) = c_default_path c ∧
    c_default_version (run_calls c h) = c_default_version c.
  Proof.
    revert c. induction h as [|call h IH]; intros c; [done|].
    change (run_calls c (call :: h)) with (run_calls (compose env c call.1 call.2).2 h).
    destruct (IH (compose env c call.1 call.2).2) as [-> ->].
    unfold compose. destruct call.2 as [o|]; [|done]. destruct (o_pkg o); [|done].
    destruct (assoc_nat _ _); [done|]. destruct (o_pkg (origin o)); [|done].
    by destruct (describe env _ _).
  Qed.

  (** every memo entry is what a fresh composer answers for its object *)
  Definition memo_ok (objs : nat → option obj) (pkg_of : nat → option gpkg) (c : composer) :=
    ∀ k s, assoc_nat k (c_memo c) = Some s →
      ∃ o tp ds, objs k = Some o ∧ o_pkg o = Some tp ∧ describe env tp o = ds ∧ ds ≠ [] ∧
        s = format_symbol (Sym "scip-go" (pack c (pkg_of k)) ds).

  (** a call is consistent with the tables: pointer -> object, pointer -> package *)
  Definition call_ok (objs : nat → option obj) (pkg_of : nat → option gpkg)
      (call : option gpkg * option obj) : Prop :=
    ∀ o, call.2 = Some o →
      objs (o_id (origin o)) = Some (origin o) ∧ call.1 = pkg_of (o_id (origin o)).

  Lemma pack_eq c c' p : c_default_path c = c_default_path c' →
    c_default_version c = c_default_version c' → pack c p = pack c' p.
  Proof. unfold pack. intros -> ->. done. Qed.

  Lemma memo_ok_step objs pkg_of c call :
    memo_ok objs pkg_of c → call_ok objs pkg_of call →
    memo_ok objs pkg_of (compose env c call.1 call.2).2.
  Proof.
    destruct call as [pkg [o|]]; [|done]. intros Hm Hc. cbn.
    destruct (Hc o eq_refl) as [Ho Hp]. cbn in Hp.
    unfold compose. destruct (o_pkg o); [|done].
    destruct (assoc_nat (o_id (origin o)) (c_memo c)) eqn:Ha; [done|].
    destruct (o_pkg (origin o)) as [tp|] eqn:Hpk; [|done].
    destruct (describe env tp (origin o)) as [|d ds] eqn:Hd; [done|].
    intros k s. cbn [c_memo snd assoc_nat]. destruct (Nat.eqb_spec k (o_id (origin o))) as [->|Hne].
    - intros [= <-]. exists (origin o), tp, (d :: ds). repeat split; try done. by rewrite <-Hp.
    - intros Hk. destruct (Hm k s Hk) as (o' & tp' & ds' & H1 & H2 & H3 & H4 & H5).
      by exists o', tp', ds'.
  Qed.

  Lemma memo_ok_run objs pkg_of c h :
    memo_ok objs pkg_of c → Forall (call_ok objs pkg_of) h → memo_ok objs pkg_of (run_calls c h).
  Proof.
    intros Hm Hh. revert c Hm. induction Hh as [|call h Hc Hh IH]; intros c Hm; [done|].
    cbn. apply IH. by apply memo_ok_step.
  Qed.

  Lemma compose_fresh objs pkg_of path version h pkg o :
    Forall (call_ok objs pkg_of) (h ++ [(pkg, o)]) →
    (compose env (run_calls (new_composer path version) h) pkg o).1 =
    (compose env (new_composer path version) pkg o).1.
  Proof.
    intros Hall. apply Forall_app in Hall as [Hh Hc]. apply Forall_cons in Hc as [Hc _].
    set (c := run_calls (new_composer path version) h).
    assert (memo_ok objs pkg_of c) as Hm.
    { apply memo_ok_run; [|done]. by intros k s. }
    destruct (run_defaults (new_composer path version) h) as [Hd1 Hd2]. fold c in Hd1, Hd2.
    destruct o as [o|]; [|done]. destruct (Hc o eq_refl) as [Ho Hp]. cbn in Hp.
    unfold compose at 1 2. destruct (o_pkg o); [|done]. cbn [c_memo new_composer assoc_nat].
    destruct (assoc_nat (o_id (origin o)) (c_memo c)) as [s|] eqn:Ha.
    - destruct (Hm _ _ Ha) as (o' & tp & ds & H1 & H2 & H3 & H4 & H5).
      assert (o' = origin o) as -> by congruence. rewrite H2, H3. cbn.
      destruct ds as [|d ds]; [done|]. cbn. rewrite H5, Hp. by rewrite (pack_eq c (new_composer path version)).
    - destruct (o_pkg (origin o)); [|done]. destruct (describe env t0 (origin o)); [done|].
      cbn. by rewrite (pack_eq c (new_composer path version)).
  Qed.
End Composer.

(** *** Compose succeeds exactly on nameable objects *)
Lemma name_type_base t : name_type t ≠ "" ↔ ∃ tn, base_named t tn ∧ tn_name tn ≠ "".
Proof.
  split.
  - induction t; cbn; try done.
    + intros H. exists tn. split; [constructor|done].
    + intros H. destruct (IHt H) as (n & Hb & Hn). exists n. split; [by constructor|done].
    + intros H. destruct (IHt H) as (n & Hb & Hn). exists n. split; [by constructor|done].
  - intros (tn & Hb & Hn). induction Hb; cbn; auto.
Qed.
Lemma name_type_of_base t tn : base_named t tn → name_type t = tn_name tn.
Proof. induction 1; cbn; auto. Qed.

Lemma owns_field_spec env fid e : owns_field env fid e = true ↔ direct_field_of env e fid.
Proof.
  unfold owns_field, direct_field_of. split.
  - destruct (se_is_typename e); [|done]. destruct (se_typ e) eqn:Ht; try done.
    destruct (env tn targs) eqn:He; try done. intros H. apply existsb_exists in H as (f & Hf & Hi).
    split; [done|]. exists tn, targs, fields. repeat split; [done|].
    exists f. split; [by apply elem_of_list_In|]. by apply Nat.eqb_eq.
  - intros (-> & tn & args & fs & -> & -> & f & Hf & Hi). apply existsb_exists.
    exists f. split; [by apply elem_of_list_In|]. by apply Nat.eqb_eq.
Qed.
Lemma locate_owner_spec env sc fid :
  locate_owner env sc fid ≠ None ↔ ∃ e, e ∈ sc ∧ direct_field_of env e fid.
Proof.
  unfold locate_owner. split.
  - destruct (List.find (owns_field env fid) sc) as [e|] eqn:Hf; [|done]. intros _.
    apply List.find_some in Hf as [Hin Ho]. exists e.
    split; [by apply elem_of_list_In|]. by apply owns_field_spec.
  - intros (e & Hin & Hd). destruct (List.find (owns_field env fid) sc) eqn:Hf; [done|].
    apply elem_of_list_In in Hin. apply (List.find_none _ _ Hf) in Hin.
    apply owns_field_spec in Hd. congruence.
Qed.

Lemma describe_nil env tp o :
  o_pkg o = Some tp → (describe env tp o = [] ↔ ¬ nameable env o).
Proof.
  intros Hp. unfold describe, nameable. destruct (o_kind o) as [p| | |f|[[r|]|]| | |] eqn:Hk;
    try (split; [done|tauto]); try (split; [tauto|done]).
  - (* var *) destruct f; [|split; [done|tauto]].
    destruct (locate_owner env (tp_scope tp) (o_id o)) eqn:Hl.
    + split; [done|]. intros H. exfalso. apply H.
      assert (locate_owner env (tp_scope tp) (o_id o) ≠ None) as Hn by congruence.
      apply locate_owner_spec in Hn as (e & ? & ?). by exists tp, e.
    + split; [|done]. intros _ (tp' & e & Hp' & He & Hd). assert (tp' = tp) as -> by congruence.
      assert (locate_owner env (tp_scope tp) (o_id o) ≠ None); [|done].
      apply locate_owner_spec. by exists e.
  - (* method *) destruct (String.eqb_spec (name_type r) "") as [He|Hne].
    + split; [|done]. intros _ Hx. apply name_type_base in Hx. done.
    + split; [done|]. intros H. exfalso. apply H. by apply name_type_base.
Qed.

Lemma describe_namespace env tp o ds :
  (∀ p, o_kind o ≠ OPkgName p) → describe env tp o = ds → ds ≠ [] →
  ∃ d ds', ds = Desc (tp_path tp) Namespace :: d :: ds'.
Proof.
  intros Hp <-. unfold describe. destruct (o_kind o) as [p| | |f|[[r|]|]| | |]; try done.
  - by destruct (Hp p).
  - intros _; by eexists _, _.
  - intros _; by eexists _, _.
  - destruct f.
    + destruct (locate_owner _ _ _); [|done]. intros _; by eexists _, _.
    + intros _; by eexists _, _.
  - destruct (String.eqb _ _); [done|]. intros _; by eexists _, _.
  - intros _; by eexists _, _.
Qed.

(** *** Ranges *)
Lemma int32_id x : (- 2^31 <= x < 2^31)%Z → int32 x = x.
Proof. intros H. unfold int32. rewrite Z.mod_small; lia. Qed.

(** *** closing lemmas for the property file *)
Lemma compose_some env c pkg o tp :
  o_pkg o = Some tp → o_pkg (origin o) = Some tp →
  assoc_nat (o_id (origin o)) (c_memo c) = None →
  nameable env (origin o) →
  (compose env c pkg (Some o)).1 =
    format_symbol (Sym "scip-go" (pack c pkg) (describe env tp (origin o))).
Proof.
  intros H1 H2 H3 H4. unfold compose. rewrite H1, H3, H2.
  destruct (describe env tp (origin o)) eqn:Hd; [|done].
  exfalso. by apply (describe_nil env tp (origin o) H2).
Qed.

Lemma compose_exact env path version pkg o tp :
  o_pkg o = Some tp → o_pkg (origin o) = Some tp →
  ((compose env (new_composer path version) pkg (Some o)).1 = "" ↔ ¬ nameable env (origin o)).
Proof.
  intros H1 H2. rewrite <-(describe_nil env tp (origin o) H2).
  unfold compose. rewrite H1, H2. cbn [c_memo new_composer assoc_nat].
  destruct (describe env tp (origin o)); [done|]. cbn [fst]. split; [|done].
  intros H. by destruct (format_symbol_nonempty _ H).
Qed.

Lemma compose_namespaced env c pkg o tp :
  o_pkg o = Some tp → o_pkg (origin o) = Some tp →
  c_memo c = [] → nameable env (origin o) → (∀ p, o_kind (origin o) ≠ OPkgName p) →
  ∃ d ds, (compose env c pkg (Some o)).1 =
    format_symbol (Sym "scip-go" (pack c pkg) (Desc (tp_path tp) Namespace :: d :: ds)).
Proof.
  intros H1 H2 H3 H4 H5. rewrite (compose_some env c pkg o tp); [|done|done|by rewrite H3|done].
  destruct (describe_namespace env tp (origin o) _ H5 eq_refl) as (d & ds & ->).
  { intros Hn. by apply (describe_nil env tp (origin o) H2) in Hn. }
  by exists d, ds.
Qed.

Lemma compose_instance env c pkg o g :
  o_origin o = Some g → (∃ f, o_kind o = OVar f) ∨ (∃ s, o_kind o = OFunc s) →
  o_origin g = None → o_pkg o ≠ None → o_pkg g ≠ None →
  compose env c pkg (Some o) = compose env c pkg (Some g).
Proof.
  intros Hg Hk Hgg Hp Hpg.
  assert (origin o = g) as Ho.
  { unfold origin. rewrite Hg. by destruct Hk as [[? ->]|[? ->]]. }
  assert (origin g = g) as Hog.
  { unfold origin. rewrite Hgg. by destruct (o_kind g). }
  unfold compose. rewrite Ho, Hog. destruct (o_pkg o); [|done]. by destruct (o_pkg g).
Qed.

Lemma compose_receiver env path version pkg m1 m2 tp1 tp2 r1 r2 tn :
  o_origin m1 = None → o_origin m2 = None →
  o_pkg m1 = Some tp1 → o_pkg m2 = Some tp2 → tp_path tp1 = tp_path tp2 →
  o_name m1 = o_name m2 →
  o_kind m1 = OFunc (Some (Some r1)) → o_kind m2 = OFunc (Some (Some r2)) →
  base_named r1 tn → base_named r2 tn →
  (compose env (new_composer path version) pkg (Some m1)).1 =
  (compose env (new_composer path version) pkg (Some m2)).1.
Proof.
  intros Ho1 Ho2 Hp1 Hp2 Hpath Hname Hk1 Hk2 Hb1 Hb2.
  assert (origin m1 = m1) as Hm1 by (unfold origin; by rewrite Hk1, Ho1).
  assert (origin m2 = m2) as Hm2 by (unfold origin; by rewrite Hk2, Ho2).
  unfold compose. rewrite Hm1, Hm2, Hp1, Hp2. cbn [c_memo new_composer assoc_nat].
  unfold describe. rewrite Hk1, Hk2, (name_type_of_base _ _ Hb1), (name_type_of_base _ _ Hb2).
  rewrite Hpath, Hname. by destruct (String.eqb (tn_name tn) "").
Qed.

Lemma kind_exact env o :
  env_wf env →
  (∀ x, o = Some x → o_kind x = OTypeName → is_alias x = false →
        (∃ tn args, o_type x = TNamed tn args) ∨ (∃ k al, o_type x = TBasic k al)) →
  kind_spec env o (kind_for_object env o).
Proof.
  intros He Hty. destruct o as [o|]; [|constructor]. cbn.
  destruct (o_kind o) as [p| | |f|[[r|]|]| | |] eqn:Hk.
  - by apply (ks_pkg _ _ p).
  - by apply ks_const.
  - destruct (is_alias o) eqn:Ha; [by apply ks_alias|].
    destruct (Hty o eq_refl Hk Ha) as [(tn & args & Ht)|(k & al & Ht)]; rewrite Ht; cbn.
    + destruct (env tn args) eqn:Hu;
        try (by apply (ks_type _ _ tn args); try done; intros; congruence).
      * by eapply ks_struct.
      * by eapply ks_iface.
      * specialize (He tn args). by rewrite Hu in He.
    + by eapply ks_basic.
  - destruct f; [by apply ks_field|by apply ks_var].
  - unfold is_interface. destruct (underlying env r) eqn:Hu;
      try (by apply (ks_method _ _ r); try done; intros; congruence).
    by eapply ks_imethod.
  - apply ks_func; by left.
  - apply ks_func; by right.
  - apply ks_other; by left.
  - apply ks_other; by right; left.
  - apply ks_other; by right; right.
Qed.

Lemma kind_tparam env o tn i :
  o_kind o = OTypeName → o_type o = TTypeParam tn i → tn_id tn = o_id o →
  kind_for_object env (Some o) = KInterface.
Proof.
  intros Hk Ht Hi. cbn. rewrite Hk. unfold is_alias. rewrite Ht, Hi, Nat.eqb_refl. done.
Qed.
