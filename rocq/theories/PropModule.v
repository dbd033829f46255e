(** C25 (module versions), C28 (standard library and driver overrides). *)
From Coq Require Import Ascii String.
From stdpp Require Import prelude strings gmap.
From Verif Require Import GoStr Scip GoTypes Ast Packages Symbols Regex Semver SpecSemver P_Semver
  Paths P_Paths PropPaths Loader.
Open Scope string_scope.
Open Scope list_scope.

(** ------------------------------------------------------------------ *)
(** Specification.  [normalised v v']: the version text [v] is shown as [v']. *)
Definition is_semver (v : string) : Prop := ∃ pre b, semver_text v pre b.
Definition is_pseudo (v : string) : Prop := is_semver v ∧ ∃ rev, pseudo_text v rev.
Definition has_build (v : string) : Prop := ∃ pre b, semver_text v pre b ∧ b ≠ "".
Inductive normalised : string → string → Prop :=
| N_pseudo v rev : is_semver v → pseudo_text v rev → normalised v rev
| N_build v v' pre b :
    ¬ is_pseudo v → semver_text v pre b → b ≠ "" → v = v' +:+ b → normalised v v'
| N_keep v : v ≠ "" → ¬ is_pseudo v → ¬ has_build v → normalised v v.

(** a package of an ordinary dependency: no driver, not the standard library *)
Definition ordinary (o : index_opts) (p : gpkg) (m : gmodule) : Prop :=
  io_driver_set o = false ∧ io_indexing_stdlib o = false ∧
  p_module p = Some m ∧ m_path m ≠ "std".

(** the package of module [m], everything else unchanged *)
Definition in_module (p : gpkg) (m : gmodule) : gpkg :=
  GPkg (p_ptr p) (p_path p) (p_name p) (Some m) (p_imports p) (p_syntax p) (p_types p) (p_info p).

(** ------------------------------------------------------------------ *)
Lemma is_pseudo_iff v : is_pseudo_version v = true ↔ is_pseudo v.
Proof. apply is_pseudo_version_spec. Qed.
Lemma has_build_iff v : semver_build v ≠ "" ↔ has_build v.
Proof.
  pose proof (semver_build_spec v (semver_build v)) as [H _]. specialize (H eq_refl).
  destruct H as [(pre & H)|[H1 H2]]; unfold has_build.
  - split; [eauto|]. intros (pre' & b' & H' & Hne).
    by destruct (semver_text_unique _ _ _ _ _ H H') as [_ ->].
  - split; [done|]. intros (pre' & b' & H' & Hne). exfalso. apply H2. eauto.
Qed.

Lemma normalize_version_spec o w m :
  m_version m ≠ "" →
  ∃ v', normalised (m_version m) v' ∧ normalize_version o w m = with_version m v'.
Proof.
  intros Hne. unfold normalize_version. destruct (String.eqb_spec (m_version m) ""); [done|].
  destruct (is_pseudo_version (m_version m)) eqn:Hp.
  - destruct (pseudo_version_rev (m_version m)) as [rev|] eqn:Hr.
    + exists rev. split; [|done]. apply pseudo_version_rev_spec in Hr as [H1 H2]. by constructor.
    + exfalso. apply is_pseudo_iff in Hp as [H1 [rev H2]].
      assert (pseudo_version_rev (m_version m) = Some rev) by by apply pseudo_version_rev_spec.
      congruence.
  - assert (¬ is_pseudo (m_version m)) as Hnp by (rewrite <-is_pseudo_iff; congruence).
    destruct (String.eqb_spec (semver_build (m_version m)) "") as [Hb|Hb]; cbn [negb].
    + exists (m_version m). split; [|by destruct m]. apply N_keep; [done|done|].
      rewrite <-has_build_iff. by intros ?.
    + pose proof Hb as (pre & b & Hsv & Hbne)%has_build_iff.
      assert (semver_build (m_version m) = b) as HE by (apply semver_build_spec; eauto).
      destruct (semver_noplus _ _ _ Hsv) as (core & Hcore & _).
      exists core. rewrite HE. split; [by eapply N_build|].
      rewrite Hcore. by rewrite trim_suffix_app.
Qed.

(** [normalised] is a function: there is only one way to show a version. *)
Lemma pseudo_text_unique v r r' : is_semver v → pseudo_text v r → pseudo_text v r' → r = r'.
Proof.
  intros H H1 H2.
  assert (pseudo_version_rev v = Some r) by by apply pseudo_version_rev_spec.
  assert (pseudo_version_rev v = Some r') by by apply pseudo_version_rev_spec.
  congruence.
Qed.
Theorem normalised_functional v a b : normalised v a → normalised v b → a = b.
Proof.
  intros H1 H2. destruct H1 as [v r Hs Hp|v v' pre b' Hn Hs Hb Hv|v Hne Hn Hb];
    inversion H2 as [? r2 Hs2 Hp2|? v2 pre2 b2 Hn2 Hs2 Hb2 Hv2|? Hne2 Hn2 Hb2]; subst.
  - by eapply pseudo_text_unique.
  - exfalso. apply Hn2. split; [done|eauto].
  - exfalso. apply Hn2. split; [done|eauto].
  - exfalso. apply Hn. split; [done|eauto].
  - destruct (semver_text_unique _ _ _ _ _ Hs Hs2) as [_ <-]. by eapply app_inj_r.
  - exfalso. apply Hb2. exists pre, b'. done.
  - exfalso. apply Hn. split; [done|eauto].
  - exfalso. apply Hb. exists pre2, b2. done.
  - done.
Qed.
Lemma normalised_ne v v' : normalised v v' → v' ≠ "".
Proof.
  intros [v0 rev _ (mj & mid & ts & b & _ & _ & _ & _ & [H _] & _)|v0 v0' pre b _ Hs Hb Hv|v0 Hne _ _]; try done.
  intros ->. rewrite app_nil_l in Hv. subst.
  apply semver_text_build in Hs as Hbm. destruct Hbm as [->|(q & -> & _)]; [done|].
  assert (∀ v pre b, semver_text v pre b → ∃ r, v = String "v" r) as Hv.
  { intros ??? []; by eexists. }
  apply Hv in Hs as [r Hr]. discriminate.
Qed.
(** normalising a normalised version changes nothing *)
Lemma normalised_settled v v' : normalised v v' → normalised v' v'.
Proof.
  intros H. pose proof (normalised_ne _ _ H) as Hne.
  assert (∀ u, noplus u → ¬ has_build u) as Hnb.
  { intros u Hu (pre & b & Hs & Hb). destruct (semver_noplus _ _ _ Hs) as (core & -> & _).
    apply noplus_app in Hu as [_ Hu].
    destruct (semver_text_build _ _ _ Hs) as [->|(q & -> & _)]; [done|].
    done. }
  destruct H as [v rev Hs Hp|v v' pre b Hn Hs Hb Hv|v _ Hn Hb]; [| |by apply N_keep].
  - destruct Hp as (mj & mid & ts & b & _ & _ & _ & _ & [_ Hal] & _).
    apply N_keep; [done| |apply Hnb; by apply noplus_alnum].
    intros [_ [r2 (mj2 & mid2 & ts2 & b2 & -> & _)]].
    assert (str_forallb is_alnum "." = true) as Hd; [|vm_compute in Hd; done].
    change ("v" +:+ mj2 +:+ "." +:+ mid2 +:+ ts2 +:+ "-" +:+ r2 +:+ b2)
      with ("v" +:+ (mj2 +:+ ("." +:+ (mid2 +:+ ts2 +:+ "-" +:+ r2 +:+ b2)))) in Hal.
    rewrite !str_forallb_app in Hal. rewrite !andb_true_iff in Hal. tauto.
  - destruct (semver_noplus _ _ _ Hs) as (core & Hcore & Hnp).
    assert (core = v') as -> by (rewrite Hv in Hcore; symmetry; by eapply app_inj_r).
    apply N_keep; [done| |by apply Hnb].
    intros [_ [rev (mj2 & mid2 & ts2 & b2 & Hv2 & Hmj & Hmid & Hts & Hrev & Hbm)]].
    apply Hn. split; [by exists pre, b|]. exists rev, mj2, mid2, ts2, b.
    split; [|repeat (split; [done|]); by eapply semver_text_build].
    assert (b2 = "") as ->.
    { destruct Hbm as [->|(q & -> & _)]; [done|]. exfalso. rewrite Hv2 in Hnp.
      rewrite !noplus_app in Hnp. destruct Hnp as (_ & _ & _ & _ & _ & _ & _ & H & _). done. }
    rewrite Hv, Hv2. rewrite !app_nil_r. by rewrite <-!app_assoc.
Qed.

(** ------------------------------------------------------------------ *)
(** C25 *)
Lemma normalize_ordinary o w p m :
  ordinary o p m →
  normalize_package o w p =
    (let! m1 := resolve_local w (follow_replace o m) in
     Ok (in_module p (normalize_version o w (default_path m1)))).
Proof.
  intros (Hd & Hi & Hm & Hs). unfold normalize_package. rewrite Hd, Hi, orb_false_r.
  unfold is_standard_lib. rewrite Hm. destruct (String.eqb_spec (m_path m) "std"); [done|].
  rewrite Hm. by destruct (resolve_local _ _).
Qed.

(** After a successful normalisation the module path and version are not empty. *)
Theorem C25_path_and_version_nonempty o w p p' :
  io_module_version o ≠ "" →
  normalize_package o w p = Ok p' →
  ∃ m, p_module p' = Some m ∧ m_path m ≠ "" ∧ m_version m ≠ "".
Proof.
  intros Hov. unfold normalize_package. destruct (io_driver_set o).
  { intros [= <-]. eexists. split; [done|]. cbn.
    destruct (String.eqb_spec (io_module_path o) ""); destruct (String.eqb_spec (io_module_version o) ""); done. }
  cbn zeta. set (p1 := if (_ || _)%bool then _ else p). generalize p1. clear p1. intros p1. destruct (p_module p1) as [m|]; [|done].
  destruct (resolve_local _ _) as [m1|]; [|done]. cbn. intros [= <-].
  eexists. split; [done|].
  assert (m_path (default_path m1) ≠ "") as Hp.
  { unfold default_path. by destruct (String.eqb_spec (m_path m1) ""). }
  destruct (decide (m_version (default_path m1) = "")) as [Hv|Hv].
  - unfold normalize_version. rewrite Hv. cbn [String.eqb]. destruct (_ || _)%bool; (split; cbn; [exact Hp|done]).
  - destruct (normalize_version_spec o w _ Hv) as (v' & Hn & ->). split; [done|].
    by apply normalised_ne in Hn.
Qed.

(** A module with an ordinary path keeps its path and everything else; its version is
    shown as [normalised] says. *)
Theorem C25_known_version o w p m :
  ordinary o p m → m_replace m = None → has_prefix (m_path m) "." = false → m_path m ≠ "" →
  m_version m ≠ "" →
  ∃ v', normalised (m_version m) v' ∧
    normalize_package o w p =
      Ok (in_module p (GMod (m_path m) v' (m_dir m) (m_gomod m) None)).
Proof.
  intros Ho Hr Hp Hpe Hv. rewrite (normalize_ordinary o w p m) by done.
  unfold follow_replace. rewrite Hr. unfold resolve_local. rewrite Hp. cbn [andb res_bind].
  unfold default_path. destruct (String.eqb_spec (m_path m) ""); [done|].
  destruct (normalize_version_spec o w m Hv) as (v' & Hn & ->). exists v'. split; [done|].
  unfold with_version. by rewrite Hr.
Qed.
(** An unknown version: the indexed module's version for siblings (one directory
    inside the other, or the same repository), "." otherwise. *)
Definition nested (a b : string) : Prop :=
  ∃ da db, Forall name_ok da ∧ Forall name_ok db ∧ a = abs_path da ∧ b = abs_path db ∧
    ((∃ s, db = da ++ s) ∨ (∃ s, da = db ++ s)).
Definition same_repository (w : world) (a b : string) : Prop :=
  a = b ∨ ∃ r, w_repo_root w a = Some r ∧ w_repo_root w b = Some r.
Definition abs_or_empty (d : string) : Prop := d = "" ∨ ∃ l, Forall name_ok l ∧ d = abs_path l.

Lemma nested_spec a b :
  abs_or_empty a → abs_or_empty b → is_nested_dir a b = true ↔ nested a b.
Proof.
  intros Ha Hb. destruct Ha as [->|(la & Hla & ->)].
  { split; [done|]. intros (da & db & _ & _ & H & _). discriminate. }
  destruct Hb as [->|(lb & Hlb & ->)].
  { unfold is_nested_dir. replace (String.eqb "" "") with true by done. rewrite orb_true_r.
    split; [done|]. intros (da & db & _ & _ & _ & H & _). discriminate. }
  change abs_path with R. rewrite is_nested_dir_R by by apply name_proper.
  unfold nested, below. change abs_path with R. split.
  - intros H. exists la, lb. done.
  - intros (da & db & Hda & Hdb & H1 & H2 & H).
    apply R_inj in H1; [|by apply proper_ok, name_proper|by apply proper_ok, name_proper].
    apply R_inj in H2; [|by apply proper_ok, name_proper|by apply proper_ok, name_proper].
    by subst.
Qed.
Lemma same_repository_spec w a b : has_same_repo_root w a b = true ↔ same_repository w a b.
Proof.
  unfold has_same_repo_root, same_repository. destruct (String.eqb_spec a b) as [->|Hne].
  - split; [by left|done].
  - split.
    + destruct (w_repo_root w a) as [ra|]; [|done]. destruct (w_repo_root w b) as [rb|]; [|done].
      intros ->%String.eqb_eq. right. eauto.
    + intros [?|(r & -> & ->)]; [done|]. apply String.eqb_refl.
Qed.

Theorem C25_unknown_version o w p m :
  ordinary o p m → m_replace m = None → has_prefix (m_path m) "." = false → m_path m ≠ "" →
  m_version m = "" →
  abs_or_empty (m_dir m) → abs_or_empty (io_module_root o) →
  ∃ v', normalize_package o w p =
          Ok (in_module p (GMod (m_path m) v' (m_dir m) (m_gomod m) None)) ∧
    ((nested (m_dir m) (io_module_root o) ∨ same_repository w (m_path m) (io_module_path o))
       → v' = io_module_version o) ∧
    (¬ (nested (m_dir m) (io_module_root o) ∨ same_repository w (m_path m) (io_module_path o))
       → v' = ".").
Proof.
  intros Ho Hr Hp Hpe Hv Hd Hroot. rewrite (normalize_ordinary o w p m) by done.
  unfold follow_replace. rewrite Hr. unfold resolve_local. rewrite Hp. cbn [andb res_bind].
  unfold default_path. destruct (String.eqb_spec (m_path m) ""); [done|].
  unfold normalize_version. rewrite Hv. cbn [String.eqb].
  pose proof (nested_spec _ _ Hd Hroot) as Hn.
  pose proof (same_repository_spec w (m_path m) (io_module_path o)) as Hs.
  destruct (is_nested_dir _ _), (has_same_repo_root _ _ _); cbn [orb]; eexists;
    (split; [unfold with_version; by rewrite Hr|]); (split; intros Hc;
      [try reflexivity; exfalso; destruct Hc as [Hc%Hn|Hc%Hs]; discriminate
      |try reflexivity; exfalso; apply Hc; first [left; by apply Hn|right; by apply Hs]]).
Qed.

(** A replaced module: as if the replacement had been required, with the indexed
    module's version when the replacement has none. *)
Theorem C25_replacement o w p m r :
  ordinary o p m → m_replace m = Some r → m_replace r = None → m_path r ≠ "std" →
  normalize_package o w p =
  normalize_package o w (in_module p
    (GMod (m_path r) (if decide (m_version r = "") then io_module_version o else m_version r)
          (m_dir r) (m_gomod r) None)).
Proof.
  intros Ho Hr Hrr Hrp. rewrite (normalize_ordinary o w p m) by done.
  destruct Ho as (H1 & H2 & H3 & H4).
  set (m' := GMod (m_path r) (if decide (m_version r = "") then io_module_version o else m_version r)
          (m_dir r) (m_gomod r) None).
  rewrite (normalize_ordinary o w (in_module p m') m') by by repeat split.
  unfold follow_replace at 1. rewrite Hr.
  assert ((if String.eqb (m_version r) "" then with_version r (io_module_version o) else r) = m') as ->.
  { unfold m'. destruct (String.eqb_spec (m_version r) "") as [E|E]; destruct (decide (m_version r = "")); try done.
    - unfold with_version. by rewrite Hrr.
    - destruct r; cbn in *; by subst. }
  done.
Qed.
(** A local replacement ("./x", "../x"): the module is the one its go.mod declares. *)
Theorem C25_local_module o w p m path :
  ordinary o p m → m_replace m = None → has_prefix (m_path m) "." = true →
  m_gomod m ≠ "" → w_gomod w (m_gomod m) = GoModModule path "" → path ≠ "" →
  m_version m ≠ "" →
  ∃ v', normalised (m_version m) v' ∧
    normalize_package o w p = Ok (in_module p (GMod path v' (m_dir m) (m_gomod m) None)).
Proof.
  intros Ho Hr Hp Hg Hw Hpe Hv. rewrite (normalize_ordinary o w p m) by done.
  unfold follow_replace. rewrite Hr. unfold resolve_local. rewrite Hp.
  destruct (String.eqb_spec (m_gomod m) ""); [done|]. cbn [andb negb res_bind]. rewrite Hw.
  cbn [String.eqb res_bind]. unfold default_path. cbn [with_mpath m_path].
  destruct (String.eqb_spec path ""); [done|].
  destruct (normalize_version_spec o w (with_mpath m path) Hv) as (v' & Hn & ->).
  exists v'. split; [done|]. unfold with_version, with_mpath. cbn. by rewrite Hr.
Qed.

(** Normalising again changes nothing, provided the versions given on the command
    line are themselves in normal form. *)
Definition settled (v : string) : Prop := v = "" ∨ normalised v v.
Lemma normalize_version_settled o w m :
  normalised (m_version m) (m_version m) → normalize_version o w m = m.
Proof.
  intros Hn. assert (m_version m ≠ "") as Hne by by apply normalised_ne in Hn.
  destruct (normalize_version_spec o w m Hne) as (v' & Hn' & ->).
  rewrite <-(normalised_functional _ _ _ Hn Hn'). by destruct m.
Qed.
Lemma normalize_version_result o w m :
  settled (io_module_version o) → io_module_version o ≠ "" →
  normalised (m_version (normalize_version o w m)) (m_version (normalize_version o w m)).
Proof.
  intros Hs Hne. destruct (decide (m_version m = "")) as [Hv|Hv].
  - unfold normalize_version. rewrite Hv. cbn [String.eqb]. destruct (_ || _)%bool; cbn.
    + by destruct Hs.
    + apply N_keep; [done| |].
      * rewrite <-is_pseudo_iff. vm_compute. done.
      * rewrite <-has_build_iff. vm_compute. tauto.
  - destruct (normalize_version_spec o w m Hv) as (v' & Hn & ->). cbn. by eapply normalised_settled.
Qed.

Theorem C25_idempotent o w p p' :
  io_module_version o ≠ "" → settled (io_module_version o) →
  normalize_package o w p = Ok p' →
  (* the result is not itself a standard-library or replaced or unresolved local module *)
  (∀ m, p_module p' = Some m →
     m_replace m = None ∧ m_path m ≠ "std" ∧
     (has_prefix (m_path m) "." = true → m_gomod m ≠ "" → w_gomod w (m_gomod m) = GoModUnreadable)) →
  has_prefix (p_path p') "std/" = false →
  normalize_package o w p' = Ok p'.
Proof.
  intros Hne Hset Hn Hm Hstd. unfold normalize_package in Hn.
  destruct (io_driver_set o) eqn:Hd.
  { injection Hn as <-. unfold normalize_package. by rewrite Hd. }
  set (p1 := if (_ || _)%bool then _ else p) in Hn.
  destruct (p_module p1) as [m0|] eqn:Hm0; [|done].
  destruct (resolve_local w (follow_replace o m0)) as [m1|] eqn:Hm1; [|done]. cbn in Hn.
  injection Hn as <-. set (m := normalize_version o w (default_path m1)) in *.
  destruct (Hm m eq_refl) as (Hmr & Hms & Hml).
  assert (normalised (m_version m) (m_version m)) as Hnv by by apply normalize_version_result.
  assert (m_path m ≠ "") as Hmp.
  { assert (m_path m = m_path (default_path m1)) as ->.
    { unfold m, normalize_version. repeat case_match; done. }
    unfold default_path. by destruct (String.eqb_spec (m_path m1) ""). }
  assert (∀ q mm, resolve_local w mm = Ok mm → m_replace mm = None → m_path mm ≠ "" →
    normalised (m_version mm) (m_version mm) →
    (let! m2 := resolve_local w (follow_replace o mm) in
     Ok (with_module q (normalize_version o w (default_path m2)))) = Ok (with_module q mm)) as Hcore.
  { intros q mm H1 H2 H3 H4. unfold follow_replace. rewrite H2, H1. cbn [res_bind].
    unfold default_path. destruct (String.eqb_spec (m_path mm) ""); [done|].
    by rewrite normalize_version_settled. }
  assert (resolve_local w m = Ok m) as Hrl.
  { unfold resolve_local. destruct (has_prefix (m_path m) ".") eqn:Hpre; [|done].
    destruct (String.eqb_spec (m_gomod m) ""); [done|]. cbn. by rewrite Hml. }
  unfold normalize_package. rewrite Hd.
  assert (is_standard_lib (with_module p1 m) = false) as ->.
  { unfold is_standard_lib. cbn. by destruct (String.eqb_spec (m_path m) "std"). }
  cbn [orb]. destruct (io_indexing_stdlib o) eqn:Hi.
  - cbn [p_module with_path with_module].
    assert (m = normalize_version o w (bare_module stdlib_module_path (io_go_version o))) as Hmeq.
    { unfold m. assert (m0 = bare_module stdlib_module_path (io_go_version o)) as ->.
      { unfold p1 in Hm0. rewrite orb_true_r in Hm0. cbn in Hm0. by injection Hm0. }
      cbn in Hm1. unfold resolve_local in Hm1. cbn in Hm1. by injection Hm1 as <-. }
    cbn. unfold default_path. cbn. change (GMod stdlib_module_path (io_go_version o) "" "" None)
      with (bare_module stdlib_module_path (io_go_version o)).
    rewrite <-Hmeq. cbn in Hstd. rewrite trim_prefix_id by done. by destruct p1.
  - cbn [p_module with_module]. rewrite Hcore by done. done.
Qed.
(** Without that proviso it fails: a command-line version that is a pseudo-version
    is given to packages of unknown version as it is, and only a second run shortens it. *)
Definition ex_pv : string := "v0.0.0-20190718012654-fb15b899a751".
Definition ex_world : world := World (λ _, GoModUnreadable) (λ _, None).
Definition ex_opts (v : string) : index_opts := IOpts "/r" v "example.com/m" "go1.22" false false false [].
Definition ex_pkg (m : option gmodule) : gpkg := GPkg 0 "example.com/m/a" "a" m [] [] None None.
Theorem C25_idempotent_refuted :
  ∃ o w p p', io_module_version o ≠ "" ∧ normalize_package o w p = Ok p' ∧
    normalize_package o w p' ≠ Ok p'.
Proof.
  exists (ex_opts ex_pv), ex_world, (ex_pkg (Some (GMod "example.com/m" "" "/r" "/r/go.mod" None))).
  eexists. split; [done|]. split; [vm_compute; reflexivity|]. vm_compute. discriminate.
Qed.
Example C25_examples :
  (∃ p', normalize_package (ex_opts "v1.2.3") ex_world
     (ex_pkg (Some (GMod "example.com/d" ex_pv "/go/pkg/mod/example.com/d" "" None))) = Ok p'
     ∧ p_module p' = Some (GMod "example.com/d" "fb15b899a751" "/go/pkg/mod/example.com/d" "" None)) ∧
  (∃ p', normalize_package (ex_opts "v1.2.3") ex_world
     (ex_pkg (Some (GMod "example.com/d" "v2.0.0+incompatible" "/x" "" None))) = Ok p'
     ∧ p_module p' = Some (GMod "example.com/d" "v2.0.0" "/x" "" None)) ∧
  (∃ p', normalize_package (ex_opts "v1.2.3") ex_world
     (ex_pkg (Some (GMod "example.com/m/sub" "" "/r/sub" "" None))) = Ok p'
     ∧ p_module p' = Some (GMod "example.com/m/sub" "v1.2.3" "/r/sub" "" None)) ∧
  settled "v1.2.3".
Proof.
  repeat split; try (eexists; split; [vm_compute; reflexivity|reflexivity]).
  right. apply N_keep; [done| |].
  - rewrite <-is_pseudo_iff. vm_compute. done.
  - rewrite <-has_build_iff. vm_compute. tauto.
Qed.

(** ------------------------------------------------------------------ *)
(** C28 *)
Definition from_stdlib (p : gpkg) : Prop :=
  p_module p = None ∨ ∃ m, p_module p = Some m ∧ m_path m = "std".
(** a Go release name: not empty, not of the form v... *)
Definition go_release (v : string) : Prop := v ≠ "" ∧ ∀ r, v ≠ "v" +:+ r.
Lemma go_release_settled v : go_release v → normalised v v.
Proof.
  intros [Hne Hv]. assert (¬ is_semver v) as Hs.
  { intros (pre & b & H). destruct H; by eapply Hv. }
  apply N_keep; [done|by intros [? _]|]. intros (pre & b & H & _). apply Hs. by exists pre, b.
Qed.

Theorem C28_standard_library o w p :
  io_driver_set o = false → from_stdlib p ∨ io_indexing_stdlib o = true →
  go_release (io_go_version o) →
  ∃ p', normalize_package o w p = Ok p' ∧
    (∃ m, p_module p' = Some m ∧ m_path m = "github.com/golang/go/src" ∧ m_version m = io_go_version o) ∧
    (∀ r, p_path p = "std/" +:+ r → p_path p' = r) ∧
    (¬ (∃ r, p_path p = "std/" +:+ r) → p_path p' = p_path p) ∧
    p_syntax p' = p_syntax p ∧ p_imports p' = p_imports p.
Proof.
  intros Hd Hs Hg. unfold normalize_package. rewrite Hd.
  assert ((is_standard_lib p || io_indexing_stdlib o)%bool = true) as ->.
  { apply orb_true_iff. destruct Hs as [Hs|Hs]; [left|by right]. unfold is_standard_lib.
    destruct Hs as [->|(m & -> & ->)]; done. }
  cbn [p_module with_path with_module].
  change (follow_replace o (bare_module ?a ?b)) with (bare_module a b).
  change (resolve_local w (bare_module stdlib_module_path (io_go_version o)))
    with (Ok (bare_module stdlib_module_path (io_go_version o))). cbn [res_bind].
  change (default_path (bare_module stdlib_module_path (io_go_version o)))
    with (bare_module stdlib_module_path (io_go_version o)).
  rewrite normalize_version_settled by by apply go_release_settled.
  eexists. split; [done|]. split; [eexists; by split|]. cbn. split; [|split; [|done]].
  - intros r ->. apply (trim_prefix_app "std/" r).
  - intros H. apply trim_prefix_id. apply not_true_iff_false. rewrite has_prefix_spec. done.
Qed.
(** without a known Go version the version is that of a module of unknown version *)
Theorem C28_standard_library_unknown_version o w p :
  io_driver_set o = false → from_stdlib p ∨ io_indexing_stdlib o = true →
  io_go_version o = "" →
  ∃ p' m, normalize_package o w p = Ok p' ∧ p_module p' = Some m ∧
    m_path m = "github.com/golang/go/src" ∧
    (m_version m = "." ∨ (same_repository w "github.com/golang/go/src" (io_module_path o)
                          ∧ m_version m = io_module_version o)).
Proof.
  intros Hd Hs Hg. unfold normalize_package. rewrite Hd.
  assert ((is_standard_lib p || io_indexing_stdlib o)%bool = true) as ->.
  { apply orb_true_iff. destruct Hs as [Hs|Hs]; [left|by right]. unfold is_standard_lib.
    destruct Hs as [->|(m & -> & ->)]; done. }
  cbn [p_module with_path with_module].
  change (follow_replace o (bare_module ?a ?b)) with (bare_module a b).
  change (resolve_local w (bare_module stdlib_module_path (io_go_version o)))
    with (Ok (bare_module stdlib_module_path (io_go_version o))). cbn [res_bind].
  change (default_path (bare_module stdlib_module_path (io_go_version o)))
    with (bare_module stdlib_module_path (io_go_version o)).
  unfold normalize_version. cbn [m_version m_dir m_path bare_module]. rewrite Hg. cbn [String.eqb].
  replace (is_nested_dir "" (io_module_root o)) with false by done. cbn [orb].
  destruct (has_same_repo_root w stdlib_module_path (io_module_path o)) eqn:E; eexists _, _;
    (split; [done|]); (split; [done|]); (split; [done|]).
  - right. split; [|done]. by apply same_repository_spec.
  - by left.
Qed.
(** With a packages driver the module comes from the options alone. *)
Theorem C28_driver o w p :
  io_driver_set o = true →
  ∃ p' m, normalize_package o w p = Ok p' ∧ p_module p' = Some m ∧ p_path p' = p_path p ∧
    (io_module_path o ≠ "" → m_path m = io_module_path o) ∧
    (io_module_path o = "" → m_path m = ".") ∧
    (io_module_version o ≠ "" → m_version m = io_module_version o) ∧
    (io_module_version o = "" → m_version m = ".") ∧ m_replace m = None.
Proof.
  intros Hd. unfold normalize_package. rewrite Hd. eexists _, _. split; [done|]. split; [done|].
  split; [done|]. cbn.
  destruct (String.eqb_spec (io_module_path o) ""); destruct (String.eqb_spec (io_module_version o) ""); done.
Qed.
Example C28_example :
  go_release "go1.22" ∧ from_stdlib (GPkg 0 "std/fmt" "fmt" None [] [] None None) ∧
  ∃ p', normalize_package (ex_opts "v1.2.3") ex_world (GPkg 0 "std/fmt" "fmt" None [] [] None None) = Ok p'
        ∧ p_path p' = "fmt".
Proof.
  split; [split; [done|]|]. { intros r H. discriminate. }
  split; [by left|]. eexists. split; [vm_compute; reflexivity|done].
Qed.
