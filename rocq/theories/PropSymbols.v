(** Properties C01-C04 and C08: symbol strings, the composer, kinds.
    Only statements; every proof is in P_Symbols.v. *)
From Coq Require Import Ascii String.
From stdpp Require Import prelude strings.
From Verif Require Import GoStr Scip GoTypes Ast Packages Symbols SpecSymbol P_Symbols.
Open Scope string_scope.
Open Scope list_scope.

(** C01: reading a formatted symbol left to right recovers everything it was
    built from (an empty field reads back as "."), for all names. *)
Theorem C01_symbol_roundtrip : ∀ s : symbol,
  clean_symbol s = true → read_symbol (format_symbol s) = Some (normal_symbol s).
Proof. exact read_symbol_format. Qed.
Print Assumptions C01_symbol_roundtrip.

Theorem C01_symbol_unambiguous : ∀ s1 s2 : symbol,
  clean_symbol s1 = true → clean_symbol s2 = true →
  format_symbol s1 = format_symbol s2 → normal_symbol s1 = normal_symbol s2.
Proof. exact format_symbol_inj. Qed.
Print Assumptions C01_symbol_unambiguous.

(** Without the hypothesis that no package field starts with a space, it fails. *)
Theorem C01_leading_space_refuted : ∃ s1 s2 : symbol,
  s_descriptors s1 = s_descriptors s2 ∧ format_symbol s1 = format_symbol s2 ∧
  normal_symbol s1 ≠ normal_symbol s2.
Proof.
  exists (Sym "scip-go" (SPkg "gomod" "a" " b") [Desc "p" Namespace]),
         (Sym "scip-go" (SPkg "gomod" "a " "b") [Desc "p" Namespace]).
  split; [reflexivity|]. split; [vm_compute; reflexivity|]. discriminate.
Qed.
Print Assumptions C01_leading_space_refuted.

Example C01_ex :
  let s := Sym "scip-go" (SPkg "gomod" "github.com/a b" "") [Desc "a.b/c" Namespace; Desc "T`x" Type_; Desc "M" Method] in
  clean_symbol s = true ∧
  format_symbol s = "scip-go gomod github.com/a  b . `a.b/c`/`T``x`#M().".
Proof. vm_compute. split; reflexivity. Qed.

(** C02: once an object got a non-empty symbol, every later call for it (or for
    another instance of the same generic object) returns that symbol. *)
Theorem C02_compose_stable : ∀ env c0 h1 pkg o s h2 pkg' o',
  (compose env (run_calls env c0 h1) pkg (Some o)).1 = s → s ≠ "" →
  o_id (origin o') = o_id (origin o) → o_pkg o' ≠ None →
  (compose env (run_calls env c0 (h1 ++ (pkg, Some o) :: h2)) pkg' (Some o')).1 = s.
Proof. exact compose_stable. Qed.
Print Assumptions C02_compose_stable.

(** C02: if pointers identify objects ([objs]) and each object is always composed
    with the same package ([pkg_of]), any history gives the fresh answer. *)
Theorem C02_compose_fresh : ∀ env objs pkg_of path version h pkg o,
  Forall (call_ok objs pkg_of) (h ++ [(pkg, o)]) →
  (compose env (run_calls env (new_composer path version) h) pkg o).1 =
  (compose env (new_composer path version) pkg o).1.
Proof. exact compose_fresh. Qed.
Print Assumptions C02_compose_fresh.

Definition ex_tpkg : tpkg := TPkg "ex.org/p" [SEntry "T" true (TNamed (TName 10 (Some "ex.org/p") "T") [])].
Definition ex_mod : gmodule := GMod "ex.org" "v1" "" "" None.
Definition ex_gpkg : gpkg := GPkg 1 "ex.org/p" "p" (Some ex_mod) [] [] (Some ex_tpkg) None.
Definition ex_T : ty := TNamed (TName 10 (Some "ex.org/p") "T") [].
Definition ex_field : obj := Obj 20 "F" (Some ex_tpkg) 100 (OVar true) (TBasic BInt false) None.
Definition ex_field_inst : obj := Obj 21 "F" (Some ex_tpkg) 100 (OVar true) (TBasic BInt false) (Some ex_field).
Definition ex_method : obj := Obj 22 "M" (Some ex_tpkg) 200 (OFunc (Some (Some (TPointer ex_T)))) (TSig [] [] false) None.
Definition ex_env : tenv := λ tn _,
  if Nat.eqb (tn_id tn) 10 then TStruct [(FHdr 20 "F" (Some "ex.org/p") false "", TBasic BInt false)]
  else TInterface [] "".

Example C02_ex :
  let objs := λ k, if Nat.eqb k 20 then Some ex_field else if Nat.eqb k 22 then Some ex_method else None in
  let calls := [(Some ex_gpkg, Some ex_field_inst); (Some ex_gpkg, Some ex_method); (Some ex_gpkg, Some ex_field)] in
  Forall (call_ok objs (λ _, Some ex_gpkg)) calls ∧
  (compose ex_env (run_calls ex_env (new_composer "" "") calls) (Some ex_gpkg) (Some ex_field)).1
    = "scip-go gomod ex.org v1 `ex.org/p`/T#F.".
Proof.
  split; [|vm_compute; reflexivity].
  repeat (apply Forall_cons_2; [intros o Ho; injection Ho as <-; split; reflexivity|]).
  apply Forall_nil_2.
Qed.

(** C03: Compose answers "" exactly when there is nothing to name. *)
Theorem C03_compose_nil : ∀ env c pkg, (compose env c pkg None).1 = "".
Proof. exact (λ _ _ _, eq_refl). Qed.
Theorem C03_compose_universe : ∀ env c pkg o, o_pkg o = None → (compose env c pkg (Some o)).1 = "".
Proof. intros env c pkg o H. unfold compose. by rewrite H. Qed.
Theorem C03_compose_exact : ∀ env path version pkg o tp,
  o_pkg o = Some tp → o_pkg (origin o) = Some tp →
  ((compose env (new_composer path version) pkg (Some o)).1 = "" ↔ ¬ nameable env (origin o)).
Proof. exact compose_exact. Qed.
Print Assumptions C03_compose_exact.

(** ... and otherwise the symbol lives in the namespace of the object's package. *)
Theorem C03_compose_namespaced : ∀ env c pkg o tp,
  o_pkg o = Some tp → o_pkg (origin o) = Some tp →
  c_memo c = [] → nameable env (origin o) → (∀ p, o_kind (origin o) ≠ OPkgName p) →
  ∃ d ds, (compose env c pkg (Some o)).1 =
    format_symbol (Sym "scip-go" (pack c pkg) (Desc (tp_path tp) Namespace :: d :: ds)).
Proof. exact compose_namespaced. Qed.
Print Assumptions C03_compose_namespaced.

Example C03_ex : nameable ex_env (origin ex_field_inst) ∧
  ¬ nameable ex_env (Obj 99 "G" (Some ex_tpkg) 100 (OVar true) (TBasic BInt false) None).
Proof.
  split.
  - exists ex_tpkg, (SEntry "T" true ex_T). split; [done|]. split; [by constructor|].
    split; [done|]. exists (TName 10 (Some "ex.org/p") "T"), []. eexists. split; [done|].
    split; [reflexivity|]. eexists. split; [by apply elem_of_list_here|done].
  - intros (tp & e & [= <-] & He & Hd). cbn in He. apply elem_of_list_singleton in He as ->.
    destruct Hd as (_ & tn & args & fs & [= <- <-] & [= <-] & f & Hf & Hi).
    apply elem_of_list_singleton in Hf as ->. discriminate.
Qed.

(** C04: an instance is composed like its generic declaration ... *)
Theorem C04_instance : ∀ env c pkg o g,
  o_origin o = Some g → (∃ f, o_kind o = OVar f) ∨ (∃ s, o_kind o = OFunc s) →
  o_origin g = None → o_pkg o ≠ None → o_pkg g ≠ None →
  compose env c pkg (Some o) = compose env c pkg (Some g).
Proof. exact compose_instance. Qed.
Print Assumptions C04_instance.

(** ... and how the receiver is spelled (T, *T, alias of these) does not matter. *)
Theorem C04_receiver_spelling : ∀ env path version pkg m1 m2 tp1 tp2 r1 r2 tn,
  o_origin m1 = None → o_origin m2 = None →
  o_pkg m1 = Some tp1 → o_pkg m2 = Some tp2 → tp_path tp1 = tp_path tp2 →
  o_name m1 = o_name m2 →
  o_kind m1 = OFunc (Some (Some r1)) → o_kind m2 = OFunc (Some (Some r2)) →
  base_named r1 tn → base_named r2 tn →
  (compose env (new_composer path version) pkg (Some m1)).1 =
  (compose env (new_composer path version) pkg (Some m2)).1.
Proof. exact compose_receiver. Qed.
Print Assumptions C04_receiver_spelling.

Example C04_ex :
  base_named (TPointer (TAlias (TName 11 (Some "ex.org/p") "A") ex_T)) (TName 10 (Some "ex.org/p") "T") ∧
  (compose ex_env (new_composer "" "") (Some ex_gpkg) (Some ex_method)).1
    = "scip-go gomod ex.org v1 `ex.org/p`/T#M()." ∧
  (compose ex_env (new_composer "" "") (Some ex_gpkg) (Some ex_field_inst)).1
    = "scip-go gomod ex.org v1 `ex.org/p`/T#F.".
Proof. split; [by repeat constructor|]. split; vm_compute; reflexivity. Qed.

(** C08: every object except type parameters gets the kind of its Go category.
    The hypothesis says the declared type names are named or basic types. *)
Theorem C08_kind_partial : ∀ env o,
  env_wf env →
  (∀ x, o = Some x → o_kind x = OTypeName → is_alias x = false →
        (∃ tn args, o_type x = TNamed tn args) ∨ (∃ k al, o_type x = TBasic k al)) →
  kind_spec env o (kind_for_object env o).
Proof. exact kind_exact. Qed.
Print Assumptions C08_kind_partial.

(** Type parameters are labelled Interface, never TypeParameter. *)
Theorem C08_type_parameter_refuted : ∀ env o tn i,
  o_kind o = OTypeName → o_type o = TTypeParam tn i → tn_id tn = o_id o →
  kind_for_object env (Some o) = KInterface ∧ kind_spec env (Some o) KTypeParameter.
Proof.
  intros env o tn i Hk Ht Hi. split; [by eapply kind_tparam|].
  eapply ks_tparam; [done| |done]. unfold is_alias. by rewrite Ht, Hi, Nat.eqb_refl.
Qed.
Print Assumptions C08_type_parameter_refuted.

Example C08_ex : env_wf ex_env ∧
  kind_for_object ex_env (Some (Obj 10 "T" (Some ex_tpkg) 5 OTypeName ex_T None)) = KStruct ∧
  kind_for_object ex_env (Some ex_method) = KMethod.
Proof.
  split; [|split; vm_compute; reflexivity].
  intros tn args. unfold ex_env. by destruct (Nat.eqb _ _).
Qed.
