(** The project of ExDet.v with and without --skip-implementations (C76). *)
From Coq Require Import Ascii String.
From stdpp Require Import prelude strings gmap sorting.
From Verif Require Import GoStr Scip GoTypes Ast Packages Symbols Document Lookup Pass1 Pass2 Paths Loader Index
  SpecSymbol SpecDecl SpecLookup SpecOcc SpecIndex P_Symbols P_Pass1 P_Lookup P_Pass2 P_Occ P_Index PropIndex
  Quote Fingerprint SpecTypes P_Finger PropFinger Impls P_Rel P_Ident SpecImpl P_Filter P_Mem P_Extract P_Impl PropImpl PropDet PropSkip ExDecl ExOcc ExIndex ExImpl ExDet.
Open Scope string_scope.
Open Scope list_scope.

Definition y_skip (it : iteration) : list message * Index.outcome :=
  Index.index p_digest y_env x_fs y_h (λ o, o_name o) (it_maps it) (λ _ _, None)
    (impl_phase y_env x_u w_crc y_mset w_cok w_level y_scope (it_search it) y_h y_proj y_all) "" "/src" "v1" true x_meta
    (LoadOk y_all y_proj) (it_proj it) (it_all it) (it_proj2 it).
(** compare y_runs in ExDet.v: the same symbols, without relationships and external symbols *)
Example y_skip_runs :
  let p s := "scip-go gomod ex.org v1 `ex.org/p`/" +:+ s in
  y_view (y_skip y_it) = ([[(p "T#", []); (p "", []); (p "I#", []); (p "T#N().", []); (p "I#N.", [])]], [], Returned None) ∧
  y_view (y_skip y_it') = ([[(p "I#N.", []); (p "T#N().", []); (p "I#", []); (p "", []); (p "T#", [])]], [], Returned None).
Proof. vm_compute. split; reflexivity. Qed.
Lemma y_pair (r : list message * Index.outcome) o : r.2 = o → r = (r.1, o).
Proof. destruct r. cbn. by intros ->. Qed.
Example C76_example : unrelated_index (y_run y_it).1 (y_skip y_it').1 ∧
  ∃ ds', y_skip y_it' = (MMeta x_meta :: map MDoc ds', Returned None).
Proof.
  destruct y_iterations as [I1 I2]. split.
  - eapply (C76_only_relationships p_digest y_env x_u w_crc y_mset w_cok y_objs w_level y_scope x_fs (λ o, o_name o) "/src" "v1" y_h y_all y_proj [y_p]
      y_indexable y_analysable "" x_meta y_it y_it' (λ _ _, None) (λ _ _, None) _ _ I1 I2).
    + apply (y_pair (y_run y_it)). vm_compute. reflexivity.
    + apply (y_pair (y_skip y_it')). vm_compute. reflexivity.
  - destruct (C76_always_succeeds p_digest y_env x_u w_crc y_mset w_cok y_objs w_level y_scope x_fs (λ o, o_name o) "/src" "v1" y_h y_all y_proj [y_p]
      y_indexable y_analysable "" x_meta y_it y_it' I1 I2) as (ds' & E & _). exists ds'. exact E.
Qed.
