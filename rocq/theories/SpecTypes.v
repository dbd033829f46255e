(** Specification of Go types: identity (the Go specification, types.Identical), identity of
    structure, the trees of the grammar of fingerprint.go 67-91, matching. *)
From Coq Require Import Ascii String.
From stdpp Require Import prelude strings.
From Verif Require Import GoStr Scip GoTypes Quote Fingerprint.
Open Scope string_scope.
Open Scope list_scope.
Local Open Scope Z_scope.

(** fields have the same identity: name (and package, for unexported names), embedding and tag *)
Definition same_field (f g : fhdr) : Prop :=
  fh_name f = fh_name g ∧ (is_exported (fh_name f) = false → fh_pkg f = fh_pkg g) ∧
  fh_embedded f = fh_embedded g ∧ fh_tag f = fh_tag g.

(** Type identity.  A named type is identical to itself only (instances: same arguments); byte
    and uint8 are one kind; an alias denotes the aliased type; interfaces with the same methods
    and type set (the method list is sorted by Id) are identical. *)
Inductive identical : ty → ty → Prop :=
| id_basic t u k a b : unalias t = TBasic k a → unalias u = TBasic k b → identical t u
| id_named t u tn l l' : unalias t = TNamed tn l → unalias u = TNamed tn l' → Forall2 identical l l' → identical t u
| id_pointer t u a b : unalias t = TPointer a → unalias u = TPointer b → identical a b → identical t u
| id_slice t u a b : unalias t = TSlice a → unalias u = TSlice b → identical a b → identical t u
| id_array t u n a b : unalias t = TArray n a → unalias u = TArray n b → identical a b → identical t u
| id_map t u k k' a b : unalias t = TMap k a → unalias u = TMap k' b → identical k k' → identical a b → identical t u
| id_chan t u d a b : unalias t = TChan d a → unalias u = TChan d b → identical a b → identical t u
| id_tuple t u l l' : unalias t = TTuple l → unalias u = TTuple l' → Forall2 identical l l' → identical t u
| id_sig t u ps rs ps' rs' v : unalias t = TSig ps rs v → unalias u = TSig ps' rs' v →
    Forall2 identical ps ps' → Forall2 identical rs rs' → identical t u
| id_struct t u fs fs' : unalias t = TStruct fs → unalias u = TStruct fs' →
    Forall2 same_field (map fst fs) (map fst fs') → Forall2 identical (map snd fs) (map snd fs') → identical t u
| id_interface t u ms ms' s : unalias t = TInterface ms s → unalias u = TInterface ms' s →
    map fst ms = map fst ms' → Forall2 identical (map snd ms) (map snd ms') → identical t u
| id_typeparam t u tn i : unalias t = TTypeParam tn i → unalias u = TTypeParam tn i → identical t u
| id_union t u l l' : unalias t = TUnion l → unalias u = TUnion l' →
    map fst l = map fst l' → Forall2 identical (map snd l) (map snd l') → identical t u.

(** The same structure: like identity, with named types compared by package path and name only *)
Definition same_name (a b : tname) : Prop := tn_pkg a = tn_pkg b ∧ tn_name a = tn_name b.
Inductive same_structure : ty → ty → Prop :=
| ss_basic t u k a b : unalias t = TBasic k a → unalias u = TBasic k b → same_structure t u
| ss_named t u tn tn' l l' : unalias t = TNamed tn l → unalias u = TNamed tn' l' → same_name tn tn' →
    Forall2 same_structure l l' → same_structure t u
| ss_pointer t u a b : unalias t = TPointer a → unalias u = TPointer b → same_structure a b → same_structure t u
| ss_slice t u a b : unalias t = TSlice a → unalias u = TSlice b → same_structure a b → same_structure t u
| ss_array t u n a b : unalias t = TArray n a → unalias u = TArray n b → same_structure a b → same_structure t u
| ss_map t u k k' a b : unalias t = TMap k a → unalias u = TMap k' b → same_structure k k' → same_structure a b → same_structure t u
| ss_chan t u d a b : unalias t = TChan d a → unalias u = TChan d b → same_structure a b → same_structure t u
| ss_tuple t u l l' : unalias t = TTuple l → unalias u = TTuple l' → Forall2 same_structure l l' → same_structure t u
| ss_sig t u ps rs ps' rs' v : unalias t = TSig ps rs v → unalias u = TSig ps' rs' v →
    Forall2 same_structure ps ps' → Forall2 same_structure rs rs' → same_structure t u
| ss_struct t u fs fs' : unalias t = TStruct fs → unalias u = TStruct fs' →
    Forall2 same_field (map fst fs) (map fst fs') → Forall2 same_structure (map snd fs) (map snd fs') → same_structure t u
| ss_any t u s s' : unalias t = TInterface [] s → unalias u = TInterface [] s' → same_structure t u.

(** *** Types that occur in method signatures *)
(** identifiers: a letter or underscore, then letters, underscores and digits *)
Inductive ident_tail (u : unicode) : string → Prop :=
| it_nil : ident_tail u ""
| it_ascii c s : (is_alnum c = true ∨ c = "_"%char) → ident_tail u s → ident_tail u (String c s)
| it_rune r s : 128 <= r → scalar r → (u_letter u r = true ∨ u_digit u r = true) → ident_tail u s → ident_tail u (utf8_encode r +:+ s).
Inductive go_ident (u : unicode) : string → Prop :=
| gi_ascii c s : (is_alpha c = true ∨ c = "_"%char) → ident_tail u s → go_ident u (String c s)
| gi_rune r s : 128 <= r → scalar r → u_letter u r = true → ident_tail u s → go_ident u (utf8_encode r +:+ s).

(** names are identifiers, only error and comparable have no package, arrays have a length, no
    untyped or invalid types, no unions; unsafe.Pointer is a basic type, not a declared one *)
Definition name_ok (u : unicode) (tn : tname) : Prop :=
  match tn_pkg tn with
  | Some p => go_ident u (tn_name tn) ∧ ¬ (p = "unsafe" ∧ tn_name tn = "Pointer")
  | None => tn_name tn = "error" ∨ tn_name tn = "comparable"
  end.
Definition field_ok (u : unicode) (f : fhdr) : Prop :=
  go_ident u (fh_name f) ∧ (is_exported (fh_name f) = false → ∃ p, fh_pkg f = Some p).
Inductive type_ok (u : unicode) : ty → Prop :=
| ok_basic k a : is_untyped k = false → k ≠ BInvalid → type_ok u (TBasic k a)
| ok_named tn l : name_ok u tn → Forall (type_ok u) l → type_ok u (TNamed tn l)
| ok_alias tn t : type_ok u t → type_ok u (TAlias tn t)
| ok_pointer t : type_ok u t → type_ok u (TPointer t)
| ok_slice t : type_ok u t → type_ok u (TSlice t)
| ok_array n t : 0 <= n < 9223372036854775808 → type_ok u t → type_ok u (TArray n t)
| ok_map k v : type_ok u k → type_ok u v → type_ok u (TMap k v)
| ok_chan d t : (d <= 2)%nat → type_ok u t → type_ok u (TChan d t)
| ok_tuple l : Forall (type_ok u) l → type_ok u (TTuple l)
| ok_sig ps rs v : Forall (type_ok u) ps → Forall (type_ok u) rs → type_ok u (TSig ps rs v)
| ok_struct fs : Forall (field_ok u) (map fst fs) → Forall (type_ok u) (map snd fs) → type_ok u (TStruct fs)
| ok_interface ms s : type_ok u (TInterface ms s)
| ok_typeparam tn i : Z.of_nat i < 9223372036854775808 → type_ok u (TTypeParam tn i).

(** *** Trees *)
Fixpoint slist (l : list sexpr) : sexpr := match l with [] => SNil | x :: l => SCons x (slist l) end.
(** a name: IDENT or (qual STRING IDENT) *)
Definition qual (p n : string) : sexpr := slist [SSym "qual"; SStr p; SSym n].
Definition name_tree (tn : tname) : sexpr := match tn_pkg tn with Some p => qual p (tn_name tn) | None => SSym (tn_name tn) end.
Definition field_name_tree (f : fhdr) : sexpr :=
  if is_exported (fh_name f) then SSym (fh_name f) else qual (default "" (fh_pkg f)) (fh_name f).
(** the tree of a type, by the grammar *)
Fixpoint tree (t : ty) : sexpr :=
  match t with
  | TAlias _ r => tree r
  | TBasic k _ => match k with BUnsafePointer => qual "unsafe" "Pointer" | k => SSym (basic_name k) end
  | TNamed tn [] => name_tree tn
  | TNamed tn l => slist (SSym "inst" :: name_tree tn :: map tree l)
  | TArray n e => slist [SSym "array"; SInt n; tree e]
  | TSlice e => slist [SSym "slice"; tree e]
  | TPointer e => slist [SSym "ptr"; tree e]
  | TMap k v => slist [SSym "map"; tree k; tree v]
  | TChan d e => slist [SSym "chan"; SInt (Z.of_nat d); tree e]
  | TTuple l => slist (SSym "tuple" :: map tree l)
  | TSig ps rs v =>
      slist (SSym "func" :: slist (SSym "tuple" :: map tree ps) :: (if v then [SSym "v"] else []) ++ [slist (SSym "tuple" :: map tree rs)])
  | TStruct fs =>
      slist (SSym "struct" :: List.concat (map (λ f, [field_name_tree f.1; SSym (format_bool (fh_embedded f.1)); SStr (fh_tag f.1); tree f.2]) fs))
  | TInterface [] _ => SSym "any"
  | TInterface _ _ => slist [SSym "interface"]
  | TTypeParam _ i => slist [SSym "typeparam"; SInt (Z.of_nat i)]
  | TUnion _ => SNil
  end.

(** *** Matching *)
Definition type_param (i : Z) : sexpr := slist [SSym "typeparam"; SInt i].
(** no part of the tree is a type parameter or starts with the symbol typeparam *)
Fixpoint ground (x : sexpr) : Prop :=
  match x with SCons a d => a ≠ SSym "typeparam" ∧ ground a ∧ ground d | _ => True end.
(** type parameters are (typeparam i) with i not negative *)
Inductive well_formed : sexpr → Prop :=
| wf_param i : 0 <= i → well_formed (type_param i)
| wf_cons a d : a ≠ SSym "typeparam" → well_formed a → well_formed d → well_formed (SCons a d)
| wf_nil : well_formed SNil
| wf_str s : well_formed (SStr s)
| wf_int n : well_formed (SInt n)
| wf_sym s : well_formed (SSym s).
(** no empty list as an element *)
Fixpoint no_empty (x : sexpr) : Prop := match x with SCons a d => a ≠ SNil ∧ no_empty a ∧ no_empty d | _ => True end.
(** replacing the type parameters *)
Inductive instance_of (σ : Z → sexpr) : sexpr → sexpr → Prop :=
| in_param i : 0 <= i → instance_of σ (type_param i) (σ i)
| in_cons a d a' d' : a ≠ SSym "typeparam" → instance_of σ a a' → instance_of σ d d' → instance_of σ (SCons a d) (SCons a' d')
| in_nil : instance_of σ SNil SNil
| in_str s : instance_of σ (SStr s) (SStr s)
| in_int n : instance_of σ (SInt n) (SInt n)
| in_sym s : instance_of σ (SSym s) (SSym s).
(** Matches returns b: it ends with b, however long it is run *)
Definition matches_returns (x y : sexpr) (b : bool) : Prop := ∃ n, ∀ fuel, (n <= fuel)%nat → matches fuel x y = PDone b.
Definition parses_to (u : unicode) (fp : string) (x : sexpr) : Prop :=
  ∃ n, ∀ fuel, (n <= fuel)%nat → parse_fingerprint u fuel fp = PDone x.
