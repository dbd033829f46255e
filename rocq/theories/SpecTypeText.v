(** C62, specification: the texts of Go types, production by production of the Go language specification
    (Types, Type parameter declarations, Instantiations).  Independent of the printer. *)
From Coq Require Import Ascii String.
From stdpp Require Import prelude strings.
From Verif Require Import GoStr Signature.
Open Scope string_scope.
Open Scope list_scope.

(** the items of a list, separated *)
Inductive separated (sep : string) : list string → string → Prop :=
| sep_nil : separated sep [] ""
| sep_one a : separated sep [a] a
| sep_cons a b l s : separated sep (b :: l) s → separated sep (a :: b :: l) (a +:+ sep +:+ s).

(** A (qualified) type name in a file of package own: types of the package, predeclared types (no package) and
    those of packages without a name by their name, others behind the name of their package. *)
Inductive type_name (own : option hpkg) : hname → string → Prop :=
| tn_predeclared n : type_name own (HName None n) n
| tn_own p n : own = Some p → type_name own (HName (Some p) n) n
| tn_nameless p n : hp_name p = "" → type_name own (HName (Some p) n) n
| tn_other p n : own ≠ Some p → hp_name p ≠ "" → type_name own (HName (Some p) n) (hp_name p +:+ "." +:+ n).

Definition receive_channel (t : hty) : Prop := ∃ e, t = HChan 2 e.

Section Types.
  (** how string literals are written; the package of the file *)
  Context (quote : string → string) (own : option hpkg).

  (** [go_type t s]: s is the text of type t; [go_signature t s]: s is the text of the (type parameters,)
      parameters and results of the function type t *)
  Inductive go_type : hty → string → Prop :=
  | gt_basic n : n ≠ "Pointer" → go_type (HBasic n) n
  | gt_unsafe_pointer : go_type (HBasic "Pointer") "unsafe.Pointer"
  | gt_type_param n : go_type (HTypeParam n) n
  | gt_any : go_type HAny "any"
  | gt_comparable : go_type HComparable "interface{comparable}"
  | gt_name n s : type_name own n s → go_type (HNamed n [] []) s
  | gt_instance n args s ss a : type_name own n s → args ≠ [] → Forall2 go_type args ss → separated ", " ss a →
      go_type (HNamed n args []) (s +:+ "[" +:+ a +:+ "]")
  | gt_pointer t s : go_type t s → go_type (HPointer t) ("*" +:+ s)
  | gt_slice t s : go_type t s → go_type (HSlice t) ("[]" +:+ s)
  | gt_array n t s : go_type t s → go_type (HArray n t) ("[" +:+ show_Z n +:+ "]" +:+ s)
  | gt_map k v a b : go_type k a → go_type v b → go_type (HMap k v) ("map[" +:+ a +:+ "]" +:+ b)
  | gt_chan t s : go_type t s → ¬ receive_channel t → go_type (HChan 0 t) ("chan " +:+ s)
  | gt_chan_of_receive t s : go_type t s → receive_channel t → go_type (HChan 0 t) ("chan (" +:+ s +:+ ")")
  | gt_send t s : go_type t s → go_type (HChan 1 t) ("chan<- " +:+ s)
  | gt_receive t s : go_type t s → go_type (HChan 2 t) ("<-chan " +:+ s)
  | gt_struct fields ss s : Forall2 go_field fields ss → separated "; " ss s → go_type (HStruct fields) ("struct{" +:+ s +:+ "}")
  | gt_func tps ps rs v s : go_signature (HSig tps ps rs v) s → go_type (HSig tps ps rs v) ("func" +:+ s)
  | gt_interface methods embeddeds ms es s : Forall2 go_method methods ms → Forall2 go_type embeddeds es →
      separated "; " (ms ++ es) s → go_type (HInterface false methods embeddeds) ("interface{" +:+ s +:+ "}")
  | gt_constraint t s : go_type t s → go_type (HInterface true [] [t]) s
  | gt_union terms ss s : Forall2 go_term terms ss → separated " | " ss s → go_type (HUnion terms) s
  with go_field : string * bool * string * hty → string → Prop :=
  | gf_named name t s : go_type t s → go_field (name, false, "", t) (name +:+ " " +:+ s)
  | gf_named_tag name tag t s : go_type t s → tag ≠ "" → go_field (name, false, tag, t) (name +:+ " " +:+ s +:+ " " +:+ quote tag)
  | gf_embedded name t s : go_type t s → go_field (name, true, "", t) s
  | gf_embedded_tag name tag t s : go_type t s → tag ≠ "" → go_field (name, true, tag, t) (s +:+ " " +:+ quote tag)
  with go_method : string * hty → string → Prop :=
  | gm name t s : go_signature t s → go_method (name, t) (name +:+ s)
  with go_term : bool * hty → string → Prop :=
  | gte t s : go_type t s → go_term (false, t) s
  | gte_tilde t s : go_type t s → go_term (true, t) ("~" +:+ s)
  with go_param : string * hty → string → Prop :=
  | gp_type t s : go_type t s → go_param ("", t) s
  | gp_named n t s : go_type t s → n ≠ "" → go_param (n, t) (n +:+ " " +:+ s)
  with go_variadic : string * hty → string → Prop :=
  | gv_type t s : go_type t s → go_variadic ("", HSlice t) ("..." +:+ s)
  | gv_named n t s : go_type t s → n ≠ "" → go_variadic (n, HSlice t) (n +:+ " ..." +:+ s)
  with go_type_params : list string * hty → string → Prop :=
  | gtp names ns t s : separated ", " names ns → go_type t s → go_type_params (names, t) (ns +:+ " " +:+ s)
  with go_params : list (string * hty) → bool → string → Prop :=
  | gps ps ss s : Forall2 go_param ps ss → separated ", " ss s → go_params ps false ("(" +:+ s +:+ ")")
  | gps_variadic ps p ss x s : Forall2 go_param ps ss → go_variadic p x → separated ", " (ss ++ [x]) s →
      go_params (ps ++ [p]) true ("(" +:+ s +:+ ")")
  with go_results : list (string * hty) → string → Prop :=
  | grs_none : go_results [] ""
  | grs_one t s : go_type t s → go_results [("", t)] (" " +:+ s)
  | grs rs s : rs ≠ [] → (∀ t, rs ≠ [("", t)]) → go_params rs false s → go_results rs (" " +:+ s)
  with go_signature : hty → string → Prop :=
  | gs ps rs v a b : go_params ps v a → go_results rs b → go_signature (HSig [] ps rs v) (a +:+ b)
  | gs_generic tps ps rs v ts t a b : tps ≠ [] → Forall2 go_type_params tps ts → separated ", " ts t →
      go_params ps v a → go_results rs b → go_signature (HSig tps ps rs v) ("[" +:+ t +:+ "]" +:+ a +:+ b).
End Types.

(** types that can be written in Go: no generic types without arguments, no implicit interfaces except the ones
    of constraints, channel directions 0 to 2, variadic parameters are slices, methods have signatures *)
Fixpoint writable (t : hty) : Prop :=
  let all := fix all (l : list hty) : Prop := match l with [] => True | t :: l => writable t ∧ all l end in
  let allp := fix allp {A} (l : list (A * hty)) : Prop := match l with [] => True | (_, t) :: l => writable t ∧ allp l end in
  match t with
  | HBasic _ | HAny | HComparable | HTypeParam _ => True
  | HNamed _ args tps => tps = [] ∧ all args
  | HPointer t | HSlice t | HArray _ t => writable t
  | HMap k v => writable k ∧ writable v
  | HChan d t => d ≤ 2 ∧ writable t
  | HStruct l => allp l
  | HSig tps ps rs v => allp tps ∧ allp ps ∧ allp rs ∧
      (v = true → ∃ l n e, ps = l ++ [(n, HSlice e)])
  | HInterface b ms es => (b = true → ms = [] ∧ ∃ e, es = [e]) ∧
      (∀ m, m ∈ ms → ∃ tps ps rs v, m.2 = HSig tps ps rs v) ∧ allp ms ∧ all es
  | HUnion l => allp l
  end.
