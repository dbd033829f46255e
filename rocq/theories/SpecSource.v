(** What a source range means, without go/token: for C69. *)
From Coq Require Import Ascii String.
From stdpp Require Import prelude strings.
From Verif Require Import GoStr Scip GoTypes Ast SpecSymbol SpecOcc Source.
Open Scope string_scope.
Open Scope list_scope.

(** after reading the text a from the start of a file, one is on line l (from 0), at column c (from 0), where
    columns are counted with [unit]: the number of newlines read, and the size of what follows the last one *)
Definition reaches (unit : string → nat) (a : string) (l c : Z) : Prop :=
  ∃ u x, a = u +:+ x ∧ (u = "" ∨ ∃ v, u = v +:+ String newline "") ∧ count_char newline x = 0 ∧
    l = Z.of_nat (count_char newline a) ∧ c = Z.of_nat (unit x).
(** range r of a file with this text covers exactly the copy of t that starts at byte offset off *)
Definition selects (unit : string → nat) (text : string) (r : list Z) (off : Z) (t : string) : Prop :=
  ∃ a b l1 c1 l2 c2, text = a +:+ t +:+ b ∧ off = Z.of_nat (slen a) ∧
    decode_range r = Some ((l1, c1), (l2, c2)) ∧ reaches unit a l1 c1 ∧ reaches unit (a +:+ t) l2 c2.

(** t is written in file s at position p *)
Definition written (s : src) (p : Z) (t : string) : Prop :=
  ∃ a b, s_text s = a +:+ t +:+ b ∧ p = (s_base s + Z.of_nat (slen a))%Z.
(** a nonempty text on one line *)
Definition one_line (t : string) : Prop := t ≠ "" ∧ count_char newline t = 0.
Definition quoted (t lit : string) : Prop := ∃ q, q ≠ newline ∧ lit = String q (t +:+ String q "").
(** what is written between the positions of a function declaration *)
Definition func_text (s : src) (p e : Z) (t : string) : Prop :=
  written s p t ∧ e = (p + Z.of_nat (slen t))%Z ∧ ∃ t' c, t = t' +:+ String c "" ∧ c ≠ newline.

(** f is the syntax tree of the text of s: identifiers, import paths and function declarations are written where
    the tree says they are *)
Record parsed_from (s : src) (f : node) : Prop := ParsedFrom {
  pf_ident : ∀ i, i ∈ node_idents f → one_line (id_name i) ∧ written s (id_pos i) (id_name i);
  pf_import : ∀ ptr nm p lit, NImportSpec ptr nm p lit ∈ subnodes f →
    written s p lit ∧ ∃ t, quoted t lit ∧ one_line t;
  pf_func : ∀ d p e r nm t b, NFuncDecl d p e r nm t b ∈ file_decls f → ∃ t, func_text s p e t }.
(** files of a file set occupy disjoint ranges of positive positions *)
Definition disjoint_files (srcs : list src) : Prop :=
  (∀ s, s ∈ srcs → (0 < s_base s)%Z) ∧
  ∀ s s' p, s ∈ srcs → s' ∈ srcs → covers s p = true → covers s' p = true → s = s'.
