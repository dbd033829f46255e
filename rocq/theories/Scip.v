(** The SCIP bindings used by scip-go (github.com/scip-code/scip v0.7.1,
    bindings/go/scip).  The bindings are a dependency whose source is not in
    /repo; they are modelled from the published package (symbol_formatter.go,
    canonicalize.go, scip.proto).  Only what /repo uses is modelled. *)
From Coq Require Import Ascii String.
From stdpp Require Import prelude strings sorting.
From Verif Require Import GoStr.
Open Scope string_scope.
Open Scope list_scope.

(** scip.Descriptor_Suffix: the five suffixes scip-go uses. *)
Inductive suffix := Namespace | Type_ | Term | Method | Meta.
Global Instance suffix_eq_dec : EqDecision suffix.
Proof. solve_decision. Defined.

(** scip.Descriptor (the disambiguator is never set by scip-go). *)
Record descriptor := Desc { d_name : string; d_suffix : suffix }.
Global Instance descriptor_eq_dec : EqDecision descriptor.
Proof. solve_decision. Defined.

(** scip.Package / scip.Symbol *)
Record scip_package := SPkg { sp_manager : string; sp_name : string; sp_version : string }.
Global Instance scip_package_eq_dec : EqDecision scip_package.
Proof. solve_decision. Defined.
Record symbol := Sym { s_scheme : string; s_package : scip_package; s_descriptors : list descriptor }.

(** writeGenericEscapedIdentifier: double every escape character.  The Go code
    ranges over runes; escapes are ASCII so for valid UTF-8 this is the same
    as going byte by byte (invalid UTF-8 would become U+FFFD: not modelled). *)
Fixpoint escape_with (e : ascii) (s : string) : string :=
  match s with
  | "" => ""
  | String c r =>
      if Ascii.eqb c e then String e (String e (escape_with e r))
      else String c (escape_with e r)
  end.

(** writeSuffixedPackage / scheme: empty becomes ".", spaces are doubled. *)
Definition format_field (s : string) : string :=
  escape_with " " (if String.eqb s "" then "." else s).

(** isSimpleIdentifierCharacter *)
Definition is_simple_char (c : ascii) : bool :=
  (is_alnum c || Ascii.eqb c "_" || Ascii.eqb c "+" || Ascii.eqb c "$" || Ascii.eqb c "-")%bool.

(** descriptor names: simple identifiers verbatim, others between backticks *)
Definition format_name (s : string) : string :=
  if str_forallb is_simple_char s then s
  else String backtick (escape_with backtick s +:+ String backtick "").

Definition suffix_string (k : suffix) : string :=
  match k with
  | Namespace => "/" | Type_ => "#" | Term => "." | Method => "()." | Meta => ":"
  end.

Definition format_descriptor (d : descriptor) : string :=
  format_name (d_name d) +:+ suffix_string (d_suffix d).

Definition format_descriptors (l : list descriptor) : string :=
  foldr (λ d acc, format_descriptor d +:+ acc) "" l.

(** scip.VerboseSymbolFormatter.FormatSymbol *)
Definition format_symbol (s : symbol) : string :=
  format_field (s_scheme s) +:+ String " " (
  format_field (sp_manager (s_package s)) +:+ String " " (
  format_field (sp_name (s_package s)) +:+ String " " (
  format_field (sp_version (s_package s)) +:+ String " " (
  format_descriptors (s_descriptors s))))).

(** scip.Relationship: scip-go only sets Symbol and IsImplementation. *)
Record relationship := Rel {
  r_symbol : string; r_is_reference : bool; r_is_implementation : bool;
  r_is_type_definition : bool; r_is_definition : bool }.
Global Instance relationship_eq_dec : EqDecision relationship.
Proof. solve_decision. Defined.

(** sort.Strings order: bytewise lexicographic *)
Fixpoint str_leb (a b : string) : bool :=
  match a, b with
  | "", _ => true
  | String _ _, "" => false
  | String x a', String y b' =>
      if N.eqb (ch_code x) (ch_code y) then str_leb a' b'
      else N.ltb (ch_code x) (ch_code y)
  end.
Definition str_le (a b : string) : Prop := str_leb a b = true.
Global Instance str_le_dec a b : Decision (str_le a b) := decide (str_leb a b = true).

Definition rel_le (a b : relationship) : Prop := str_le (r_symbol a) (r_symbol b).
Global Instance rel_le_dec : RelDecision rel_le := λ a b, str_le_dec (r_symbol a) (r_symbol b).

(** scip.CanonicalizeRelationships = sort by symbol of FlattenRelationship
    (one relationship per symbol, in order of first appearance, flags or'ed). *)
Definition rel_or (a b : relationship) : relationship :=
  Rel (r_symbol a) (r_is_reference a || r_is_reference b)
      (r_is_implementation a || r_is_implementation b)
      (r_is_type_definition a || r_is_type_definition b)
      (r_is_definition a || r_is_definition b).
Fixpoint flatten_add (acc : list relationship) (r : relationship) : list relationship :=
  match acc with
  | [] => [r]
  | x :: acc' =>
      if String.eqb (r_symbol x) (r_symbol r) then rel_or x r :: acc'
      else x :: flatten_add acc' r
  end.
Definition flatten_relationships (l : list relationship) : list relationship :=
  foldl flatten_add [] l.
Definition canonicalize_relationships (l : list relationship) : list relationship :=
  merge_sort rel_le (flatten_relationships l).

(** scip.SymbolRole, SymbolInformation_Kind, Diagnostic, Occurrence, ... *)
Inductive kind :=
| KUnspecified | KFunction | KMethod | KMethodSpecification | KTypeAlias | KStruct
| KInterface | KTypeParameter | KType | KField | KVariable | KConstant | KPackage
| KNamespace | KPredicate.
Global Instance kind_eq_dec : EqDecision kind.
Proof. solve_decision. Defined.

(** scip.SymbolInformation *)
Record syminfo := Info {
  i_symbol : string;
  i_documentation : list string;
  i_relationships : list relationship;
  i_kind : kind;
  i_display_name : string;
  i_signature : option string;   (** SignatureDocumentation.Text, language "go" *)
  i_enclosing : string
}.

(** scip.SymbolRole_Definition = 1, ReadAccess = 8 *)
Definition role_definition : nat := 1.
Definition role_read_access : nat := 8.

Inductive diag := DeprecatedDiag.
Global Instance diag_eq_dec : EqDecision diag.
Proof. solve_decision. Defined.
