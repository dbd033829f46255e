(** What a semantic version and a Go pseudo-version are, as descriptions of
    texts (https://semver.org, https://go.dev/ref/mod#pseudo-versions). *)
From Coq Require Import Ascii String.
From stdpp Require Import prelude strings.
From Verif Require Import GoStr.
Open Scope string_scope.
Open Scope list_scope.

Definition all_digits (s : string) : Prop := s ≠ "" ∧ str_forallb is_digit s = true.
(** a number without superfluous leading zero *)
Definition numeric (s : string) : Prop :=
  all_digits s ∧ ¬ (∃ r, s = "0" +:+ r ∧ r ≠ "").
(** letters, digits and hyphens *)
Definition ident (s : string) : Prop :=
  s ≠ "" ∧ str_forallb (λ c, is_alnum c || Ascii.eqb c "-")%bool s = true.
(** a pre-release identifier: not a number with superfluous leading zeros *)
Definition pre_ident (s : string) : Prop :=
  ident s ∧ ¬ (all_digits s ∧ ∃ r, s = "0" +:+ r ∧ r ≠ "").
(** a dot-separated series *)
Definition dotted (P : string → Prop) (s : string) : Prop :=
  Forall P (split_on "." s).

Definition prerelease (s : string) : Prop := s = "" ∨ ∃ p, s = "-" +:+ p ∧ dotted pre_ident p.
Definition build_meta (s : string) : Prop := s = "" ∨ ∃ p, s = "+" +:+ p ∧ dotted ident p.

(** [semver_text v pre b]: v is a semantic version with pre-release part [pre] and
    build metadata [b] (each with its leading character, or empty). *)
Inductive semver_text : string → string → string → Prop :=
| SV_major mj : numeric mj → semver_text ("v" +:+ mj) "" ""
| SV_minor mj mn : numeric mj → numeric mn →
    semver_text ("v" +:+ mj +:+ "." +:+ mn) "" ""
| SV_full mj mn pt pre b :
    numeric mj → numeric mn → numeric pt → prerelease pre → build_meta b →
    semver_text ("v" +:+ mj +:+ "." +:+ mn +:+ "." +:+ pt +:+ pre +:+ b) pre b.

(** [pseudo_text v rev]: v reads vX.0.0-TIME-rev, vX.Y.Z-0.TIME-rev or
    vX.Y.Z-PRE.0.TIME-rev, with optional build metadata; TIME has 14 digits. *)
Inductive pseudo_middle : string → Prop :=
| PM_none : pseudo_middle "0.0-"
| PM_base mn pt : all_digits mn → all_digits pt →
    pseudo_middle (mn +:+ "." +:+ pt +:+ "-" +:+ "0.")
| PM_pre mn pt x : all_digits mn → all_digits pt →
    str_forallb (λ c, negb (Ascii.eqb c "+")) x = true →
    pseudo_middle (mn +:+ "." +:+ pt +:+ "-" +:+ x +:+ "." +:+ "0.").
Definition pseudo_text (v rev : string) : Prop :=
  ∃ mj mid ts b,
    v = "v" +:+ mj +:+ "." +:+ mid +:+ ts +:+ "-" +:+ rev +:+ b ∧
    all_digits mj ∧ pseudo_middle mid ∧
    (slen ts = 14 ∧ str_forallb is_digit ts = true) ∧
    (rev ≠ "" ∧ str_forallb is_alnum rev = true) ∧ build_meta b.
