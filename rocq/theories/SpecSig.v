(** Specification: the texts that go/types' printer reads, and the struct tags that it shows. *)
From Coq Require Import Ascii String.
From stdpp Require Import prelude strings.
From Verif Require Import GoStr Document Quote Signature Proto.
Open Scope string_scope.
Open Scope list_scope.

(** identifiers, package names and import paths: valid UTF-8, no double quote *)
Definition plain (s : string) : Prop := valid_utf8 s = true ∧ no_quote s.
Definition pkg_texts (p : option hpkg) : list string := match p with Some p => [hp_path p; hp_name p] | None => [] end.

(** the names, and the packages' names and paths, in a type: all its texts but the struct tags *)
Fixpoint texts (t : hty) : list string :=
  match t with
  | HBasic n => [n]
  | HNamed n args tps => hn_name n :: pkg_texts (hn_pkg n) ++ List.concat (map texts args) ++ List.concat (map (λ g : list string * hty, g.1 ++ texts g.2) tps)
  | HPointer t | HSlice t | HArray _ t | HChan _ t => texts t
  | HMap k v => texts k ++ texts v
  | HStruct fields => List.concat (map (λ f : string * bool * string * hty, f.1.1.1 :: texts f.2) fields)
  | HSig tps ps rs _ => List.concat (map (λ g : list string * hty, g.1 ++ texts g.2) tps) ++
      List.concat (map (λ p : string * hty, p.1 :: texts p.2) ps) ++ List.concat (map (λ p : string * hty, p.1 :: texts p.2) rs)
  | HInterface _ ms es => List.concat (map (λ p : string * hty, p.1 :: texts p.2) ms) ++ List.concat (map texts es)
  | HAny | HComparable => []
  | HTypeParam n => [n]
  | HUnion l => List.concat (map (λ x : bool * hty, texts x.2) l)
  end.
(** the tags of the struct types in a type, other than "": of an instance, in its arguments; of a generic type, in
    the constraints of its parameters *)
Fixpoint tags (t : hty) : list string :=
  match t with
  | HNamed n args tps => match args with [] => List.concat (map (λ g : list string * hty, tags g.2) tps) | _ :: _ => List.concat (map tags args) end
  | HPointer t | HSlice t | HArray _ t | HChan _ t => tags t
  | HMap k v => tags k ++ tags v
  | HStruct fields => List.concat (map (λ f : string * bool * string * hty, tags f.2 ++ if String.eqb f.1.2 "" then [] else [f.1.2]) fields)
  | HSig tps ps rs _ => List.concat (map (λ g : list string * hty, tags g.2) tps) ++
      List.concat (map (λ p : string * hty, tags p.2) ps) ++ List.concat (map (λ p : string * hty, tags p.2) rs)
  | HInterface _ ms es => List.concat (map (λ p : string * hty, tags p.2) ms) ++ List.concat (map tags es)
  | HUnion l => List.concat (map (λ x : bool * hty, tags x.2) l)
  | HBasic _ | HAny | HComparable | HTypeParam _ => []
  end.
(** the texts of an object; a constant's value apart *)
Definition group_texts (tps : list (list string * hty)) : list string := List.concat (map (λ g, g.1 ++ texts g.2) tps).
Definition object_texts (o : hobj) : list string :=
  ho_name o :: pkg_texts (ho_pkg o) ++
  match ho_kind o with
  | HPkgName path => [path]
  | HConst t _ | HVar _ t => texts t
  | HTypeName (DAlias tps t) | HTypeName (DDefined tps t) => group_texts tps ++ texts t
  | HTypeName (DOldAlias t) => texts t
  | HTypeName (DTypeParam b t) => texts b ++ texts t
  | HFunc r t => match r with Some r => texts r | None => [] end ++ texts t
  | HLabel | HBuiltin | HNil => []
  end.
Definition object_plain (o : hobj) : Prop :=
  Forall plain (object_texts o) ∧ ∀ t v, ho_kind o = HConst t v → valid_utf8 v = true.
(** the tags that are shown unquoted: those in the type of a field *)
Definition field_tags (o : hobj) : list string := match ho_kind o with HVar true t => tags t | _ => [] end.
(** go/format gives valid text for valid text *)
Definition gofmt_text (gofmt : string → option string) : Prop := ∀ s r, valid_utf8 s = true → gofmt s = Some r → valid_utf8 r = true.
