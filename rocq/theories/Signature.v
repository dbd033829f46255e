(** internal/document/document.go 204-329: the signature text of a symbol; lookup/local.go 12-23.
    go/types' printer (typestring.go, object.go: TypeString, ObjectString) is modelled from memory; go/format
    is an oracle (gofmt); strconv.Quote and Unquote are oracles. *)
From Coq Require Import Ascii String.
From stdpp Require Import prelude strings.
From Verif Require Import GoStr Document.
Open Scope string_scope.
Open Scope list_scope.

(** *types.Package: import path and name *)
Record hpkg := HPkg { hp_path : string; hp_name : string }.
Global Instance hpkg_eq_dec : EqDecision hpkg.
Proof. solve_decision. Defined.
(** the TypeName of a named type or alias *)
Record hname := HName { hn_pkg : option hpkg; hn_name : string }.

(** types.Type, with what the printer reads.  Instances (HNamed n args []) and generic types with their
    parameters and constraints (HNamed n [] tparams) print alike whether defined or alias; type parameters
    come in groups that share one constraint object.  HAny and HComparable are the interfaces of the
    universe's any and comparable; HInterface true is an implicit interface; the methods' types are HSig. *)
Inductive hty : Type :=
| HBasic (name : string)
| HNamed (n : hname) (targs : list hty) (tparams : list (list string * hty))
| HPointer (t : hty)
| HSlice (t : hty)
| HArray (len : Z) (t : hty)
| HMap (k v : hty)
| HChan (dir : nat) (t : hty)
| HStruct (fields : list (string * bool * string * hty))   (** name, embedded, tag, type *)
| HSig (tparams : list (list string * hty)) (params results : list (string * hty)) (variadic : bool)
| HInterface (implicit : bool) (methods : list (string * hty)) (embeddeds : list hty)
| HAny | HComparable
| HTypeParam (name : string)
| HUnion (terms : list (bool * hty)).

Section hty_ind.
  Variable P : hty → Prop.
  Hypothesis HBa : ∀ n, P (HBasic n).
  Hypothesis HNa : ∀ n l tps, Forall P l → Forall (λ x, P x.2) tps → P (HNamed n l tps).
  Hypothesis HPo : ∀ t, P t → P (HPointer t).
  Hypothesis HSl : ∀ t, P t → P (HSlice t).
  Hypothesis HAr : ∀ n t, P t → P (HArray n t).
  Hypothesis HMa : ∀ k v, P k → P v → P (HMap k v).
  Hypothesis HCh : ∀ d t, P t → P (HChan d t).
  Hypothesis HSt : ∀ l, Forall (λ x, P x.2) l → P (HStruct l).
  Hypothesis HSi : ∀ tps ps rs v, Forall (λ x, P x.2) tps → Forall (λ x, P x.2) ps → Forall (λ x, P x.2) rs → P (HSig tps ps rs v).
  Hypothesis HIn : ∀ b ms es, Forall (λ x, P x.2) ms → Forall P es → P (HInterface b ms es).
  Hypothesis HAn : P HAny.
  Hypothesis HCo : P HComparable.
  Hypothesis HTp : ∀ n, P (HTypeParam n).
  Hypothesis HUn : ∀ l, Forall (λ x, P x.2) l → P (HUnion l).
  Fixpoint hty_ind' (t : hty) : P t :=
    let all := fix all (l : list hty) : Forall P l :=
      match l with [] => Forall_nil_2 _ | t :: l => Forall_cons_2 _ _ _ (hty_ind' t) (all l) end in
    let allp := fix allp {A} (l : list (A * hty)) : Forall (λ m, P m.2) l :=
      match l with
      | [] => Forall_nil_2 _
      | (a, t) :: l => Forall_cons_2 (λ m, P m.2) (a, t) l (hty_ind' t) (allp l)
      end in
    match t with
    | HBasic n => HBa n
    | HNamed n l tps => HNa n l tps (all l) (allp tps)
    | HPointer t => HPo t (hty_ind' t)
    | HSlice t => HSl t (hty_ind' t)
    | HArray n t => HAr n t (hty_ind' t)
    | HMap k v => HMa k v (hty_ind' k) (hty_ind' v)
    | HChan d t => HCh d t (hty_ind' t)
    | HStruct l => HSt l (allp l)
    | HSig tps ps rs v => HSi tps ps rs v (allp tps) (allp ps) (allp rs)
    | HInterface b ms es => HIn b ms es (allp ms) (all es)
    | HAny => HAn
    | HComparable => HCo
    | HTypeParam n => HTp n
    | HUnion l => HUn l (allp l)
    end.
End hty_ind.

(** the package unsafe *)
Definition unsafe_pkg : hpkg := HPkg "unsafe" "unsafe".

Section Printer.
  (** strconv.Quote; the qualifier *)
  Context (quote : string → string) (qf : hpkg → string).

  (** object.go: packagePrefix *)
  Definition prefix_of (p : option hpkg) : string :=
    match p with
    | None => ""
    | Some p => if String.eqb (qf p) "" then "" else qf p +:+ "."
    end.
  (** typestring.go: typeName *)
  Definition write_name (n : hname) : string := prefix_of (hn_pkg n) +:+ hn_name n.
  Definition is_recv_chan (t : hty) : bool := match t with HChan 2 _ => true | _ => false end.
  (** a parameter's or result's name and the blank after it *)
  Definition label (name : string) : string := if String.eqb name "" then "" else name +:+ " ".

  (** typestring.go: typ, typeList, tParamList, tuple, signature; [bare]: a signature without the keyword func *)
  Fixpoint write (bare : bool) (t : hty) {struct t} : string :=
    match t with
    | HBasic n => if String.eqb n "Pointer" then write_name (HName (Some unsafe_pkg) n) else n
    | HNamed n args tps =>
        write_name n +:+
        (match args with
         | _ :: _ => "[" +:+ String.concat ", " (map (write false) args) +:+ "]"
         | [] => match tps with
                 | [] => ""
                 | _ :: _ => "[" +:+ String.concat ", " (map (λ p : list string * hty, String.concat ", " p.1 +:+ " " +:+ write false p.2) tps) +:+ "]"
                 end
         end)
    | HPointer t => "*" +:+ write false t
    | HSlice t => "[]" +:+ write false t
    | HArray n t => "[" +:+ show_Z n +:+ "]" +:+ write false t
    | HMap k v => "map[" +:+ write false k +:+ "]" +:+ write false v
    | HChan d t =>
        match d with
        | 0 => if is_recv_chan t then "chan (" +:+ write false t +:+ ")" else "chan " +:+ write false t
        | 1 => "chan<- " +:+ write false t
        | _ => "<-chan " +:+ write false t
        end
    | HStruct fields =>
        "struct{" +:+ String.concat "; "
          (map (λ f : string * bool * string * hty, (if f.1.1.2 then "" else f.1.1.1 +:+ " ") +:+ write false f.2 +:+
                     (if String.eqb f.1.2 "" then "" else " " +:+ quote f.1.2)) fields) +:+ "}"
    | HSig tps ps rs variadic =>
        (if bare then "" else "func") +:+
        (match tps with
         | [] => ""
         | _ :: _ => "[" +:+ String.concat ", " (map (λ p : list string * hty, String.concat ", " p.1 +:+ " " +:+ write false p.2) tps) +:+ "]"
         end) +:+
        "(" +:+ String.concat ", "
          ((fix params (l : list (string * hty)) : list string :=
            match l with
            | [] => []
            | p :: l' =>
                (label p.1 +:+
                 (if (variadic && match l' with [] => true | _ => false end)%bool
                  then match p.2 with
                       | HSlice e => "..." +:+ write false e
                       | _ => write false p.2 +:+ "..."
                       end
                  else write false p.2)) :: params l'
            end) ps) +:+ ")" +:+
        (match rs with
         | [] => ""
         | r :: rs' =>
             if (String.eqb r.1 "" && match rs' with [] => true | _ => false end)%bool
             then " " +:+ write false r.2
             else " (" +:+ String.concat ", " (map (λ p : string * hty, label p.1 +:+ write false p.2) rs) +:+ ")"
         end)
    | HInterface implicit ms es =>
        let text := "interface{" +:+ String.concat "; " (map (λ m : string * hty, m.1 +:+ write true m.2) ms ++ map (write false) es) +:+ "}" in
        if implicit then
          match ms, es with
          | [], [e] => write false e
          | _, _ => "/* implicit */ " +:+ text
          end
        else text
    | HAny => "any"
    | HComparable => "interface{comparable}"
    | HTypeParam n => n
    | HUnion l => String.concat " | " (map (λ x : bool * hty, (if x.1 then "~" else "") +:+ write false x.2) l)
    end.
  (** types.TypeString *)
  Definition type_string (t : hty) : string := write false t.
  (** typestring.go: tParamList *)
  Definition tparam_list (tps : list (list string * hty)) : string :=
    match tps with
    | [] => ""
    | _ :: _ => "[" +:+ String.concat ", " (map (λ p : list string * hty, String.concat ", " p.1 +:+ " " +:+ write false p.2) tps) +:+ "]"
    end.
End Printer.

(** a types.TypeName's type: an *types.Alias with its parameters and right-hand side (types.Alias.Rhs); an alias
    that is not materialised (GODEBUG=gotypealias=0), with its underlying type; a defined type or a type
    parameter with its underlying type *)
Inductive hdecl :=
| DAlias (tps : list (list string * hty)) (rhs : hty)
| DOldAlias (under : hty)
| DDefined (tps : list (list string * hty)) (under : hty)
| DTypeParam (bound under : hty).
(** types.Object; [ho_top]: Pkg().Scope().Lookup(Name()) is the object.  A constant's value is Val().String(). *)
Inductive hkind :=
| HPkgName (path : string)
| HConst (t : hty) (val : string)
| HTypeName (d : hdecl)
| HVar (field : bool) (t : hty)
| HFunc (recv : option hty) (sig : hty)
| HLabel | HBuiltin | HNil.
Record hobj := HObj { ho_name : string; ho_pkg : option hpkg; ho_top : bool; ho_kind : hkind }.

(** object.go: ObjectString (writeObject, writeFuncName) *)
Definition object_string (quote : string → string) (qf : hpkg → string) (o : hobj) : string :=
  let name := (if ho_top o then prefix_of qf (ho_pkg o) else "") +:+ ho_name o in
  let ts := type_string quote qf in
  match ho_kind o with
  | HPkgName path =>
      "package " +:+ ho_name o +:+
      (if (String.eqb path "" || String.eqb path (ho_name o))%bool then "" else " (" +:+ quote path +:+ ")")
  | HConst t _ => "const " +:+ name +:+ " " +:+ ts t
  | HTypeName d =>
      match d with
      | DAlias tps rhs => "type " +:+ name +:+ tparam_list quote qf tps +:+ " = " +:+ ts rhs
      | DOldAlias u => "type " +:+ name +:+ " = " +:+ ts u
      | DDefined tps u => "type " +:+ name +:+ tparam_list quote qf tps +:+ " " +:+ ts u
      | DTypeParam b _ => "type parameter " +:+ name +:+ " " +:+ ts b
      end
  | HVar true t => "field " +:+ name +:+ " " +:+ ts t
  | HVar false t => "var " +:+ name +:+ " " +:+ ts t
  | HFunc r sig =>
      "func " +:+
      (match r with
       | Some r => "(" +:+ (match r with HInterface _ _ _ | HAny | HComparable => "interface" | _ => ts r end) +:+ ")."
       | None => prefix_of qf (ho_pkg o)
       end) +:+ ho_name o +:+ write quote qf true sig
  | HLabel => "label " +:+ name
  | HBuiltin => "builtin " +:+ name
  | HNil => "nil"
  end.

(** document.go 204-214: relativeQualifier *)
Definition relative_qualifier (pkg : option hpkg) (other : hpkg) : string :=
  if decide (pkg = Some other) then "" else hp_name other.

(** document.go 23-24: indent *)
Definition indent : string := "    ".
Definition tab : ascii := "009".
(** strings.ReplaceAll(s, "\t", indent) *)
Fixpoint expand_tabs (s : string) : string :=
  match s with
  | "" => ""
  | String c r => if Ascii.eqb c tab then indent +:+ expand_tabs r else String c (expand_tabs r)
  end.

Section Signature.
  (** strconv.Quote and Unquote, go/format.Source (None: error) *)
  Context (quote : string → string) (unquote : string → option string) (gofmt : string → option string).

  (** document.go 317-329: formatGoDecl *)
  Definition format_go_decl (decl : string) : option string :=
    (λ formatted, expand_tabs (trim_space (trim_prefix formatted ("package p" +:+ nl +:+ nl)))) <$>
      gofmt ("package p" +:+ nl +:+ nl +:+ decl +:+ nl).
  (** document.go 302-315: expandTypeExpr *)
  Definition expand_type_expr (pkg : option hpkg) (t : hty) : string :=
    let raw := type_string quote (relative_qualifier pkg) t in
    match t with
    | HStruct _ | HInterface _ _ _ | HAny | HComparable =>
        match format_go_decl ("type _ " +:+ raw) with
        | Some formatted => trim_prefix formatted "type _ "
        | None => raw
        end
    | _ => raw
    end.
  (** document.go 281-300: formatTypeParamList; Constraint().String() is TypeString with no qualifier, which
      prints package paths *)
  Definition format_type_param_list (tps : list (list string * hty)) : string :=
    match tps with
    | [] => ""
    | _ :: _ =>
        "[" +:+ String.concat ", "
          (List.concat (map (λ g : list string * hty, map (λ n, n +:+ " " +:+ type_string quote hp_path g.2) g.1) tps)) +:+ "]"
    end.
  (** document.go 251-279: formatAliasDeclaration *)
  Definition format_alias_declaration (pkg : option hpkg) (name : string) (tps : list (list string * hty)) (rhs : hty) : string :=
    let lhs := name +:+ format_type_param_list tps in
    match rhs with
    | HNamed _ _ _ => "type " +:+ lhs +:+ " = " +:+ type_string quote (relative_qualifier pkg) rhs
    | _ => "type " +:+ lhs +:+ " = " +:+ expand_type_expr pkg rhs
    end.
  (** document.go 241-249: formatTypeDeclaration; 277-278: the fallback of formatAliasDeclaration *)
  Definition format_type_declaration (pkg : option hpkg) (name : string) (d : hdecl) : string :=
    match d with
    | DAlias tps rhs => format_alias_declaration pkg name tps rhs
    | DOldAlias u | DDefined _ u | DTypeParam _ u => "type " +:+ name +:+ " " +:+ expand_type_expr pkg u
    end.
  (** document.go 216-237: typeStringForObject *)
  Definition type_string_for_object (o : hobj) : string :=
    let qual := relative_qualifier (ho_pkg o) in
    match ho_kind o with
    | HPkgName _ => "package " +:+ ho_name o
    | HTypeName d => format_type_declaration (ho_pkg o) (ho_name o) d
    | HVar true _ => "struct " +:+ quoted_tags_to_backtick unquote (object_string quote qual o)
    | HConst _ v => object_string quote qual o +:+ " = " +:+ v
    | _ => object_string quote qual o
    end.

  (** lookup/local.go 12-23: SignatureText *)
  Definition local_signature (o : hobj) : string :=
    match ho_kind o with
    | HPkgName path => "import " +:+ ho_name o +:+ " " +:+ path
    | _ => object_string quote (λ _, "") o
    end.
End Signature.
