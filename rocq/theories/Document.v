(** internal/document/document.go *)
From Coq Require Import Ascii String.
From stdpp Require Import prelude strings.
From Verif Require Import GoStr Scip GoTypes Ast Packages Symbols.
Open Scope string_scope.
Open Scope list_scope.

(** document.go 28-37: IsDocDeprecated *)
Definition is_doc_deprecated (docs : list string) : bool :=
  existsb (λ d, existsb (λ line, has_prefix line "Deprecated:") (split_on newline d)) docs.

(** document.go 146-202: extractHoverText(nil, n) for the node kinds that can be
    a parent (File, FuncDecl, GenDecl, Field; TypeSpec and ValueSpec with a nil
    parent).  Comment groups are represented by their Text(), which is "" for a
    nil group. *)
Definition hover_node (n : node) : string :=
  match n with
  | NFile _ has_doc doc name _ =>
      if has_doc then trim_space doc else "package " +:+ id_name name
  | NFuncDecl doc _ _ _ _ _ _ => trim_space doc
  | NGenDecl _ _ doc _ => trim_space doc
  | NTypeSpec doc _ _ _ => trim_space doc
  | NValueSpec doc cmt _ _ _ => trim_space (doc +:+ nl +:+ cmt)
  | NField doc cmt _ _ => trim_space (doc +:+ nl +:+ cmt)
  | _ => ""
  end.

(** document.go 158-176: the TypeSpec / ValueSpec cases with a parent *)
Definition hover_spec (parent spec : node) : string :=
  let doc := hover_node spec in
  if String.eqb doc "" then hover_node parent else doc.

(** document.go 181-194: the spec of a GenDecl that declares identifier [i]
    (compared by pointer) *)
Definition declares_ident (i : ident) (spec : node) : bool :=
  match spec with
  | NTypeSpec _ nm _ _ => Nat.eqb (id_ptr nm) (id_ptr i)
  | NValueSpec _ _ names _ _ => existsb (λ nm, Nat.eqb (id_ptr nm) (id_ptr i)) names
  | _ => false
  end.

(** document.go 146-202: extractHoverText(parent, ident) *)
Definition hover_ident (parent : option node) (i : ident) : string :=
  match parent with
  | None => ""
  | Some (NGenDecl p k d specs as g) =>
      match List.find (declares_ident i) specs with
      | Some spec => hover_spec g spec
      | None => hover_node g
      end
  | Some n => hover_node n
  end.

(** document.go 125-133: the documentation list of a declared symbol *)
Definition documentation (parent : option node) (i : ident) : list string :=
  let hover := hover_ident parent i in
  let docs := if String.eqb hover "" then [] else [hover] in
  match parent with
  | Some (NGenDecl _ _ d _) =>
      let block := trim_space d in
      if String.eqb block "" then docs
      else match docs with
           | [] => [block]
           | d0 :: _ => if String.eqb d0 block then docs else docs ++ [block]
           end
  | _ => docs
  end.

(** document.go 102-144: the SymbolInformation built by SetNewSymbolForPos *)
Definition new_symbol_info (env : tenv) (ti : tinfo) (sym : string)
    (parent : option node) (i : ident) : syminfo :=
  let def := ti_defs ti (id_ptr i) in
  Info sym (documentation parent i) [] (kind_for_object env def) (id_name i)
       (match def with
        | Some o => if String.eqb (ti_sig ti o) "" then None else Some (ti_sig ti o)
        | None => None
        end) "".

(** document.go 333-360: quotedTagsToBacktick.  [unquote] is strconv.Unquote.
    Outer loop on the unread suffix; [find_close] is the inner loop: it returns
    the quoted literal (with both quotes) and the rest, or None when no closing
    quote exists, in which case the opening quote byte is dropped (the inner
    loop ends without writing anything and the outer loop goes on at i+1). *)
Fixpoint find_close (s : string) : option (string * string) :=
  match s with
  | "" => None
  | String "\" r =>
      match r with
      | "" => None
      | String c r' =>
          match find_close r' with
          | Some (q, t) => Some (String "\" (String c q), t)
          | None => None
          end
      end
  | String c r =>
      if Ascii.eqb c dquote then Some (String dquote "", r)
      else match find_close r with Some (q, t) => Some (String c q, t) | None => None end
  end.

Fixpoint quoted_tags_fuel (unquote : string → option string) (fuel : nat) (s : string) : string :=
  match fuel with
  | O => ""
  | S fuel' =>
      match s with
      | "" => ""
      | String c r =>
          if Ascii.eqb c dquote then
            match find_close r with
            | Some (q, t) =>
                let quoted := String dquote q in
                (match unquote quoted with
                 | Some u => String backtick (u +:+ String backtick "")
                 | None => quoted
                 end) +:+ quoted_tags_fuel unquote fuel' t
            | None => quoted_tags_fuel unquote fuel' r
            end
          else String c (quoted_tags_fuel unquote fuel' r)
      end
  end.
Definition quoted_tags_to_backtick (unquote : string → option string) (s : string) : string :=
  quoted_tags_fuel unquote (S (slen s)) s.
