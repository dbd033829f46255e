(** internal/lookup: lookup.go, local.go *)
From Coq Require Import Ascii String.
From stdpp Require Import prelude strings gmap.
From Verif Require Import GoStr Scip GoTypes Ast Packages Symbols.
Open Scope string_scope.
Open Scope list_scope.

(** lookup.go 32-35: Package.fields *)
Notation ptable := (gmap Z syminfo).

(** lookup.go 48-59: Package.Set *)
Definition pset (m : ptable) (pos : Z) (info : syminfo) : ptable :=
  match m !! pos with
  | Some original =>
      if String.eqb (i_symbol original) (i_symbol info) then m else <[pos := info]> m
  | None => <[pos := info]> m
  end.

(** lookup.go 61-73: Package.Get / GetSymbol (entries are never nil) *)
Definition pget (m : ptable) (pos : Z) : option syminfo := m !! pos.
Definition pget_symbol (m : ptable) (pos : Z) : option string := i_symbol <$> pget m pos.

(** lookup.go 37-46: SymbolsForFile; [order] is the order in which Go happens
    to iterate over the map. *)
Definition symbols_for_file (fs : fset) (file : string) (order : list (Z * syminfo))
  : list (Z * syminfo) :=
  filter (λ e, fs_file fs e.1 = Some file) order.

(** lookup.go 75-80: Global.  The composer and the process-wide skippedTypes
    (117-120) are the mutable caches; builtinSymbols is never written. *)
Record global := Global {
  g_symbols : gmap string (gpkg * ptable);
  g_pkgsyms : gmap string string }.
Record caches := Caches { k_skipped : gset string; k_composer : composer }.

(** lookup.go 24-30 *)
Definition new_global : global := Global ∅ ∅.

(** lookup.go 86-90: Add *)
Definition g_add (g : global) (p : gpkg) (t : ptable) : global :=
  Global (<[p_path p := (p, t)]> (g_symbols g)) (g_pkgsyms g).

(** lookup.go 92-102: SetPkgSymbol *)
Definition set_pkg_symbol (g : global) (p : gpkg) : res global :=
  let! sym := from_descriptors p [Desc (p_path p) Namespace] in
  Ok (Global (<[p_path p := (p, ∅)]> (g_symbols g)) (<[p_path p := sym]> (g_pkgsyms g))).

(** lookup.go 104-115 *)
Definition get_pkg_symbol_by_id (g : global) (id : string) : option string := g_pkgsyms g !! id.
Definition get_pkg_symbol (g : global) (p : gpkg) : option string := get_pkg_symbol_by_id g (p_path p).
Definition get_package (g : global) (p : gpkg) : option ptable := snd <$> g_symbols g !! p_path p.

(** lookup.go 201-223 *)
Definition get_info_by_path (g : global) (id : string) (pos : Z) : option syminfo :=
  match g_symbols g !! id with Some (_, t) => pget t pos | None => None end.
Definition get_symbol (g : global) (p : gpkg) (pos : Z) : option string :=
  i_symbol <$> get_info_by_path g (p_path p) pos.

(** lookup.go 225-231 *)
Definition test_package_combinations (path : string) : list string :=
  [path; path +:+ ".test"; path +:+ " [" +:+ path +:+ ".test]"].

(** result of GetSymbolOfObject: found, (nil, false, nil), or an error *)
Inductive lookup_result := Found (i : syminfo) | Skip | LookupError.

(** a SymbolInformation with only its Symbol set (lookup.go 183, extractor.go 107) *)
Definition bare_info (s : string) : syminfo := Info s [] [] KUnspecified "" None "".

(** lookup.go 153-160: obj.Origin().FullName() = "(error).Error" for an object
    without package *)
Definition is_error_Error (o : obj) : bool :=
  match o_kind (origin o) with
  | OFunc (Some (Some (TNamed tn []))) =>
      (String.eqb (o_name (origin o)) "Error" && String.eqb (tn_name tn) "error"
       && match tn_pkg tn with None => true | Some _ => false end)%bool
  | _ => false
  end.

Fixpoint first_some {A B} (f : A → option B) (l : list A) : option B :=
  match l with
  | [] => None
  | a :: l' => match f a with Some b => Some b | None => first_some f l' end
  end.

(** lookup.go 166-198: the part for objects with a package *)
Definition lookup_in_package (env : tenv) (g : global) (c : composer) (tp : tpkg) (o : obj)
  : lookup_result * composer :=
  let path := tp_path tp in
  if String.eqb path "unsafe" then (Skip, c)
  else match first_some (λ id, get_info_by_path g id (o_pos o)) (test_package_combinations path) with
       | Some info => (Found info, c)
       | None =>
           match g_symbols g !! path with
           | Some (pkg, _) =>
               let '(sym, c') := compose env c (Some pkg) (Some o) in
               if String.eqb sym "" then (LookupError, c') else (Found (bare_info sym), c')
           | None => (LookupError, c)
           end
       end.

(** lookup.go 125-199: GetSymbolOfObject *)
Definition get_symbol_of_object (env : tenv) (g : global) (k : caches) (o : obj)
  : res (lookup_result * caches) :=
  if decide (obj_Id o ∈ k_skipped k) then Ok (Skip, k)
  else match o_kind o with
  | OPkgName _ => Panic "should never lookup PkgName"
  | ONil | OLabel => Ok (Skip, k)
  | kd =>
      match o_pkg o with
      | None =>
          match kd with
          | OTypeName => Ok (Skip, Caches ({[ obj_Id o ]} ∪ k_skipped k) (k_composer k))
          | OConst | OBuiltin => Ok (Skip, k)
          | OFunc _ => if is_error_Error o then Ok (Skip, k) else Panic "failed to create symbol for builtin obj"
          | _ => Panic "failed to create symbol for builtin obj"
          end
      | Some tp =>
          let '(r, c') := lookup_in_package env g (k_composer k) tp o in
          Ok (r, Caches (k_skipped k) c')
      end
  end.

(** local.go 6-9: Local; the object is kept for its name, kind and signature *)
Record local := Local { l_symbol : string; l_obj : obj }.

(** local.go 12-23: SignatureText; [objstr] is types.ObjectString with an empty
    qualifier *)
Definition signature_text (objstr : obj → string) (l : local) : string :=
  match o_kind (l_obj l) with
  | OPkgName path => "import " +:+ o_name (l_obj l) +:+ " " +:+ path
  | _ => objstr (l_obj l)
  end.
