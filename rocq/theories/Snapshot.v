(** Running the model.  An executable front end for the whole of index.Index, used to compare the model with
    the golden files in /repo/internal/testdata/snapshots (the Snap files).  The loader is run with the
    imports in the order given ([load_run], proved to be an execution of Loader.load_packages); map iterations
    are in the order of the finite maps; crc32 is computed.  [snapshot] follows the test
    internal/index/scip_test.go 26-112 and, for the text, testutil.FormatSnapshots of the SCIP bindings, whose
    source is not in /repo (the layout is read off the golden files). *)
From Coq Require Import Ascii String.
From stdpp Require Import prelude strings gmap sorting relations.
From Verif Require Import GoStr Scip GoTypes Ast Packages Symbols Document Lookup Pass1 Pass2 Paths Env Loader Index
  Quote Fingerprint Impls Signature Source Program.
Open Scope string_scope.
Open Scope list_scope.

(** *** the loader as a function *)
Section Load.
  Context (o : index_opts) (w : world).
  (** loader.go 48-79, imports in the order of the list *)
  Fixpoint add_run (fuel : nat) (h : pheap) (t : ptab) (st : list nat) : option (pheap * ptab) :=
    match st with
    | [] => Some (h, t)
    | p :: st =>
        match fuel with
        | O => None
        | S fuel =>
            match h !! p with
            | None => None
            | Some g =>
                if skips h t g then add_run fuel h t st
                else match normalize_package o w g with
                     | Panic _ => None
                     | Ok g' => add_run fuel (<[p := g']> h) (<[p_path g' := p]> t) (map snd (p_imports g') ++ st)
                     end
            end
        end
    end.
  (** loader.go 120-123 *)
  Fixpoint loop_run (fuel : nat) (h : pheap) (t pj : ptab) (ps : list nat) : option (pheap * ptab * ptab) :=
    match ps with
    | [] => Some (h, t, pj)
    | p :: ps =>
        match add_run fuel h t [p] with
        | None => None
        | Some (h1, t1) =>
            match h1 !! p with
            | Some g => match t1 !! p_path g with
                        | Some q => loop_run fuel h1 t1 (<[p_path g := q]> pj) ps
                        | None => None
                        end
            | None => None
            end
        end
    end.
  Lemma add_run_sound fuel h t st h' t' :
    add_run fuel h t st = Some (h', t') → rtc (lstep o w) (LState h t st) (LState h' t' []).
  Proof.
    revert h t st; induction fuel as [|fuel IH]; intros h t [|p st]; cbn [add_run]; intros E; try discriminate;
      try (injection E as <- <-; apply rtc_refl).
    destruct (h !! p) as [g|] eqn:G; [|done].
    destruct (skips h t g) eqn:K.
    - eapply rtc_l; [eapply L_skip; eauto|by apply IH].
    - destruct (normalize_package o w g) as [g'|] eqn:N; [|done].
      eapply rtc_l; [eapply L_visit; eauto; reflexivity|by apply IH].
  Qed.
  Lemma loop_run_sound fuel ps h t pj h' t' pj' :
    loop_run fuel h t pj ps = Some (h', t', pj') → load_loop o w h t pj ps h' t' pj'.
  Proof.
    revert h t pj; induction ps as [|p ps IH]; intros h t pj; cbn [loop_run]; intros E.
    - injection E as <- <- <-. constructor.
    - destruct (add_run fuel h t [p]) as [[h1 t1]|] eqn:A; [|done].
      destruct (h1 !! p) as [g|] eqn:G; [|done].
      destruct (t1 !! p_path g) as [q|] eqn:Q; [|done].
      eapply LL_cons; [exact (add_run_sound _ _ _ _ _ _ A)|exact G|exact Q|by apply IH].
  Qed.
End Load.
Definition load_run (o : index_opts) (w : world) (bp : nat) (h0 : pheap) (roots : list nat) : option (pheap * ptab * ptab) :=
  loop_run (with_default_version o) w 10000
    (<[bp := builtin_pkg bp (with_default_version o)]> h0) {[ "builtin" := bp ]} ∅ roots.
(** what the function gives is a possible result of LoadPackages *)
Theorem load_run_sound o w bp h0 roots h all proj :
  load_run o w bp h0 roots = Some (h, all, proj) → load_packages o w bp h0 roots h all proj.
Proof. apply loop_run_sound. Qed.

(** *** crc32.ChecksumIEEE *)
Fixpoint crc_bits (k : nat) (c : N) : N :=
  match k with
  | O => c
  | S k => crc_bits k (if N.testbit c 0 then N.lxor (N.shiftr c 1) 3988292384 else N.shiftr c 1)
  end.
Fixpoint crc_bytes (c : N) (s : string) : N :=
  match s with
  | "" => c
  | String a r => crc_bytes (crc_bits 8 (N.lxor c (N_of_ascii a))) r
  end.
Definition crc32 (s : string) : N := N.lxor (crc_bytes 4294967295 s) 4294967295.
Example crc32_check : crc32 "123456789" = 3421780262%N.
Proof. vm_compute. reflexivity. Qed.

(** *** what is known about a directory *)
Definition assoc {B} (l : list (nat * B)) (k : nat) : option B := snd <$> List.find (λ e : nat * B, Nat.eqb e.1 k) l.
Definition sassoc {B} (l : list (string * B)) (k : string) : option B := snd <$> List.find (λ e : string * B, String.eqb e.1 k) l.
(** no rune from 128 on counts as printable, letter or digit: the directories have none in tags or package paths *)
Definition ascii_only : unicode := Unicode (λ _, false) (λ _, false) (λ _, false).
Definition go_quote : string → string := Fingerprint.quote ascii_only.

(** the tables of a types.Info; [r_canon]: the types of struct and interface expressions *)
Record raw := Raw {
  r_defs : list (nat * obj); r_uses : list (nat * obj); r_pkgnames : list (nat * obj);
  r_cases : list obj; r_canon : list (nat * hty) }.
(** types.Info from its tables; the texts of types and objects are printed by the model of go/types' printer;
    [formatted]: the calls of format.Source *)
Definition info (hobjs : list (nat * hobj)) (formatted : list (string * string)) (r : raw) : tinfo :=
  TInfo (assoc (r_defs r)) (assoc (r_uses r)) (assoc (r_pkgnames r)) (r_cases r)
    (λ n, type_string go_quote hp_path <$> assoc (r_canon r) n)
    (λ o, match assoc hobjs (o_id o) with
          | Some ho => type_string_for_object go_quote Quote.unquote (sassoc formatted) ho
          | None => ""
          end).

(** a directory of the test: its path, the module path, whether it has a driver; the files; the loaded packages,
    type information apart, and the roots; go.mod files; the first 8 bytes of sha256 sums; format.Source; the printable objects; underlying types
    and method sets (T, pointer to T) by name; the scopes of dependencies; the package-level types of the project *)
Record input := Input {
  in_root : string; in_module : string; in_driver : bool; in_sources : list src;
  in_packages : list (gpkg * option raw); in_roots : list nat; in_gomods : list (string * string);
  in_digests : list (string * string); in_formatted : list (string * string); in_hobjs : list (nat * hobj);
  in_unders : list (nat * ty); in_msets : list (nat * (list obj * list obj));
  in_scopes : list (nat * list obj); in_levels : list nat }.

Section Run.
  Context (i : input).
  (** scip_test.go 54-69 *)
  Definition run_opts : index_opts :=
    IOpts (in_root i) "0.1.test" (in_module i) "go1.22" false (in_driver i) false [].
  Definition run_world : world :=
    World (λ f, match sassoc (in_gomods i) f with Some p => GoModModule p "" | None => GoModUnreadable end) (λ _, None).
  Definition run_env : tenv := λ tn _, default (TStruct []) (assoc (in_unders i) (tn_id tn)).
  (** MethodSet of a named type and of a pointer to one *)
  Definition run_mset (t : ty) : list obj :=
    match t with
    | TNamed tn _ => match assoc (in_msets i) (tn_id tn) with Some ms => ms.1 | None => [] end
    | TPointer (TNamed tn _) => match assoc (in_msets i) (tn_id tn) with Some ms => ms.2 | None => [] end
    | _ => []
    end.
  Definition run_objstr (o : obj) : string :=
    match assoc (in_hobjs i) (o_id o) with Some ho => object_string go_quote (λ _, "") ho | None => "" end.
  (** the tables of the package at an address *)
  Definition raw_of (ptr : nat) : option raw :=
    match List.find (λ e : gpkg * option raw, Nat.eqb (p_ptr e.1) ptr) (in_packages i) with Some e => e.2 | None => None end.
  Definition complete (e : gpkg * option raw) : gpkg :=
    GPkg (p_ptr e.1) (p_path e.1) (p_name e.1) (p_module e.1) (p_imports e.1) (p_syntax e.1) (p_types e.1)
         (info (in_hobjs i) (in_formatted i) <$> e.2).
  Definition run_orders : orders :=
    Orders (λ t, (map_to_list t).*1) (λ p, match raw_of (p_ptr p) with Some r => map snd (r_defs r) | None => [] end)
      (λ _ d, map_to_list d) (λ _ _ d, map_to_list d) (λ _ _ _ m, map_to_list m) (λ _ _ m, map_to_list m) (λ d, map_to_list d).
  Definition run_maps : map_orders := MapOrders (λ _ t, map_to_list t) (λ _ l, map_to_list l).
  Definition run_heap : pheap := list_to_map (map (λ e : gpkg * option raw, (p_ptr e.1, complete e)) (in_packages i)).
  Definition run_level (p : gpkg) (o : obj) : bool := existsb (Nat.eqb (o_id o)) (in_levels i).
  Definition run_scope (p : gpkg) : list obj := default [] (assoc (in_scopes i) (p_ptr p)).
  Definition run_digest (s : string) : string := default "?" (sassoc (in_digests i) s).

  (** index.Index with a writer that keeps every message (scip_test.go 41-52, 71) *)
  Definition run_index : option (list message) :=
    match load_run run_opts run_world 0 run_heap (in_roots i) with
    | None => None
    | Some (h, all, proj) =>
        match Index.index run_digest run_env (file_set (in_sources i)) h run_objstr run_maps (λ _ _, None)
                (impl_phase run_env ascii_only crc32 run_mset (λ _ _, true) run_level run_scope run_orders h proj all) ""
                (io_module_root run_opts) (io_module_version run_opts) false (Meta "" "" "" []) (LoadOk all proj)
                (map_to_list proj).*1 (map_to_list all).*1 (map_to_list proj).*1 with
        | (msgs, Returned None) => Some msgs
        | _ => None
        end
    end.
End Run.

(** *** testutil.FormatSnapshots *)
Definition spaces (n : Z) : string := Nat.iter (Z.to_nat n) (String " ") "".
Definition carets (n : Z) : string := Nat.iter (Z.to_nat n) (String "^") "".
(** the symbol formatter of scip_test.go 87-96: local symbols as they are; otherwise without scheme and manager, the
    package name left out when it starts with sg/ *)
Definition show_symbol (s : string) : string :=
  if has_prefix s "local " then s
  else match Env.cut " " s with
       | (_, Some r1) => match Env.cut " " r1 with
                         | (_, Some r2) => match Env.cut " " r2 with
                                           | (name, Some r3) => if has_prefix name "sg/" then r3 else r2
                                           | _ => "?"
                                           end
                         | _ => "?"
                         end
       | _ => "?"
       end.
Definition show_kind (k : kind) : string :=
  match k with
  | KUnspecified => "" | KFunction => "Function" | KMethod => "Method" | KMethodSpecification => "MethodSpecification"
  | KTypeAlias => "TypeAlias" | KStruct => "Struct" | KInterface => "Interface" | KTypeParameter => "TypeParameter"
  | KType => "Type" | KField => "Field" | KVariable => "Variable" | KConstant => "Constant" | KPackage => "Package"
  | KNamespace => "Namespace" | KPredicate => "Predicate"
  end.
(** (start line, start column, end line, end column) of a SCIP range *)
Definition range_of (l : list Z) : option (Z * Z * Z * Z) :=
  match l with
  | [a; b; c] => Some (a, b, a, c)
  | [a; b; c; d] => Some (a, b, c, d)
  | _ => None
  end.
Fixpoint zs_leb (a b : list Z) : bool :=
  match a, b with
  | [], _ => true
  | _ :: _, [] => false
  | x :: a, y :: b => if Z.eqb x y then zs_leb a b else Z.ltb x y
  end.
Definition range_key (l : list Z) : list Z := match range_of l with Some (a, b, c, d) => [a; b; c; d] | None => [] end.
Definition occ_leb (a b : occurrence) : bool := zs_leb (range_key (oc_range a)) (range_key (oc_range b)).
Fixpoint insert_occ (x : occurrence) (l : list occurrence) : list occurrence :=
  match l with
  | [] => [x]
  | y :: l' => if occ_leb x y then x :: l else y :: insert_occ x l'
  end.
Definition sort_occs (l : list occurrence) : list occurrence := foldr insert_occ [] l.
Definition comment : string := "//".
Definition quoted_lines (s : string) : list string := map (λ l, "> " +:+ l) (split_on GoStr.newline s).
Definition show_info (i : syminfo) : list string :=
  (if String.eqb (show_kind (i_kind i)) "" then [] else ["kind " +:+ show_kind (i_kind i)]) ++
  (if String.eqb (i_display_name i) "" then [] else ["display_name " +:+ i_display_name i]) ++
  (match i_signature i with Some s => "signature_documentation" :: quoted_lines s | None => [] end) ++
  List.concat (map (λ d, "documentation" :: quoted_lines (trim_space d)) (i_documentation i)) ++
  map (λ r, "relationship " +:+ show_symbol (r_symbol r) +:+
            (if r_is_implementation r then " implementation" else "") +:+ (if r_is_reference r then " reference" else "") +:+
            (if r_is_type_definition r then " type_definition" else "") +:+ (if r_is_definition r then " definition" else ""))
      (i_relationships i).
Definition show_occurrence (syms : list syminfo) (o : occurrence) : list string :=
  match range_of (oc_range o) with
  | Some (_, c, _, e) =>
      let def := Nat.odd (oc_roles o) in
      (comment +:+ spaces c +:+ carets (e - c) +:+ " " +:+ (if def then "definition " else "reference ") +:+ show_symbol (oc_symbol o))
      :: map (λ l, comment +:+ spaces (e + 1) +:+ l)
           ((if def then match List.find (λ i, String.eqb (i_symbol i) (oc_symbol o)) (rev syms) with
                         | Some i => show_info i | None => [] end else []) ++
            List.concat (map (λ _, ["diagnostic Warning:"; "> Deprecated"]) (oc_diags o)))
  | None => ["?"]
  end.
Fixpoint untab (s : string) : string :=
  match s with
  | "" => ""
  | String c r => String (if Ascii.eqb c "009" then " " else c)%char (untab r)
  end.
Definition on_line (n : Z) (f : Z * Z * Z * Z → Z) (l : list Z) : bool :=
  match range_of l with Some r => Z.eqb (f r) n | None => false end.
Fixpoint show_lines (d : document) (occs : list occurrence) (n : Z) (lines : list string) : list string :=
  match lines with
  | [] => []
  | l :: lines =>
      let here := List.filter (λ o, on_line n (λ r, r.1.1.1) (oc_range o)) occs in
      let starting := List.filter (λ o, on_line n (λ r, r.1.1.1) (oc_enclosing o)) occs in
      let ending := List.filter (λ o, on_line n (λ r, r.1.2) (oc_enclosing o)) occs in
      map (λ o, match range_of (oc_enclosing o) with
                | Some (_, c, _, _) => comment +:+ spaces c +:+ "⌄ enclosing_range_start " +:+ show_symbol (oc_symbol o)
                | None => "?" end) starting ++
      ("  " +:+ untab l) ::
      List.concat (map (show_occurrence (d_symbols d)) here) ++
      map (λ o, match range_of (oc_enclosing o) with
                | Some (_, _, _, c) => comment +:+ spaces (c - 1) +:+ "⌃ enclosing_range_end " +:+ show_symbol (oc_symbol o)
                | None => "?" end) ending ++
      show_lines d occs (n + 1) lines
  end.
Definition show_document (text : string) (d : document) : string :=
  String.concat "" (map (λ l, l +:+ nl) (show_lines d (sort_occs (d_occs d)) 0 (split_on GoStr.newline text))).

(** the files, by path *)
Fixpoint insert_file (x : string * string) (l : list (string * string)) : list (string * string) :=
  match l with
  | [] => [x]
  | y :: l' => if str_leb x.1 y.1 then x :: l else y :: insert_file x l'
  end.
(** the file of the external symbols, if there are any *)
Definition show_external (i : syminfo) : list string := show_symbol (i_symbol i) :: map (λ l, "  " +:+ l) (show_info i).
Definition external_file (exts : list syminfo) : list (string * string) :=
  match exts with
  | [] => []
  | _ => [("external_symbols.txt", String.concat nl (List.concat (map show_external exts)))]
  end.
(** scip_test.go 75-112 *)
Definition snapshot (i : input) : option (list (string * string)) :=
  match run_index i with
  | None => None
  | Some msgs =>
      Some (foldr insert_file []
        (external_file (List.concat (map (λ m, match m with MExt i => [i] | _ => [] end) msgs)) ++
         List.concat (map (λ m, match m with
           | MDoc d =>
               if has_prefix (d_path d) ".." then []
               else match List.find (λ s, String.eqb (s_name s) (in_root i +:+ "/" +:+ d_path d)) (in_sources i) with
                    | Some s => [(d_path d, show_document (s_text s) d)]
                    | None => [(d_path d, "?")]
                    end
           | _ => []
           end) msgs)))
  end.
