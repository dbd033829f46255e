(** path/filepath on Unix (Clean, Join, Dir, Rel, IsLocal, IsAbs), and the code of
    /repo that works on paths:  internal/loader/loader.go 282-296 (isNestedDir),
    internal/visitors/visitors.go 28-29 (the relative path of a document),
    cmd/scip-go/paths.go (searchForGoMod, rel).

    Go's Clean and Rel work byte by byte with a lazy buffer; here they work on the
    slash-separated elements, which is how their documentation describes them.
    Simplification: Rel(base, ".") for a relative base (never called by scip-go,
    which passes absolute paths) would end in "/." in Go. *)
From Coq Require Import Ascii String.
From stdpp Require Import prelude strings.
From Verif Require Import GoStr.
Open Scope string_scope.
Open Scope list_scope.

(** filepath.IsAbs *)
Definition is_abs (p : string) : bool := has_prefix p "/".

(** the non-empty elements of a path *)
Definition elements (p : string) : list string :=
  List.filter (λ c, negb (String.eqb c "")) (split_on "/" p).

(** One element of Clean's loop; [acc] is the output so far, last element first. *)
Definition clean_step (rooted : bool) (acc : list string) (c : string) : list string :=
  if (String.eqb c "" || String.eqb c ".")%bool then acc
  else if String.eqb c ".." then
    match acc with
    | top :: rest => if String.eqb top ".." then c :: acc else rest
    | [] => if rooted then [] else [c]
    end
  else c :: acc.
Definition clean_elements (rooted : bool) (l : list string) : list string :=
  rev (foldl (clean_step rooted) [] l).
Definition render (rooted : bool) (l : list string) : string :=
  if rooted then "/" +:+ join "/" l
  else match l with [] => "." | _ => join "/" l end.
(** filepath.Clean *)
Definition clean (p : string) : string :=
  render (is_abs p) (clean_elements (is_abs p) (elements p)).
(** filepath.Join of two elements (empty elements are ignored) *)
Definition path_join (a b : string) : string :=
  if String.eqb a "" then (if String.eqb b "" then "" else clean b)
  else if String.eqb b "" then clean a
  else clean (a +:+ "/" +:+ b).
(** filepath.Dir: all but the last element, cleaned *)
Definition path_dir (p : string) : string :=
  match last_index "/" p with
  | Some i => clean (str_take (S i) p)
  | None => "."
  end.

(** the loop of filepath.Rel: strip the common leading elements *)
Fixpoint strip_common (b t : list string) : list string * list string :=
  match b, t with
  | x :: b', y :: t' => if String.eqb x y then strip_common b' t' else (b, t)
  | _, _ => (b, t)
  end.
(** filepath.Rel; None is the error *)
Definition path_rel (base targ : string) : option string :=
  let b := clean base in
  let t := clean targ in
  if String.eqb t b then Some "."
  else if negb (Bool.eqb (is_abs b) (is_abs t)) then None
  else
    let b := if String.eqb b "." then "" else b in
    let '(rb, rt) := strip_common (elements b) (elements t) in
    match rb, rt with
    | x :: _, _ :: _ => if String.eqb x ".." then None
                        else Some (join "/" (map (λ _, "..") rb ++ rt))
    | _, _ => Some (join "/" (map (λ _, "..") rb ++ rt))
    end.

(** filepath.IsLocal (unixIsLocal) *)
Definition is_local (p : string) : bool :=
  if (is_abs p || String.eqb p "")%bool then false
  else
    let p := clean p in
    negb (String.eqb p ".." || has_prefix p "../").

(** internal/loader/loader.go 282-296: isNestedDir *)
Definition is_nested_dir (a b : string) : bool :=
  if (String.eqb a "" || String.eqb b "")%bool then false
  else
    match path_rel a b with
    | Some rel => if is_local rel then true else
        match path_rel b a with Some rel => is_local rel | None => false end
    | None => match path_rel b a with Some rel => is_local rel | None => false end
    end.

(** visitors.go 28-29: relative, _ := filepath.Rel(moduleRoot, abs) *)
Definition doc_relative_path (module_root abs : string) : string :=
  match path_rel module_root abs with Some r => r | None => "" end.

(** os.Stat(dir/go.mod): found, not found, or another error *)
Inductive stat := StatFound | StatNotExist | StatError.

(** cmd/scip-go/paths.go 49-56: rel *)
Definition cmd_rel (wd path : string) : string :=
  match path_rel wd path with Some r => r | None => "." end.
(** cmd/scip-go/paths.go 28-47: searchForGoMod.  The loop is run with [fuel]
    iterations at most; None means the fuel ran out. *)
Fixpoint search_loop (stat_gomod : string → stat) (wd root : string) (fuel : nat) (path : string)
  : option string :=
  match fuel with
  | O => None
  | S fuel =>
      if has_prefix path root then Some "."
      else match stat_gomod (path_join path "go.mod") with
           | StatFound => Some (cmd_rel wd path)
           | StatError => Some "."
           | StatNotExist =>
               if String.eqb (path_dir path) path then Some "."
               else search_loop stat_gomod wd root fuel (path_dir path)
           end
  end.
