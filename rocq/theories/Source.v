(** Source text and token positions: the part of go/token (and of go/scanner, which builds the line table) on
    which every call Fset.Position(pos) and Fset.File(pos) in /repo depends (visitors.go 21-41, 98-112;
    visitor_file.go 324-330; symbols.go 27-38; scip.go 74, 134, 231-242; package_ident.go 25-26).  The model
    follows the sources of the Go standard library, from memory. *)
From Coq Require Import Ascii String.
From stdpp Require Import prelude strings.
From Verif Require Import GoStr Packages.
Open Scope string_scope.
Open Scope list_scope.
Local Open Scope Z_scope.

(** token.lineInfo: an alternative position recorded for a line directive (//line f:l:c); column 0 when the
    directive has none *)
Record directive := Directive { dir_off : Z; dir_file : string; dir_line : Z; dir_col : Z }.
(** token.File with the text it was made for: name, base, size, lines and infos *)
Record src := Src { s_name : string; s_base : Z; s_text : string; s_directives : list directive }.

(** the offsets that follow a newline *)
Fixpoint starts (off : Z) (s : string) : list Z :=
  match s with
  | "" => []
  | String c r => if Ascii.eqb c newline then (off + 1) :: starts (off + 1) r else starts (off + 1) r
  end.
(** File.lines: 0, then what scanner.next passes to File.AddLine, which ignores offsets >= the size *)
Definition line_table (text : string) : list Z :=
  0 :: List.filter (λ o, Z.ltb o (Z.of_nat (slen text))) (starts 0 text).
(** searchInts on the sorted line table: the number of entries <= x, and the last of them *)
Fixpoint locate (l : list Z) (line start x : Z) : Z * Z :=
  match l with
  | [] => (line, start)
  | s :: l' => if Z.leb s x then locate l' (line + 1) s x else (line, start)
  end.
(** searchLineInfos: the last directive at or before the offset *)
Fixpoint active (l : list directive) (off : Z) (acc : option directive) : option directive :=
  match l with
  | [] => acc
  | d :: l' => if Z.leb (dir_off d) off then active l' off (Some d) else acc
  end.
(** File.unpack with adjusted = true *)
Definition unpack (s : src) (off : Z) : position :=
  let '(line, start) := locate (line_table (s_text s)) 0 0 off in
  let column := off - start + 1 in
  match active (s_directives s) off None with
  | None => Position (s_name s) line column
  | Some alt =>
      let d := line - (locate (line_table (s_text s)) 0 0 (dir_off alt)).1 in
      Position (dir_file alt) (dir_line alt + d)
        (if Z.eqb (dir_col alt) 0 then 0 else if Z.eqb d 0 then dir_col alt + (off - dir_off alt) else column)
  end.
(** FileSet.file *)
Definition covers (s : src) (p : Z) : bool := (Z.leb (s_base s) p && Z.leb p (s_base s + Z.of_nat (slen (s_text s))))%bool.
(** FileSet.Position and FileSet.File *)
Definition file_set (srcs : list src) : fset :=
  FSet (λ p, if Z.eqb p 0 then Position "" 0 0 else
             match List.find (λ s, covers s p) srcs with
             | Some s => unpack s (p - s_base s)
             | None => Position "" 0 0
             end)
       (λ p, if Z.eqb p 0 then None else s_name <$> List.find (λ s, covers s p) srcs).
