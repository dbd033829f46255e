(** Line directives: //line with a column and one without, for C69. *)
From Coq Require Import Ascii String.
From stdpp Require Import prelude strings.
From Verif Require Import GoStr Scip GoTypes Packages Ast SpecSymbol SpecOcc Source SpecSource P_Source PropSource PropDirective.
Open Scope string_scope.
Open Scope list_scope.
Local Open Scope Z_scope.

Definition nl : string := String newline "".
(** generated code: two snippets of g.y, the second with its directive lacking a column *)
Definition a1 : string := "package q" +:+ nl +:+ "//line g.y:3:5" +:+ nl.
Definition m1 : string := "var a int" +:+ nl +:+ "  var ".
Definition b1 : string := " = a" +:+ nl +:+ "//line g.y:9" +:+ nl.
Definition b2 : string := "var c int" +:+ nl.
Definition g_src : src := Src "/src/q.go" 1 (a1 +:+ m1 +:+ "z" +:+ b1 +:+ b2)
  [Directive (Z.of_nat (slen a1)) "g.y" 3 5; Directive (Z.of_nat (slen (a1 +:+ m1 +:+ "z" +:+ b1))) "g.y" 9 0].
(** the file the generator read *)
Definition g_origin : string := "%token X" +:+ nl +:+ "%{" +:+ nl +:+ "    var a int" +:+ nl +:+ "  var z = a" +:+ nl +:+ "%}" +:+ nl.
Definition g_z : Ast.ident := {| id_ptr := 1%nat; id_name := "z"; id_pos := 1 + Z.of_nat (slen (a1 +:+ m1)) |}.
Definition g_c : Ast.ident := {| id_ptr := 2%nat; id_name := "c"; id_pos := 1 + Z.of_nat (slen ((a1 +:+ m1 +:+ "z" +:+ b1) +:+ "var ")) |}.

Lemma g_disjoint : disjoint_files [g_src].
Proof. split; [intros s ->%elem_of_list_singleton; done|]. by intros s s' p ->%elem_of_list_singleton ->%elem_of_list_singleton. Qed.

Example C69_line_directive_ex :
  ident_span (file_set [g_src]) g_z = [3; 6; 7] ∧
  selects slen g_origin (ident_span (file_set [g_src]) g_z) 32 "z".
Proof.
  split; [vm_compute; reflexivity|].
  refine (C69_line_directive [g_src] g_src g_z (Directive (Z.of_nat (slen a1)) "g.y" 3 5) a1 m1 (b1 +:+ b2)
    g_origin ("%token X" +:+ nl +:+ "%{" +:+ nl +:+ "    ") (" = a" +:+ nl +:+ "%}" +:+ nl) g_disjoint _ _ _ _ _ _ _ _).
  - left.
  - vm_compute. reflexivity.
  - by split.
  - vm_compute. reflexivity.
  - reflexivity.
  - exists [], [Directive (Z.of_nat (slen (a1 +:+ m1 +:+ "z" +:+ b1))) "g.y" 9 0].
    split; [reflexivity|]. split; [intros d ->%elem_of_list_singleton|intros d ->%elem_of_list_singleton]; vm_compute; congruence.
  - vm_compute. reflexivity.
  - change (dir_line _ - 1) with 2. change (dir_col _ - 1) with 4. exists ("%token X" +:+ nl +:+ "%{" +:+ nl), "    ".
    split; [vm_compute; reflexivity|]. split; [right; exists ("%token X" +:+ nl +:+ "%{"); vm_compute; reflexivity|].
    split; [reflexivity|]. split; vm_compute; reflexivity.
Qed.
Print Assumptions C69_line_directive_ex.

Example C69_directive_line_ex :
  ident_span (file_set [g_src]) g_c = [8; -1; -1] ∧
  ∃ c1 c2, decode_range (ident_span (file_set [g_src]) g_c) = Some ((8, c1), (8, c2)).
Proof.
  split; [vm_compute; reflexivity|].
  refine (C69_directive_line [g_src] g_src g_c (Directive (Z.of_nat (slen (a1 +:+ m1 +:+ "z" +:+ b1))) "g.y" 9 0)
    (a1 +:+ m1 +:+ "z" +:+ b1) "var " (" int" +:+ nl) (nl +:+ nl +:+ nl +:+ nl +:+ nl +:+ nl +:+ nl +:+ nl) g_disjoint _ _ _ _ _ _ _).
  - left.
  - vm_compute. reflexivity.
  - by split.
  - vm_compute. reflexivity.
  - reflexivity.
  - exists [Directive (Z.of_nat (slen a1)) "g.y" 3 5], []. split; [reflexivity|].
    split; [|by intros d ?%elem_of_nil]. intros d Hd. cbn [app] in Hd.
    apply elem_of_cons in Hd as [->|Hd%elem_of_list_singleton]; [|rewrite Hd]; vm_compute; congruence.
  - reflexivity.
Qed.
Print Assumptions C69_directive_line_ex.
