(** Examples for the models of x/mod/semver and path/filepath. *)
From Coq Require Import Ascii String.
From stdpp Require Import prelude strings.
From Verif Require Import GoStr Semver Paths.
Open Scope string_scope.

Example ex_pseudo : pseudo_version_rev "v0.0.0-20190718012654-fb15b899a751" = Some "fb15b899a751".
Proof. vm_compute. done. Qed.
Example ex_pseudo2 : pseudo_version_rev "v1.2.4-0.20191109021931-daa7c04131f5+incompatible" = Some "daa7c04131f5".
Proof. vm_compute. done. Qed.
Example ex_pseudo3 : pseudo_version_rev "v1.2.3-pre.0.20191109021931-daa7c04131f5" = Some "daa7c04131f5".
Proof. vm_compute. done. Qed.
Example ex_pseudo4 : pseudo_version_rev "v1.2.3-rc.1" = None.
Proof. vm_compute. done. Qed.
Example ex_build : semver_build "v2.0.0+incompatible" = "+incompatible".
Proof. vm_compute. done. Qed.

Example clean_ex1 : clean "/a//b/./c/../d/" = "/a/b/d".
Proof. done. Qed.
Example clean_ex2 : clean "../a/../../b" = "../../b".
Proof. done. Qed.
Example clean_ex3 : clean "/.." = "/" ∧ clean "" = "." ∧ clean "a/.." = ".".
Proof. done. Qed.
Example rel_ex1 : path_rel "/a/b" "/a/b/c/d.go" = Some "c/d.go".
Proof. done. Qed.
Example rel_ex2 : path_rel "/a/b" "/a/x/d.go" = Some "../x/d.go".
Proof. done. Qed.
Example rel_ex3 : path_rel "/" "/x/d.go" = Some "x/d.go" ∧ path_rel "/a/b" "/" = Some "../..".
Proof. done. Qed.
Example dir_ex : path_dir "/a/b" = "/a" ∧ path_dir "/a" = "/" ∧ path_dir "/" = "/" ∧ path_dir "a" = ".".
Proof. done. Qed.
