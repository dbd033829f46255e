(** What an import of a package stands for: the entry of packages.Package.Imports (a map; modelled by the list of its
    entries, in which every key occurs once). *)
From Coq Require Import Ascii String.
From stdpp Require Import prelude strings gmap sorting.
From Verif Require Import GoStr Scip GoTypes Ast Packages Loader Index.
Open Scope string_scope.
Open Scope list_scope.

(** the entry of the import path [ipath] of package p is package imp *)
Definition imported (h : pheap) (p : gpkg) (ipath : string) (imp : gpkg) : Prop :=
  ∃ before q after, p_imports p = before ++ (ipath, q) :: after ∧ (∀ e, e ∈ before → e.1 ≠ ipath) ∧ h !! q = Some imp.

(** the model's lookup finds it *)
Lemma imports_of_imported h p ipath imp : imports_of h p ipath = Some imp ↔ imported h p ipath imp.
Proof.
  unfold imports_of, imported. induction (p_imports p) as [|[k q] l IH]; cbn [List.find fst].
  - split; [done|]. intros (b & q & a & E & _). by destruct b.
  - destruct (String.eqb_spec k ipath) as [->|Hne].
    + cbn [snd]. split.
      * intros H. exists [], q, l. split; [done|]. split; [by intros ? ?%elem_of_nil|done].
      * intros ([|e b] & q' & a & E & Hb & H); [by injection E as -> ->|]. injection E as <- _. by destruct (Hb (ipath, q) ltac:(left)).
    + rewrite IH. split; intros (b & q' & a & E & Hb & H).
      * exists ((k, q) :: b), q', a. split; [by rewrite E|]. split; [|done]. intros e [->|He]%elem_of_cons; [done|auto].
      * destruct b as [|e b]; [by injection E as -> _ _|]. injection E as <- ->. exists b, q', a. split; [done|]. split; [|done].
        intros e He. apply Hb. by right.
Qed.
(** with every key once, that is: any entry *)
Lemma imported_once h p ipath imp : NoDup (map fst (p_imports p)) →
  imported h p ipath imp ↔ ∃ q, (ipath, q) ∈ p_imports p ∧ h !! q = Some imp.
Proof.
  intros Hn. split.
  - intros (b & q & a & E & _ & H). exists q. split; [|done]. rewrite E. apply elem_of_app. right. left.
  - intros (q & Hin & H). apply elem_of_list_split in Hin as (b & a & E). exists b, q, a. split; [done|]. split; [|done].
    intros e He Hk. rewrite E, List.map_app in Hn. apply NoDup_app in Hn as (_ & Hd & _). apply (Hd ipath); [|left].
    apply elem_of_list_In, in_map_iff. exists e. split; [done|]. by apply elem_of_list_In.
Qed.
