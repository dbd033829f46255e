(** C44 (document paths) and C45 (module root search). *)
From Coq Require Import Ascii String.
From stdpp Require Import prelude strings.
From Verif Require Import GoStr Paths P_Paths.
Open Scope string_scope.
Open Scope list_scope.

(** ------------------------------------------------------------------ *)
(** Specification vocabulary.  A name is a non-empty text without "/" that is
    neither "." nor ".."; the absolute path of a list of names is "/n1/n2/...".
    [walk d r]: the directory reached from directory [d] by following the
    elements [r], ".." going up. *)
Definition name_ok (s : string) : Prop :=
  s ≠ "" ∧ str_forallb (λ a, negb (Ascii.eqb a "/")) s = true ∧ s ≠ "." ∧ s ≠ "..".
Definition abs_path (l : list string) : string := "/" +:+ String.concat "/" l.
Fixpoint walk (d r : list string) : list string :=
  match r with
  | [] => d
  | e :: r' =>
      if String.eqb e "." then walk d r'
      else if String.eqb e ".." then walk (removelast d) r'
      else walk (d ++ [e]) r'
  end.

Lemma name_proper l : Forall name_ok l → Forall proper l.
Proof.
  intros H. eapply Forall_impl; [exact H|].
  intros x (H1 & H2 & H3 & H4). by repeat split.
Qed.

Lemma walk_names d l : Forall proper l → walk d l = d ++ l.
Proof.
  revert d. induction l as [|c l IH]; intros d H; [by rewrite List.app_nil_r|].
  inversion H as [|?? [_ [Hd Hdd]] Hl]; subst. cbn.
  destruct (String.eqb_spec c "."); [done|]. destruct (String.eqb_spec c ".."); [done|].
  rewrite IH by done. by rewrite <-List.app_assoc.
Qed.
Lemma walk_ups c rb r : walk (c ++ rb) (ups (length rb) ++ r) = walk c r.
Proof.
  revert c. induction rb as [|x rb IH] using rev_ind; intros c; [by rewrite List.app_nil_r|].
  rewrite app_length, Nat.add_comm. cbn [length plus ups replicate app walk String.eqb Ascii.eqb Bool.eqb].
  rewrite List.app_assoc, removelast_last. apply IH.
Qed.
Lemma split_join l : Forall elem_ok l → l ≠ [] → split_on "/" (join "/" l) = l.
Proof.
  induction l as [|a l IH]; intros H Hne; [done|]. inversion H as [|?? [Ha Hns] Hl]; subst.
  destruct l as [|b l]; [by apply split_on_nosep|].
  rewrite join_cons2. change ("/" +:+ ?x) with (String "/" x).
  rewrite split_on_app_sep by done. by rewrite IH.
Qed.

Definition rel_elements (root file : list string) : list string :=
  split_on "/" (doc_relative_path (abs_path root) (abs_path file)).

(** C44: the document path, followed from the module root, leads to the file. *)
Theorem C44_relative_path_resolves root file :
  Forall name_ok root → Forall name_ok file →
  walk root (rel_elements root file) = file.
Proof.
  intros Hb%name_proper Ht%name_proper. unfold rel_elements, doc_relative_path.
  change abs_path with R.
  destruct (rel_R root file Hb Ht) as (c & rb & rt & Hbe & Hte & Hd & ->).
  assert (Forall proper rb) as Hrb by (rewrite Hbe, Forall_app in Hb; by destruct Hb).
  assert (Forall proper rt) as Hrt by (rewrite Hte, Forall_app in Ht; by destruct Ht).
  destruct (decide (rb = [] ∧ rt = [])) as [[-> ->]|Hne].
  - rewrite List.app_nil_r in Hbe, Hte. cbn. congruence.
  - set (l := ups (length rb) ++ rt).
    replace (match rb, rt with [], [] => "." | _, _ => join "/" l end) with (join "/" l)
      by (destruct rb; [destruct rt; [tauto|done]|done]).
    rewrite split_join.
    + unfold l. rewrite Hbe at 1. rewrite walk_ups, walk_names by done. done.
    + unfold l. rewrite Forall_app. split; [apply ups_ok|by apply proper_ok].
    + unfold l. destruct rb; [destruct rt; [tauto|done]|done].
Qed.
(** the same through filepath.Join, which is how consumers resolve it *)
Theorem C44_join_resolves root file :
  Forall name_ok root → Forall name_ok file →
  path_join (abs_path root) (doc_relative_path (abs_path root) (abs_path file)) = abs_path file.
Proof.
  intros Hb%name_proper Ht%name_proper. unfold doc_relative_path. change abs_path with R.
  destruct (rel_R root file Hb Ht) as (c & rb & rt & Hbe & Hte & Hd & HE). rewrite HE.
  by apply rel_resolve.
Qed.
(** C44: distinct files get distinct document paths. *)
Theorem C44_distinct_files root f g :
  Forall name_ok root → Forall name_ok f → Forall name_ok g →
  doc_relative_path (abs_path root) (abs_path f) = doc_relative_path (abs_path root) (abs_path g) →
  f = g.
Proof.
  intros Hr Hf Hg HE. rewrite <-(C44_relative_path_resolves root f), <-(C44_relative_path_resolves root g) by done.
  unfold rel_elements. by rewrite HE.
Qed.
(** C44: a file below the module root gets exactly the rest of its path, with no
    ".." element; any other file gets a path starting with "..". *)
Theorem C44_below_root root x rest :
  Forall name_ok root → Forall name_ok (x :: rest) →
  doc_relative_path (abs_path root) (abs_path (root ++ x :: rest)) = String.concat "/" (x :: rest) ∧
  ".." ∉ rel_elements root (root ++ x :: rest).
Proof.
  intros Hb%name_proper Hs%name_proper.
  assert (doc_relative_path (abs_path root) (abs_path (root ++ x :: rest)) = join "/" (x :: rest)) as HE.
  { unfold doc_relative_path. change abs_path with R.
    assert (Forall proper (root ++ x :: rest)) as Ht by by rewrite Forall_app.
    destruct (rel_R root _ Hb Ht) as (c & rb & rt & Hbe & Hte & Hd & ->).
    assert (rb = []) as ->.
    { rewrite Hbe, <-List.app_assoc in Hte. apply app_inv_head in Hte. subst rt.
      destruct rb as [|y rb]; [done|]. by destruct (Hd y rb y (rb ++ x :: rest) eq_refl eq_refl). }
    rewrite List.app_nil_r in Hbe. subst c. apply app_inv_head in Hte. by subst rt. }
  split; [done|]. unfold rel_elements. rewrite HE, split_join; [|by apply proper_ok|done].
  intros Hin. rewrite Forall_forall in Hs. by destruct (Hs _ Hin) as [_ [_ ?]].
Qed.
Theorem C44_outside_root root file :
  Forall name_ok root → Forall name_ok file → (¬ ∃ s, file = root ++ s) →
  ∃ r, rel_elements root file = ".." :: r.
Proof.
  intros Hb%name_proper Ht%name_proper Hout. unfold rel_elements, doc_relative_path.
  change abs_path with R.
  destruct (rel_R root file Hb Ht) as (c & rb & rt & Hbe & Hte & Hd & ->).
  assert (Forall proper rt) as Hrt by (rewrite Hte, Forall_app in Ht; by destruct Ht).
  destruct rb as [|x rb].
  - exfalso. apply Hout. rewrite List.app_nil_r in Hbe. subst c. eauto.
  - exists (ups (length rb) ++ rt).
    replace (match x :: rb, rt with [], [] => "." | _, _ => join "/" (ups (length (x :: rb)) ++ rt) end)
      with (join "/" (ups (length (x :: rb)) ++ rt)) by done.
    rewrite split_join; [done| |done].
    rewrite Forall_app. split; [apply ups_ok|by apply proper_ok].
Qed.
Example C44_example :
  doc_relative_path "/home/me/proj" "/home/me/proj/cmd/main.go" = "cmd/main.go" ∧
  doc_relative_path "/home/me/proj" "/home/me/.cache/go-build/x.go" = "../.cache/go-build/x.go" ∧
  Forall name_ok ["home"; "me"; "proj"].
Proof. split; [done|]. split; [done|]. repeat constructor; done. Qed.

(** ------------------------------------------------------------------ *)
(** C45 *)
Lemma path_dir_R l x : Forall proper (l ++ [x]) → path_dir (R (l ++ [x])) = R l.
Proof.
  rewrite Forall_app. intros [Hl Hx]. inversion Hx as [|?? [[Hne Hns] _] _]; subst.
  assert (R (l ++ [x]) = (match l with [] => "" | _ => R l end) +:+ String "/" x) as ->.
  { unfold R. destruct l as [|a l]; [done|]. rewrite <-app_assoc. f_equal.
    revert a Hl. induction l as [|b l IH]; intros a Hl; [done|].
    change ((a :: b :: l) ++ [x]) with (a :: (b :: l) ++ [x]).
    change ((b :: l) ++ [x]) with (b :: (l ++ [x])) at 1. rewrite join_cons2.
    change (b :: (l ++ [x])) with ((b :: l) ++ [x]). inversion Hl; subst. rewrite IH by done.
    rewrite join_cons2. by rewrite <-!app_assoc. }
  unfold path_dir. rewrite last_index_app_sep by done.
  set (p := match l with [] => "" | _ => R l end).
  assert (str_take (S (slen p)) (p +:+ String "/" x) = p +:+ "/") as ->.
  { change (String "/" x) with ("/" +:+ x). rewrite app_assoc. apply str_take_app.
    rewrite slen_app. unfold slen at 3. cbn. lia. }
  assert (is_abs (p +:+ "/") = true ∧ elements (p +:+ "/") = l) as [Ha He].
  { unfold p. destruct l as [|a l]; [done|]. split; [apply is_abs_R_app|].
    change (R (a :: l) +:+ "/") with (R (a :: l) +:+ "/" +:+ "").
    rewrite elements_app, elements_R by by apply proper_ok. by rewrite List.app_nil_r. }
  unfold clean. rewrite Ha, He, clean_elements_proper by done. done.
Qed.
Lemma path_dir_root : path_dir (R []) = R [].
Proof. done. Qed.

(** The ancestors of a directory, nearest first. *)
Fixpoint ancestors_rev (rl : list string) : list (list string) :=
  rev rl :: match rl with [] => [] | _ :: rl' => ancestors_rev rl' end.
Definition ancestors (l : list string) : list (list string) := ancestors_rev (rev l).

Definition gomod_of (d : list string) : string := path_join (abs_path d) "go.mod".

(** What the search computes: the first ancestor (nearest first) at which one of
    the loop's exits applies decides. *)
Fixpoint search_list (st : string → stat) (wd root : string) (ds : list (list string)) : string :=
  match ds with
  | [] => "."
  | d :: ds' =>
      if has_prefix (abs_path d) root then "."
      else match st (gomod_of d) with
           | StatFound => cmd_rel wd (abs_path d)
           | StatError => "."
           | StatNotExist => search_list st wd root ds'
           end
  end.
Lemma search_loop_list st wd root l fuel :
  Forall proper l → length l < fuel →
  search_loop st wd root fuel (R l) = Some (search_list st wd root (ancestors l)).
Proof.
  unfold ancestors. revert fuel. induction l as [|x l IH] using rev_ind; intros fuel Hl Hf.
  - destruct fuel; [cbn in Hf; lia|]. cbn [rev ancestors_rev search_list search_loop].
    change (abs_path []) with (R []). destruct (has_prefix (R []) root); [done|].
    unfold gomod_of. change (abs_path []) with (R []).
    destruct (st _); done.
  - rewrite app_length in Hf. cbn in Hf. destruct fuel; [lia|].
    rewrite rev_app_distr. cbn [rev app ancestors_rev]. rewrite rev_involutive.
    cbn [search_list search_loop]. change (abs_path (l ++ [x])) with (R (l ++ [x])).
    destruct (has_prefix _ root); [done|]. unfold gomod_of. change (abs_path (l ++ [x])) with (R (l ++ [x])).
    destruct (st _); [done| |done].
    rewrite path_dir_R by done.
    rewrite Forall_app in Hl. destruct Hl as [Hl Hx].
    destruct (String.eqb_spec (R l) (R (l ++ [x]))) as [HE|_].
    { apply R_inj in HE; [|by apply proper_ok|by apply proper_ok; rewrite Forall_app].
      exfalso. apply (f_equal length) in HE. rewrite app_length in HE. cbn in HE. lia. }
    apply IH; [done|lia].
Qed.

(** C45: the search always ends (for an absolute working directory). *)
Theorem C45_search_terminates st wd root l :
  Forall name_ok l →
  ∃ r, ∀ fuel, length l < fuel → search_loop st wd root fuel (abs_path l) = Some r.
Proof.
  intros H. exists (search_list st wd root (ancestors l)). intros fuel Hf.
  apply search_loop_list; [by apply name_proper|done].
Qed.

(** What is true of the code: the search looks at the ancestors nearest first and
    returns the nearest one with a go.mod - but only as long as the repository root
    is NOT a prefix of the directory, i.e. outside the repository (missing: inside
    the repository the search is never made, see C45_refuted). *)
Theorem C45_nearest_outside_repository_partial st root l before d after :
  Forall name_ok l →
  ancestors l = before ++ d :: after →
  Forall (λ a, has_prefix (abs_path a) root = false ∧ st (gomod_of a) = StatNotExist) before →
  has_prefix (abs_path d) root = false → st (gomod_of d) = StatFound →
  ∀ fuel, length l < fuel →
  search_loop st (abs_path l) root fuel (abs_path l) =
    Some (cmd_rel (abs_path l) (abs_path d)).
Proof.
  intros Hl Han Hb Hd Hs fuel Hf. rewrite search_loop_list; [|by apply name_proper|done].
  rewrite Han. clear Han. f_equal. induction before as [|a before IH].
  - cbn. by rewrite Hd, Hs.
  - inversion Hb as [|?? [H1 H2] Hb']; subst. cbn. rewrite H1, H2. auto.
Qed.

(** Finding: inside the repository (the only interesting case) the loop body is
    never entered, whatever go.mod files exist: the answer is always ".". *)
Theorem C45_refuted_inside_repository st l root fuel :
  0 < fuel → has_prefix (abs_path l) root = true →
  search_loop st (abs_path l) root fuel (abs_path l) = Some ".".
Proof. intros Hf H. destruct fuel; [lia|]. cbn [search_loop]. by rewrite H. Qed.
(** In particular the nearest enclosing go.mod is missed: in repository /r with only
    /r/go.mod, started in /r/sub, the search answers "." instead of "..". *)
Definition stat_r (p : string) : stat :=
  if String.eqb p "/r/go.mod" then StatFound else StatNotExist.
Theorem C45_nearest_gomod_refuted :
  ¬ (∀ st l root before d after,
       Forall name_ok l → ancestors l = before ++ d :: after →
       Forall (λ a, st (gomod_of a) = StatNotExist) before → st (gomod_of d) = StatFound →
       has_prefix (abs_path d) root = true →
       ∀ fuel, length l < fuel →
       search_loop st (abs_path l) root fuel (abs_path l) = Some (cmd_rel (abs_path l) (abs_path d))).
Proof.
  intros H. specialize (H stat_r ["r"; "sub"] "/r" [["r"; "sub"]] ["r"] [[]]).
  assert (search_loop stat_r "/r/sub" "/r" 10 "/r/sub" = Some "..") as E.
  { apply H; try done; [repeat constructor; done|repeat constructor; done|cbn; lia]. }
  vm_compute in E. done.
Qed.
Example C45_example :
  search_loop stat_r "/r/sub" "/elsewhere" 10 "/r/sub" = Some "..".
Proof. done. Qed.
