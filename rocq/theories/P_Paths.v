(** Facts about clean absolute paths. *)
From Coq Require Import Ascii String.
From stdpp Require Import prelude strings.
From Verif Require Import GoStr Paths.
Open Scope string_scope.
Open Scope list_scope.

Definition noslash (s : string) : Prop := str_forallb (λ a, negb (Ascii.eqb a "/")) s = true.
Definition elem_ok (s : string) : Prop := s ≠ "" ∧ noslash s.
Definition proper (s : string) : Prop := elem_ok s ∧ s ≠ "." ∧ s ≠ "..".
Definition R (l : list string) : string := "/" +:+ join "/" l.

Lemma split_on_all c s :
  Forall (λ h, str_forallb (λ a, negb (Ascii.eqb a c)) h = true) (split_on c s).
Proof.
  induction s as [|a s IH]; cbn; [by constructor|].
  destruct (Ascii.eqb a c) eqn:E; [by constructor|].
  destruct (split_on c s) as [|h t]; inversion IH; subst; constructor; try done; cbn;
    rewrite E; done.
Qed.
Lemma split_on_sep_app c s t :
  split_on c (s +:+ String c t) = split_on c s ++ split_on c t.
Proof.
  induction s as [|a s IH]; rewrite ?app_nil_l, ?app_cons; cbn.
  - by rewrite Ascii.eqb_refl.
  - destruct (Ascii.eqb a c); [by rewrite IH|]. rewrite IH.
    destruct (split_on c s) eqn:E; [by apply split_on_ne in E|]. done.
Qed.
Lemma elements_ok p : Forall elem_ok (elements p).
Proof.
  unfold elements. pose proof (split_on_all "/" p) as H.
  induction (split_on "/" p) as [|h l IH]; [constructor|]. inversion H; subst. cbn.
  destruct (String.eqb_spec h ""); cbn; [auto|]. constructor; [done|auto].
Qed.
Lemma elements_app a b : elements (a +:+ "/" +:+ b) = elements a ++ elements b.
Proof.
  unfold elements. change ("/" +:+ b) with (String "/" b). rewrite split_on_sep_app.
  by rewrite List.filter_app.
Qed.
Lemma elements_one c : elem_ok c → elements c = [c].
Proof.
  intros [Hne Hns]. unfold elements. rewrite split_on_nosep by done. cbn.
  by destruct (String.eqb_spec c "").
Qed.
Lemma join_cons2 sep a b l : join sep (a :: b :: l) = a +:+ sep +:+ join sep (b :: l).
Proof. done. Qed.
Lemma elements_join l : Forall elem_ok l → elements (join "/" l) = l.
Proof.
  induction l as [|a l IH]; intros H; [done|]. inversion H as [|?? Ha Hl]; subst.
  destruct l as [|b l]; [by apply elements_one|].
  rewrite join_cons2, elements_app, elements_one by done. by rewrite IH.
Qed.
Lemma elements_R l : Forall elem_ok l → elements (R l) = l.
Proof.
  intros H. unfold R. change ("/" +:+ join "/" l) with ("" +:+ "/" +:+ join "/" l).
  rewrite elements_app. by rewrite elements_join.
Qed.
Lemma is_abs_R l : is_abs (R l) = true.
Proof. apply has_prefix_app. Qed.
Lemma is_abs_R_app l s : is_abs (R l +:+ s) = true.
Proof. unfold R. rewrite <-app_assoc. apply has_prefix_app. Qed.
Lemma is_abs_cons p : is_abs p = true → ∃ r, p = "/" +:+ r.
Proof. by intros ?%has_prefix_spec. Qed.

Lemma proper_ok l : Forall proper l → Forall elem_ok l.
Proof. intros H. eapply Forall_impl; [exact H|]. by intros x [? _]. Qed.

Lemma clean_fold_proper r acc l :
  Forall proper l → foldl (clean_step r) acc l = rev l ++ acc.
Proof.
  revert acc. induction l as [|c l IH]; intros acc H; [done|].
  inversion H as [|?? [[Hne _] [Hd Hdd]] Hl]; subst. cbn [foldl].
  assert (clean_step r acc c = c :: acc) as ->.
  { unfold clean_step. destruct (String.eqb_spec c ""); [done|].
    destruct (String.eqb_spec c "."); [done|]. by destruct (String.eqb_spec c ".."). }
  rewrite IH by done. cbn [rev]. by rewrite <-List.app_assoc.
Qed.
Lemma clean_elements_proper r l : Forall proper l → clean_elements r l = l.
Proof.
  intros H. unfold clean_elements. rewrite clean_fold_proper, List.app_nil_r by done.
  by rewrite rev_involutive.
Qed.
Lemma clean_fold_rooted acc l :
  Forall elem_ok l → Forall proper acc → Forall proper (foldl (clean_step true) acc l).
Proof.
  revert acc. induction l as [|c l IH]; intros acc H Ha; [done|].
  inversion H as [|?? Hc Hl]; subst. cbn [foldl]. apply IH; [done|].
  unfold clean_step. destruct (String.eqb_spec c ""); [done|].
  destruct (String.eqb_spec c "."); [done|]. cbn [orb].
  destruct (String.eqb_spec c "..").
  - destruct acc as [|top rest]; [done|]. inversion Ha as [|?? [_ [_ Ht]] Hr]; subst.
    by destruct (String.eqb_spec top "..").
  - constructor; [|done]. done.
Qed.
Lemma clean_elements_rooted l : Forall elem_ok l → Forall proper (clean_elements true l).
Proof.
  intros H. unfold clean_elements. apply Forall_rev. by apply clean_fold_rooted.
Qed.
Lemma clean_R l : Forall proper l → clean (R l) = R l.
Proof.
  intros H. unfold clean. rewrite is_abs_R, elements_R by by apply proper_ok.
  by rewrite clean_elements_proper.
Qed.
(** the form of a clean absolute path *)
Lemma abs_form p : is_abs p = true → clean p = p → ∃ l, Forall proper l ∧ p = R l.
Proof.
  intros Ha Hc. exists (clean_elements true (elements p)). split.
  - apply clean_elements_rooted, elements_ok.
  - unfold clean in Hc. rewrite Ha in Hc. done.
Qed.
Lemma R_inj l l' : Forall elem_ok l → Forall elem_ok l' → R l = R l' → l = l'.
Proof. intros H H' E. rewrite <-(elements_R l), <-(elements_R l'), E by done. done. Qed.

Lemma strip_common_spec b t rb rt :
  strip_common b t = (rb, rt) →
  ∃ c, b = c ++ rb ∧ t = c ++ rt ∧
       (∀ x rb' y rt', rb = x :: rb' → rt = y :: rt' → x ≠ y).
Proof.
  revert t rb rt. induction b as [|x b IH]; intros [|y t] rb rt; cbn.
  - intros [= <- <-]. exists []. by repeat split.
  - intros [= <- <-]. exists []. by repeat split.
  - intros [= <- <-]. exists []. by repeat split.
  - destruct (String.eqb_spec x y) as [->|Hne].
    + intros E. destruct (IH _ _ _ E) as (c & -> & -> & H). exists (y :: c). done.
    + intros [= <- <-]. exists []. repeat split. by intros ???? [= <- <-] [= <- <-].
Qed.
Lemma strip_common_app c b t : strip_common (c ++ b) (c ++ t) = strip_common b t.
Proof. induction c as [|x c IH]; [done|]. cbn. by rewrite String.eqb_refl. Qed.

Definition ups (n : nat) : list string := replicate n "..".
Lemma map_ups {A} (l : list A) : map (λ _, "..") l = ups (length l).
Proof. induction l; [done|]. cbn. by rewrite IHl. Qed.
Lemma ups_ok n : Forall elem_ok (ups n).
Proof. apply Forall_replicate. done. Qed.

Lemma is_abs_R_eqb l : String.eqb (R l) "." = false.
Proof. done. Qed.

(** Rel between two clean absolute paths *)
Lemma rel_R b t :
  Forall proper b → Forall proper t →
  ∃ c rb rt, b = c ++ rb ∧ t = c ++ rt ∧
    (∀ x rb' y rt', rb = x :: rb' → rt = y :: rt' → x ≠ y) ∧
    path_rel (R b) (R t) =
      Some (match rb, rt with [], [] => "." | _, _ => join "/" (ups (length rb) ++ rt) end).
Proof.
  intros Hb Ht. destruct (strip_common b t) as [rb rt] eqn:E.
  destruct (strip_common_spec _ _ _ _ E) as (c & Hb' & Ht' & Hd).
  exists c, rb, rt. do 3 (split; [done|]).
  unfold path_rel. rewrite !clean_R by done.
  destruct (String.eqb_spec (R t) (R b)) as [HE|HE].
  - apply R_inj in HE; [|by apply proper_ok|by apply proper_ok].
    assert (rb = [] ∧ rt = []) as [-> ->]; [|done].
    rewrite HE in Ht'. rewrite Ht' in Hb'. apply app_inv_head in Hb'. subst rb.
    destruct rt as [|x rt]; [done|]. by destruct (Hd x rt x rt eq_refl eq_refl).
  - rewrite !is_abs_R. cbn [Bool.eqb negb]. rewrite is_abs_R_eqb.
    rewrite !elements_R by by apply proper_ok. rewrite E.
    rewrite map_ups. destruct rb as [|x rb]; destruct rt as [|y rt]; try done.
    + exfalso. apply HE. rewrite Hb', Ht'. done.
    + destruct (String.eqb_spec x "..") as [->|]; [|done]. exfalso.
      rewrite Hb', Forall_app in Hb. destruct Hb as [_ Hb]. inversion Hb as [|?? [_ [_ H]] _]; done.
Qed.

Lemma foldl_app {A S} (f : S → A → S) s l l' : foldl f s (l ++ l') = foldl f (foldl f s l) l'.
Proof. revert s. induction l; intros s; [done|]. cbn. auto. Qed.
Lemma foldl_ups acc n rest :
  Forall proper acc → length acc = n →
  foldl (clean_step true) (acc ++ rest) (ups n) = rest.
Proof.
  revert acc. induction n as [|n IH]; intros acc Ha Hl.
  - by destruct acc.
  - destruct acc as [|a acc]; [done|]. inversion Ha as [|?? [_ [_ Hdd]] Ha']; subst.
    cbn [ups replicate foldl].
    assert (clean_step true ((a :: acc) ++ rest) ".." = acc ++ rest) as ->.
    { unfold clean_step. cbn. by destruct (String.eqb_spec a ".."). }
    apply IH; [done|]. cbn in Hl. lia.
Qed.
Lemma join_nonempty l : Forall elem_ok l → l ≠ [] → join "/" l ≠ "".
Proof.
  intros H Hne. destruct l as [|a l]; [done|]. inversion H as [|?? [Ha _] _]; subst.
  destruct l as [|b l]; [done|]. rewrite join_cons2. intros [-> _]%app_eq_nil. done.
Qed.
Lemma render_true l : render true l = R l.
Proof. done. Qed.

(** resolving a relative path against the base gives the target back *)
Lemma rel_resolve b t r :
  Forall proper b → Forall proper t →
  path_rel (R b) (R t) = Some r → path_join (R b) r = R t.
Proof.
  intros Hb Ht. destruct (rel_R b t Hb Ht) as (c & rb & rt & Hbe & Hte & Hd & ->). intros [= <-].
  assert (Forall proper rb ∧ Forall proper c) as [Hrb Hc].
  { rewrite Hbe, Forall_app in Hb. by destruct Hb. }
  assert (Forall proper rt) as Hrt.
  { rewrite Hte, Forall_app in Ht. by destruct Ht. }
  unfold path_join. replace (String.eqb (R b) "") with false by done.
  destruct rb as [|x rb]; destruct rt as [|y rt].
  - cbn [String.eqb]. unfold clean. rewrite (is_abs_R_app b).
    rewrite elements_app, elements_R by by apply proper_ok.
    unfold clean_elements. rewrite foldl_app, (clean_fold_proper true [] b) by done. cbn.
    rewrite List.app_nil_r, rev_involutive. rewrite Hbe, Hte. done.
  - set (l := ups (length []) ++ y :: rt).
    destruct (String.eqb_spec (join "/" l) "") as [HE|_].
    { exfalso. revert HE. apply join_nonempty; [|done]. by apply proper_ok. }
    unfold clean. rewrite (is_abs_R_app b).
    rewrite elements_app, elements_R by by apply proper_ok.
    rewrite elements_join by by apply proper_ok. subst l. cbn [length ups replicate app].
    rewrite List.app_nil_r in Hbe. subst b. rewrite <-Hte. by rewrite clean_elements_proper.
  - set (l := ups (length (x :: rb)) ++ []).
    assert (Forall elem_ok l) as Hl.
    { unfold l. rewrite List.app_nil_r. apply ups_ok. }
    destruct (String.eqb_spec (join "/" l) "") as [HE|_].
    { exfalso. revert HE. by apply join_nonempty. }
    unfold clean. rewrite (is_abs_R_app b).
    rewrite elements_app, elements_R by by apply proper_ok.
    rewrite elements_join by done. subst l. rewrite List.app_nil_r in Hte. subst t.
    unfold clean_elements. rewrite !foldl_app, (clean_fold_proper true [] b) by done.
    rewrite List.app_nil_r, Hbe, rev_app_distr.
    rewrite foldl_ups; [|by apply Forall_rev|by rewrite rev_length].
    cbn [foldl]. by rewrite rev_involutive.
  - set (l := ups (length (x :: rb)) ++ y :: rt).
    assert (Forall elem_ok l) as Hl.
    { unfold l. rewrite Forall_app. split; [apply ups_ok|by apply proper_ok]. }
    destruct (String.eqb_spec (join "/" l) "") as [HE|_].
    { exfalso. revert HE. by apply join_nonempty. }
    unfold clean. rewrite (is_abs_R_app b).
    rewrite elements_app, elements_R by by apply proper_ok.
    rewrite elements_join by done. subst l.
    unfold clean_elements. rewrite !foldl_app, (clean_fold_proper true [] b) by done.
    rewrite List.app_nil_r, Hbe, rev_app_distr.
    rewrite foldl_ups; [|by apply Forall_rev|by rewrite rev_length].
    rewrite clean_fold_proper by done. rewrite rev_app_distr, !rev_involutive. by rewrite Hte.
Qed.

(** [b] is [a] or lies below it *)
Definition below (a b : list string) : Prop := ∃ s, b = a ++ s.

Lemma clean_ups_proper n l :
  Forall proper l → clean_elements false (ups n ++ l) = ups n ++ l.
Proof.
  intros H. unfold clean_elements. rewrite foldl_app, clean_fold_proper by done.
  assert (∀ m, foldl (clean_step false) (ups m) (ups n) = ups (m + n)) as Hu.
  { induction n as [|n IH]; intros m.
    - by rewrite Nat.add_0_r.
    - cbn [ups replicate foldl].
      assert (clean_step false (ups m) ".." = ups (S m)) as ->.
      { by destruct m. }
      rewrite IH. f_equal. lia. }
  specialize (Hu 0). cbn [ups replicate] in Hu. rewrite Hu.
  rewrite rev_app_distr, rev_involutive. f_equal. clear. unfold ups. cbn [plus].
  induction n as [|n IH]; [done|]. cbn [replicate rev]. rewrite IH.
  by rewrite <-replicate_cons_app.
Qed.
Lemma is_abs_elem a s : elem_ok a → is_abs (a +:+ s) = false.
Proof.
  intros [Hne Hns]. apply not_true_iff_false. intros [r Hr]%has_prefix_spec.
  destruct a as [|c a]; [done|]. rewrite app_cons in Hr. injection Hr as -> _. done.
Qed.
Lemma is_abs_join l : Forall elem_ok l → is_abs (join "/" l) = false.
Proof.
  destruct l as [|a l]; [done|]. intros H. inversion H as [|?? Ha _]; subst.
  destruct l as [|b l].
  - cbn. rewrite <-(app_nil_r a). by apply is_abs_elem.
  - rewrite join_cons2. by apply is_abs_elem.
Qed.
Lemma noslash_prefix a a' s s' :
  noslash a → noslash a' → a +:+ String "/" s = a' +:+ s' →
  a = a' ∨ s' = "" ∨ ∃ c r, s' = String c r ∧ c ≠ "/"%char.
Proof.
  revert a'. induction a as [|c a IH]; intros [|c' a'] Ha Ha' E; rewrite ?app_nil_l, ?app_cons in E.
  - by left.
  - exfalso. injection E as <- _. done.
  - subst s'. right. right. exists c, (a +:+ String "/" s). split; [done|]. intros ->. done.
  - injection E as -> E. unfold noslash in Ha, Ha'. cbn in Ha, Ha'.
    apply andb_true_iff in Ha as [_ Ha]. apply andb_true_iff in Ha' as [_ Ha'].
    destruct (IH a' Ha Ha' E) as [->|H]; [by left|by right].
Qed.
(** a non-empty join starts with ".." exactly when its first element is ".." *)
Lemma join_dotdot a l :
  Forall elem_ok (a :: l) →
  (String.eqb (join "/" (a :: l)) ".." || has_prefix (join "/" (a :: l)) "../")%bool = true ↔ a = "..".
Proof.
  intros H. inversion H as [|?? [Hne Hns] Hl]; subst. rewrite orb_true_iff, String.eqb_eq, has_prefix_spec.
  split.
  - intros [HE|(s & HE)].
    + assert (elements (join "/" (a :: l)) = [".."]) as He by by rewrite HE.
      rewrite elements_join in He by done. by injection He.
    + assert (elements (join "/" (a :: l)) = ".." :: elements s) as He.
      { rewrite HE. change ("../" +:+ s) with (".." +:+ "/" +:+ s). by rewrite elements_app. }
      rewrite elements_join in He by done. by injection He.
  - intros ->. destruct l as [|b l]; [by left|right]. rewrite join_cons2. by eexists.
Qed.

Lemma rel_local b t :
  Forall proper b → Forall proper t →
  ∃ r, path_rel (R b) (R t) = Some r ∧ (is_local r = true ↔ below b t).
Proof.
  intros Hb Ht. destruct (rel_R b t Hb Ht) as (c & rb & rt & Hbe & Hte & Hd & ->).
  eexists; split; [done|].
  assert (Forall proper rb ∧ Forall proper c) as [Hrb Hc].
  { rewrite Hbe, Forall_app in Hb. by destruct Hb. }
  assert (Forall proper rt) as Hrt.
  { rewrite Hte, Forall_app in Ht. by destruct Ht. }
  assert (below b t ↔ rb = []) as Hbel.
  { unfold below. split.
    - intros (s & Hs). rewrite Hte, Hbe, <-List.app_assoc in Hs. apply app_inv_head in Hs. subst rt.
      destruct rb as [|x rb]; [done|]. by destruct (Hd x rb x (rb ++ s) eq_refl eq_refl).
    - intros ->. rewrite List.app_nil_r in Hbe. subst b. by exists rt. }
  rewrite Hbel.
  destruct (decide (rb = [] ∧ rt = [])) as [[-> ->]|Hne]; [done|].
  set (l := ups (length rb) ++ rt).
  replace (match rb, rt with [], [] => "." | _, _ => join "/" l end) with (join "/" l)
    by (destruct rb; [destruct rt; [tauto|done]|done]).
  assert (Forall elem_ok l) as Hl.
  { unfold l. rewrite Forall_app. split; [apply ups_ok|by apply proper_ok]. }
  assert (l ≠ []) as Hln.
  { unfold l. destruct rb; [destruct rt; [tauto|done]|done]. }
  unfold is_local. rewrite is_abs_join by done. cbn [orb].
  destruct (String.eqb_spec (join "/" l) "") as [HE|_].
  { exfalso. revert HE. by apply join_nonempty. }
  unfold clean. rewrite is_abs_join, elements_join by done. unfold l at 1 2. rewrite clean_ups_proper by done.
  fold l. unfold render. destruct l as [|a l'] eqn:El; [done|].
  rewrite negb_true_iff. rewrite <-not_true_iff_false, join_dotdot by done.
  destruct rb as [|x rb].
  - split; [done|]. intros _ ->. unfold l in El. cbn in El. subst rt.
    inversion Hrt as [|?? [_ [_ H]] _]; done.
  - split; [|done]. intros H. exfalso. apply H. unfold l in El. cbn in El. by injection El as <- _.
Qed.

Lemma is_nested_dir_R a b :
  Forall proper a → Forall proper b →
  is_nested_dir (R a) (R b) = true ↔ below a b ∨ below b a.
Proof.
  intros Ha Hb. destruct (rel_local a b Ha Hb) as (r1 & H1 & HL1).
  destruct (rel_local b a Hb Ha) as (r2 & H2 & HL2).
  unfold is_nested_dir. replace (String.eqb (R a) "" || String.eqb (R b) "")%bool with false by done.
  rewrite H1, H2, <-HL1, <-HL2. destruct (is_local r1), (is_local r2); naive_solver.
Qed.
