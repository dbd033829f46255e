(** The command line program: C40 (the output file), C55 (the index on stdout). *)
From Coq Require Import Ascii String.
From stdpp Require Import prelude strings gmap.
From Verif Require Import GoStr Scip GoTypes Ast Packages Symbols Document Lookup Pass1 Pass2 Loader Index SpecIndex P_Index Output Proto P_Proto PropProto P_Fits Cli PropIndex ExDecl ExOcc ExIndex.
Open Scope string_scope.
Open Scope list_scope.

(** *** The messages of a run *)
Lemma concat_bytes l bs : Forall2 (λ m b, marshal m = Some b) l bs → bytes_of_messages l = String.concat "" bs.
Proof.
  unfold bytes_of_messages. induction 1 as [|m b l bs H _ IH]; [done|]. cbn [map]. rewrite !concat_cons, IH, H. done.
Qed.
Lemma bytes_app a b : bytes_of_messages (a ++ b) = bytes_of_messages a +:+ bytes_of_messages b.
Proof.
  unfold bytes_of_messages. induction a as [|m a IH]; [done|]. cbn [map app]. by rewrite !concat_cons, IH, app_assoc.
Qed.
Lemma accepted_marshal wr sofar l : accepts (cli_writer wr) sofar l → Forall2 (λ m b, marshal m = Some b) l (map (λ m, default "" (marshal m)) l).
Proof.
  revert sofar. induction l as [|m l IH]; intros sofar H; [constructor|]. apply accepts_cons in H as [H1 H2].
  cbn [map]. constructor; [|by eapply IH]. unfold cli_writer in H1. by destruct (marshal m).
Qed.
Lemma accepts_take w sofar l i : accepts w sofar l → accepts w sofar (take i l).
Proof.
  intros H. rewrite <- (take_drop i l) in H. by apply accepts_app in H as [H _].
Qed.
Lemma write_documents_metas env fs h objstr mo w g docs items : ∀ sofar n k,
  metas (write_documents env fs h objstr mo w g docs sofar n k items).1.1 = metas sofar.
Proof.
  induction items as [|[p f] items IH]; intros sofar n k; [done|]. cbn [write_documents].
  destruct (file_name fs f) as [name|]; [|done]. destruct (docs !! name) as [d|]; [|apply IH].
  destruct (index_file _ _ _ _ _ _ _ _ _ _ _) as [[doc k']|]; [|done].
  destruct (w sofar (MDoc doc)); [done|]. rewrite IH. unfold metas. rewrite omap_app. cbn. by rewrite List.app_nil_r.
Qed.
Lemma write_all_metas w exts : ∀ sofar, metas (write_all w sofar (map MExt exts)).1 = metas sofar.
Proof.
  induction exts as [|i exts IH]; intros sofar; [done|]. cbn [write_all map]. destruct (w sofar (MExt i)); [done|].
  rewrite IH. unfold metas. rewrite omap_app. cbn. by rewrite List.app_nil_r.
Qed.

Section Runs.
Context (digest : string → string) (env : tenv) (fs : fset) (h : pheap).
Context (objstr : obj → string) (mo : map_orders).
Context (impl : global → caches → res (option (global * caches * list syminfo))) (impl_error : string).
Context (root version : string) (skip : bool) (meta : metadata) (ld : loaded) (po ao po2 : list string).
(** index.Index with the given options, applied to a writer *)
Definition the_run (w : writer) : list message * Index.outcome :=
  index digest env fs h objstr mo w impl impl_error root version skip meta ld po ao po2.

Lemma run_metas w e : (the_run w).2 = Returned e → (e = None → metas (the_run w).1 = [meta]) ∧
  ((the_run w).1 = [] ∨ metas (the_run w).1 = [meta]).
Proof.
  unfold the_run, index. destruct (w [] (MMeta meta)).
  { intros [= <-]. split; [done|by left]. }
  destruct ld as [err|all proj]; [intros [= <-]; split; [done|by right]|].
  destruct (index_visit_packages _ _ _ _ _ _ _ _ _) as [[docs g]|]; [|done].
  destruct (if skip then _ else _) as [[[[g' k] exts]|]|]; [|intros [= <-]; split; [done|by right]|done].
  destruct (write_documents _ _ _ _ _ _ _ _ _ _ _ _) as [[msgs o] k'] eqn:E.
  assert (metas msgs = [meta]) as Hm.
  { change msgs with (msgs, o, k').1.1. rewrite <- E, write_documents_metas. done. }
  destruct o as [[e'|]|]; [intros _; cbn; split; [done|by right]| |done].
  destruct (write_all w msgs (map MExt exts)) as [msgs' e'] eqn:E2. intros _. cbn.
  assert (metas msgs' = [meta]) as Hm'. { change msgs' with (msgs', e').1. by rewrite <- E2, write_all_metas. }
  split; [done|by right].
Qed.
Lemma run_accepts w : accepts w [] (the_run w).1.
Proof.
  destruct (index_cut digest env fs h objstr mo impl impl_error w root version skip meta ld po ao po2) as [[H1 H2]|(i & e & (m & H1 & H2 & H3) & H4)].
  - unfold the_run. cbn beta zeta in *. rewrite H2. done.
  - unfold the_run. cbn beta zeta in *. rewrite H4. done.
Qed.
End Runs.

(** *** The file tree *)
Lemma resolve_plain (t : ftree) p : (∀ q, t !! p ≠ Some (FLink q)) → resolve t p = Some p.
Proof. intros H. unfold resolve. cbn [follow]. destruct (t !! p) as [[]|] eqn:E; try done. by destruct (H target). Qed.
Lemma append_other (t : ftree) q b p : p ≠ q → append_to t q b !! p = t !! p.
Proof. intros H. unfold append_to. destruct (t !! q) as [[]|]; try done; by rewrite lookup_insert_ne. Qed.
Lemma append_reg (t : ftree) q c b : append_to (<[q := FReg c]> t) q b = <[q := FReg (c +:+ b)]> t.
Proof. unfold append_to. rewrite lookup_insert. by rewrite insert_insert. Qed.

(** where the output goes: a regular file, new or overwritten *)
Definition regular_output (t : ftree) (output q : string) : Prop :=
  output ≠ "-" ∧ resolve t output = Some q ∧ (t !! q = None ∨ ∃ c, t !! q = Some (FReg c)).
(** ... that is not reached through a symbolic link *)
Definition plain_output (t : ftree) (output : string) : Prop :=
  output ≠ "-" ∧ (t !! output = None ∨ ∃ c, t !! output = Some (FReg c)).
Lemma plain_regular t output : plain_output t output → regular_output t output output.
Proof.
  intros [H1 H2]. split; [done|]. split; [|done]. apply resolve_plain. intros q E. destruct H2 as [H2|[c H2]]; congruence.
Qed.
Lemma create_regular t output q : regular_output t output q → os_create None t output = inr (q, <[q := FReg ""]> t).
Proof. intros (_ & H2 & H3). unfold os_create. rewrite H2. by destruct H3 as [->|[c ->]]. Qed.
Lemma not_dash output : output ≠ "-" → String.eqb output "-" = false.
Proof. by apply String.eqb_neq. Qed.

(** C40: when indexing succeeds, the file holds exactly the bytes of the messages, in order,
    nothing else changes, and the exit code is 0. *)
Theorem C40_success : ∀ s no run output (t : ftree) q msgs,
  regular_output t output q → sy_create s = None → run (cli_writer (sy_write s)) = (msgs, Returned None) →
  ∃ out, index_cmd s no None run output t = (<[q := FReg (bytes_of_messages msgs)]> t, out, Exit 0 None).
Proof.
  intros s no run output t q msgs Ho Hc Hr. unfold index_cmd. rewrite (not_dash output) by apply Ho.
  rewrite Hc, (create_regular _ _ _ Ho), Hr. eexists. cbn beta iota zeta. by rewrite append_reg, app_nil_l.
Qed.

(** ... and that file decodes to the metadata, documents and external symbols of the run. *)
Theorem C40_success_decodes : ∀ digest env fs h objstr mo impl impl_error root version skip meta ld po ao po2 s no output (t : ftree) q msgs,
  let run := the_run digest env fs h objstr mo impl impl_error root version skip meta ld po ao po2 in
  regular_output t output q → sy_create s = None → run (cli_writer (sy_write s)) = (msgs, Returned None) →
  (Z.of_nat (slen (bytes_of_messages msgs)) < 2 ^ 63)%Z →
  ∃ t' out content, index_cmd s no None run output t = (t', out, Exit 0 None) ∧ t' !! q = Some (FReg content) ∧
    read_index content = Some (SIndex meta (documents msgs) (externals msgs)).
Proof.
  intros digest env fs h objstr mo impl impl_error root version skip meta ld po ao po2 s no output t q msgs run Ho Hc Hr Hs.
  assert (Hok : Forall message_ok msgs).
  { pose proof (messages_fit digest env fs h objstr mo (cli_writer (sy_write s)) impl impl_error root version skip meta ld po ao po2) as Hf.
    change (Forall message_ok (run (cli_writer (sy_write s))).1) in Hf. by rewrite Hr in Hf. }
  destruct (C40_success s no run output t q msgs Ho Hc Hr) as [out E]. rewrite E. do 3 eexists.
  split; [reflexivity|]. split; [apply lookup_insert|].
  pose proof (run_accepts digest env fs h objstr mo impl impl_error root version skip meta ld po ao po2 (cli_writer (sy_write s))) as Ha.
  pose proof (run_metas digest env fs h objstr mo impl impl_error root version skip meta ld po ao po2 (cli_writer (sy_write s)) None) as Hm.
  fold run in Ha, Hm. rewrite Hr in Ha, Hm. destruct (Hm eq_refl) as [Hm' _]. cbn [fst] in *.
  apply accepted_marshal in Ha. rewrite (concat_bytes _ _ Ha) in *.
  apply (C39_concatenation_is_index _ _ meta Ha); [done|by apply Hm'|done].
Qed.

(** ... when indexing fails (for any reason, at any point), the output file is gone, the
    rest of the tree is as before, and the error is reported with exit code 1. *)
Theorem C40_failure_removes : ∀ s no run output (t : ftree) msgs err,
  plain_output t output → sy_create s = None → sy_stat s = None → sy_remove s = None →
  run (cli_writer (sy_write s)) = (msgs, Returned (Some err)) →
  ∃ out, index_cmd s no None run output t = (delete output t, out, Exit 1 (Some err)).
Proof.
  intros s no run output t msgs err Ho Hc Hst Hrm Hr. unfold index_cmd. rewrite (not_dash output) by apply Ho.
  apply plain_regular in Ho. rewrite Hc, (create_regular _ _ _ Ho), Hr. eexists. cbn beta iota zeta.
  rewrite !append_reg. unfold stat_regular. rewrite Hst. rewrite resolve_plain; [|intros q; by rewrite lookup_insert].
  rewrite lookup_insert. cbn beta iota. rewrite Hrm. cbn [os_remove]. by rewrite delete_insert_delete.
Qed.

(** ... if the options are bad or the file cannot be created, nothing is touched. *)
Theorem C40_early_failure : ∀ s no options run output (t : ftree),
  (∀ e, options = Some e → index_cmd s no options run output t = (t, no O, Exit 1 (Some e))) ∧
  (∀ e, options = None → output ≠ "-" → os_create (sy_create s) t output = inl e →
     ∃ msg, index_cmd s no options run output t = (t, no O, Exit 1 (Some msg))).
Proof.
  intros s no options run output t. split.
  - intros e ->. done.
  - intros e -> Hd He. unfold index_cmd. rewrite (not_dash output) by done. rewrite He. by eexists.
Qed.

(** ... stdout, directories and special files are never removed; and nothing but the output
    file ever changes. *)
Theorem C40_only_output_touched : ∀ s no options run output (t : ftree) p,
  let t' := (index_cmd s no options run output t).1.1 in
  (output = "-" → t' = t) ∧
  (p ≠ output → resolve t output ≠ Some p → t' !! p = t !! p) ∧
  (t !! p = Some FDir → t' !! p = Some FDir) ∧
  (∀ c, t !! p = Some (FSpecial c) → ∃ more, t' !! p = Some (FSpecial (c +:+ more))).
Proof.
  intros s no options run output t p. cbn zeta. unfold index_cmd.
  assert (Hspec : ∀ c, t !! p = Some (FSpecial c) → ∃ more, t !! p = Some (FSpecial (c +:+ more))).
  { intros c Hc. exists "". by rewrite app_nil_r. }
  destruct options as [e|]; [done|]. destruct (String.eqb output "-") eqn:Ed.
  { apply String.eqb_eq in Ed as ->. destruct (run _) as [msgs [[e|]|e]]; done. }
  apply String.eqb_neq in Ed.
  unfold os_create. destruct (sy_create s) as [e|]; [done|]. destruct (resolve t output) as [q|] eqn:Eq; [|done].
  assert (Hgen : ∀ u : ftree, u = t ∧ (∃ c, t !! q = Some (FSpecial c)) ∨
                 u = <[q := FReg ""]> t ∧ (∀ c, t !! q ≠ Some (FSpecial c)) ∧ t !! q ≠ Some FDir →
     let r := (let '(msgs, o) := run (cli_writer (sy_write s)) in
            let t := append_to u q (bytes_of_messages msgs) in
            let out := stdout_text no 0 (length msgs) in
            match o with
            | Returned None => (t, out, Exit 0 None)
            | Crashed e => (t, out, Exit 2 (Some e))
            | Returned (Some e) =>
                let t := append_to t q (sy_partial s) in
                ((if stat_regular (sy_stat s) t output then os_remove (sy_remove s) t output else t),
                 out, Exit 1 (Some e))
            end) in
     (output = "-" → r.1.1 = t) ∧ (p ≠ output → Some q ≠ Some p → r.1.1 !! p = t !! p) ∧
     (t !! p = Some FDir → r.1.1 !! p = Some FDir) ∧
     (∀ c, t !! p = Some (FSpecial c) → ∃ more, r.1.1 !! p = Some (FSpecial (c +:+ more)))).
  { intros u Hu. cbn zeta. destruct (run _) as [msgs o].
    (* the tree after any number of writes *)
    assert (Happ : ∀ v : ftree, (∀ x, x ≠ q → v !! x = t !! x) →
        ((∃ c, t !! q = Some (FSpecial c)) → ∀ c, t !! q = Some (FSpecial c) → ∃ more, v !! q = Some (FSpecial (c +:+ more))) →
        ((∀ c, t !! q ≠ Some (FSpecial c)) → t !! q ≠ Some FDir → ∃ c, v !! q = Some (FReg c)) →
        ∀ b, (∀ x, x ≠ q → append_to v q b !! x = t !! x) ∧
        ((∃ c, t !! q = Some (FSpecial c)) → ∀ c, t !! q = Some (FSpecial c) → ∃ more, append_to v q b !! q = Some (FSpecial (c +:+ more))) ∧
        ((∀ c, t !! q ≠ Some (FSpecial c)) → t !! q ≠ Some FDir → ∃ c, append_to v q b !! q = Some (FReg c))).
    { intros v Hv1 Hv2 Hv3 b. split; [|split].
      - intros x Hx. rewrite append_other by done. by apply Hv1.
      - intros Hs c Hc. destruct (Hv2 Hs c Hc) as [more Hm]. exists (more +:+ b). unfold append_to. rewrite Hm, lookup_insert.
        by rewrite app_assoc.
      - intros H1 H2. destruct (Hv3 H1 H2) as [c Hc]. exists (c +:+ b). unfold append_to. by rewrite Hc, lookup_insert. }
    assert (Hu1 : ∀ x, x ≠ q → u !! x = t !! x).
    { intros x Hx. destruct Hu as [[-> _]|[-> _]]; [done|]. by rewrite lookup_insert_ne. }
    assert (Hu2 : (∃ c, t !! q = Some (FSpecial c)) → ∀ c, t !! q = Some (FSpecial c) → ∃ more, u !! q = Some (FSpecial (c +:+ more))).
    { intros [c0 Hc0] c Hc. exists "". rewrite app_nil_r. destruct Hu as [[-> _]|(_ & Hn & _)]; [done|]. by destruct (Hn c0). }
    assert (Hu3 : (∀ c, t !! q ≠ Some (FSpecial c)) → t !! q ≠ Some FDir → ∃ c, u !! q = Some (FReg c)).
    { intros H1 H2. destruct Hu as [[_ [c Hc]]|[-> _]]; [by destruct (H1 c)|]. exists "". apply lookup_insert. }
    destruct (Happ u Hu1 Hu2 Hu3 (bytes_of_messages msgs)) as (Hw1 & Hw2 & Hw3).
    (* conclusions for a tree that only differs at q by appended bytes *)
    assert (Hfin : ∀ v : ftree, (∀ x, x ≠ q → v !! x = t !! x) →
        ((∃ c, t !! q = Some (FSpecial c)) → ∀ c, t !! q = Some (FSpecial c) → ∃ more, v !! q = Some (FSpecial (c +:+ more))) →
        (output = "-" → v = t) ∧ (p ≠ output → Some q ≠ Some p → v !! p = t !! p) ∧
        (t !! p = Some FDir → v !! p = Some FDir) ∧
        (∀ c, t !! p = Some (FSpecial c) → ∃ more, v !! p = Some (FSpecial (c +:+ more)))).
    { intros v Hv1 Hv2. split; [done|]. split; [intros _ Hne; apply Hv1; congruence|]. split.
      - intros Hd. destruct (decide (p = q)) as [->|Hne]; [|by rewrite Hv1].
        exfalso. destruct Hu as [[_ [c Hc]]|(_ & _ & Hn)]; congruence.
      - intros c Hc. destruct (decide (p = q)) as [->|Hne]; [by apply Hv2; eauto|]. rewrite Hv1 by done. by apply Hspec. }
    destruct o as [[e|]|e]; cbn [fst].
    - destruct (Happ _ Hw1 Hw2 Hw3 (sy_partial s)) as (Hz1 & Hz2 & Hz3).
      destruct (stat_regular (sy_stat s) _ output) eqn:Est; [|by apply Hfin].
      unfold os_remove. destruct (sy_remove s); [by apply Hfin|].
      destruct (Hfin _ Hz1 Hz2) as (_ & F2 & F3 & F4). split; [done|].
      assert (Hout : ∀ x, t !! output = Some x → x ≠ FDir ∧ ∀ c, x ≠ FSpecial c).
      { intros x Hx. unfold stat_regular in Est. destruct (sy_stat s); [done|].
        split; [intros ->|intros c ->].
        - assert (output = q) as ->. { unfold resolve in Eq. cbn [follow] in Eq. rewrite Hx in Eq. by injection Eq. }
          destruct Hu as [[_ [c Hc]]|(_ & _ & Hn)]; congruence.
        - assert (output = q) as ->. { unfold resolve in Eq. cbn [follow] in Eq. rewrite Hx in Eq. by injection Eq. }
          destruct (Hz2 (ex_intro _ c Hx) c Hx) as [more Hm]. rewrite resolve_plain in Est; [|intros q'; by rewrite Hm].
          by rewrite Hm in Est. }
      split; [|split].
      + intros Hpo Hpq. rewrite lookup_delete_ne by done. by apply F2.
      + intros Hd. rewrite lookup_delete_ne; [by apply F3|]. intros ->. by destruct (Hout _ Hd).
      + intros c Hc. rewrite lookup_delete_ne; [by apply F4|]. intros ->. destruct (Hout _ Hc) as [_ Hn]. by destruct (Hn c).
    - by apply Hfin.
    - by apply Hfin. }
  cbn zeta in Hgen. destruct (t !! q) as [[c| |c|l]|] eqn:Etq.
  - apply Hgen. right. repeat split; congruence.
  - done.
  - apply Hgen. left. split; [done|by exists c].
  - apply Hgen. right. repeat split; congruence.
  - apply Hgen. right. repeat split; congruence.
Qed.

(** ... the exit code is 0 exactly when everything succeeded *)
Theorem C40_exit_code : ∀ s no options run output (t : ftree) t' out code msg,
  index_cmd s no options run output t = (t', out, Exit code msg) →
  (code = 0 ↔ options = None ∧ (output = "-" ∨ ∃ x, os_create (sy_create s) t output = inr x) ∧
              (run (cli_writer (sy_write s))).2 = Returned None) ∧
  (code = 0 ↔ msg = None).
Proof.
  intros s no options run output t t' out code msg. unfold index_cmd.
  destruct options as [e|]; [intros [= <- <- <- <-]; split; split; [done|by intros (? & _)|done|done]|].
  destruct (String.eqb_spec output "-") as [->|Hne].
  - destruct (run _) as [msgs [[e|]|e]]; intros [= <- <- <- <-]; cbn [snd]; split; split; try done; try (by intros (_ & _ & ?)).
    intros _. auto.
  - destruct (os_create (sy_create s) t output) as [e|[q u]].
    + intros [= <- <- <- <-]. split; split; [done|by intros (_ & [?|[x ?]] & _)|done|done].
    + destruct (run _) as [msgs [[e|]|e]]; intros [= <- <- <- <-]; cbn [snd]; split; split; try done; try (by intros (_ & _ & ?)).
      intros _. split; [done|]. split; [right; by eexists|done].
Qed.

(** C40: if the process is killed, the file holds a prefix of the index: cut inside a message it
    is not accepted; but cut between messages it decodes as an index with only the first
    documents (nothing in the format marks the end). *)
Theorem C40_killed : ∀ digest env fs h objstr mo impl impl_error root version skip meta ld po ao po2 s output (t : ftree) q n,
  let run := the_run digest env fs h objstr mo impl impl_error root version skip meta ld po ao po2 in
  let msgs := (run (cli_writer (sy_write s))).1 in
  regular_output t output q → sy_create s = None → metas msgs = [meta] →
  (Z.of_nat (slen (bytes_of_messages msgs)) < 2 ^ 63)%Z → n <= slen (bytes_of_messages msgs) →
  ∃ content, killed_after n run s output t !! q = Some (FReg content) ∧
    (read_index content = None ∨ content = "" ∨
     ∃ k, 1 <= k ∧ content = bytes_of_messages (take k msgs) ∧
       read_index content = Some (SIndex meta (documents (take k msgs)) (externals (take k msgs)))).
Proof.
  intros digest env fs h objstr mo impl impl_error root version skip meta ld po ao po2 s output t q n run msgs Ho Hc Hmeta Hs Hn.
  assert (Hok : Forall message_ok msgs) by apply messages_fit.
  unfold killed_after. rewrite Hc, (create_regular _ _ _ Ho). rewrite append_reg, app_nil_l, lookup_insert. eexists. split; [reflexivity|].
  fold msgs.
  pose proof (run_accepts digest env fs h objstr mo impl impl_error root version skip meta ld po ao po2 (cli_writer (sy_write s))) as Ha.
  fold run msgs in Ha. clear Ho Hc.
  (* the first message is the metadata *)
  assert (Hfirst : ∀ k, 1 <= k → metas (take k msgs) = [meta]).
  { intros k Hk. destruct msgs as [|m0 rest] eqn:Em; [done|]. destruct k as [|k]; [lia|].
    assert (m0 = MMeta meta) as ->.
    { revert Em Hmeta. unfold msgs, run, the_run, index. destruct (cli_writer _ [] (MMeta meta)); [done|].
      intros Em _. assert (∃ l, m0 :: rest = MMeta meta :: l) as [l [= -> ->]]; [|done]. rewrite <- Em. clear.
      destruct ld as [err|all proj]; [by eexists|].
      destruct (index_visit_packages _ _ _ _ _ _ _ _ _) as [[docs g]|]; [|by eexists].
      destruct (if skip then _ else _) as [[[[g' k] exts]|]|]; [|by eexists|by eexists].
      assert (Hwd : ∀ w items sofar n k, ∃ new, (write_documents env fs h objstr mo w g' docs sofar n k items).1.1 = sofar ++ new).
      { intros w items. induction items as [|[p f] items IH]; intros sofar n k0; [exists []; by rewrite List.app_nil_r|].
        cbn [write_documents]. destruct (file_name fs f) as [name|]; [|exists []; by rewrite List.app_nil_r].
        destruct (docs !! name) as [d|]; [|apply IH].
        destruct (index_file _ _ _ _ _ _ _ _ _ _ _) as [[doc k']|]; [|exists []; by rewrite List.app_nil_r].
        destruct (w sofar (MDoc doc)); [exists []; by rewrite List.app_nil_r|].
        destruct (IH (sofar ++ [MDoc doc]) (S n) k') as [new Hnew]. rewrite Hnew. rewrite <- List.app_assoc. by eexists. }
      match goal with |- context [write_documents ?a ?b ?c ?d ?e ?w ?g ?dd ?sf ?nn ?kk ?it] =>
        destruct (Hwd w it sf nn kk) as [new Hnew]; destruct (write_documents a b c d e w g dd sf nn kk it) as [[ms o] k'] end.
      cbn in Hnew. subst ms. destruct o as [[e|]|e]; [by eexists| |by eexists].
      match goal with |- context [write_all ?w ?sf ?l] => destruct (write_all_spec w sf l) as [[_ E]|(i & e & _ & E)]; rewrite E end; cbn; by eexists. }
    cbn in Hmeta |- *. injection Hmeta as Hmeta. f_equal.
    apply elem_of_nil_inv. intros x Hx%metas_in. rewrite elem_of_take in Hx. destruct Hx as (i & Hi & _).
    eapply (not_elem_of_nil x); unfold metas in Hmeta; rewrite <- Hmeta; apply metas_in; eauto using elem_of_list_lookup_2. }
  (* split the messages at the cut *)
  assert (Hcut : ∀ l n, n <= slen (bytes_of_messages l) → 
      ∃ k p, str_take n (bytes_of_messages l) = bytes_of_messages (take k l) +:+ p ∧
        (p = "" ∨ ∃ m b r, l !! k = Some m ∧ marshal m = Some b ∧ b = p +:+ r ∧ p ≠ "" ∧ r ≠ "")).
  { clear. induction l as [|m l IH]; intros n Hn.
    - exists 0, "". cbn in *. split; [by destruct n|by left].
    - change (bytes_of_messages (m :: l)) with (bytes_of_messages ([m] ++ l)) in *. rewrite bytes_app in *. rewrite slen_app in Hn.
      destruct (decide (slen (bytes_of_messages [m]) <= n)) as [Hle|Hlt].
      + destruct (IH (n - slen (bytes_of_messages [m]))) as (k & p & E & Hp); [lia|].
        exists (S k), p. cbn [take]. change (bytes_of_messages (m :: take k l)) with (bytes_of_messages ([m] ++ take k l)).
        rewrite bytes_app, <- app_assoc, <- E. split; [|done]. 
        replace n with (slen (bytes_of_messages [m]) + (n - slen (bytes_of_messages [m]))) at 1 by lia.
        generalize (n - slen (bytes_of_messages [m])). intros j. generalize (bytes_of_messages [m]) (bytes_of_messages l).
        intros a b. clear. induction a as [|c a IHa]; [done|]. rewrite slen_cons, !app_cons. cbn [Nat.add str_take]. by rewrite IHa.
      + exists 0, (str_take n (bytes_of_messages [m])). cbn [take]. split.
        { change (bytes_of_messages []) with "". rewrite app_nil_l. 
          assert (n <= slen (bytes_of_messages [m])) as Hn' by lia. revert Hn'. clear.
          generalize (bytes_of_messages [m]) (bytes_of_messages l). intros a b. revert n. induction a as [|c a IHa]; intros n Hn'.
          - cbn in Hn'. assert (n = 0) as -> by lia. by destruct b.
          - destruct n as [|n]; [by destruct b|]. rewrite app_cons. cbn [str_take]. rewrite slen_cons in Hn'. rewrite IHa by lia. done. }
        destruct n as [|n]; [left; by destruct (bytes_of_messages [m])|]. right. exists m.
        unfold bytes_of_messages in *. cbn [map String.concat] in *. destruct (marshal m) as [b|]; [|cbn in Hlt; lia].
        change (default "" (Some b)) with b in *. exists b, (str_drop (S n) b). split; [done|]. split; [done|].
        assert (E : ∀ b j, b = str_take j b +:+ str_drop j b).
        { clear. induction b as [|c b IHb]; intros [|j]; try done. cbn [str_take str_drop]. rewrite app_cons. by rewrite <- IHb. }
        split; [apply E|]. split; [destruct b; cbn in *; [lia|done]|].
        intros Hd. pose proof (f_equal slen (E b (S n))) as Hl. rewrite Hd, slen_app in Hl. change (slen "") with 0 in Hl.
        assert (slen (str_take (S n) b) <= S n) as Hl2.
        { clear. generalize (S n). induction b as [|c b IHb]; intros [|j]; cbn [str_take]; rewrite ?slen_cons; [cbn; lia|cbn; lia|cbn; lia|specialize (IHb j); lia]. }
        change (id b) with b in *. lia. }
  destruct (Hcut msgs n Hn) as (k & p & E & Hp). rewrite E.
  assert (Hlen : ∀ k, (Z.of_nat (slen (bytes_of_messages (take k msgs))) < 2 ^ 63)%Z).
  { intros j. rewrite <- (take_drop j msgs), bytes_app, slen_app in Hs. lia. }
  pose proof (accepted_marshal _ _ _ (accepts_take _ _ _ k Ha)) as Hm.
  destruct Hp as [->|(m & b & r & Hlk & Hb & Eb & Hp & Hr)].
  - rewrite app_nil_r. destruct k as [|k]; [right; left; done|]. right. right. exists (S k). split; [lia|]. split; [done|].
    rewrite (concat_bytes _ _ Hm). apply (C39_concatenation_is_index _ _ meta Hm).
    + by apply Forall_take.
    + apply Hfirst. lia.
    + rewrite <- (concat_bytes _ _ Hm). apply Hlen.
  - left. rewrite (concat_bytes _ _ Hm). apply (C39_truncated_rejected _ _ m b p r Hm Hb Eb Hp Hr).
    rewrite <- (concat_bytes _ _ Hm). pose proof (Hlen (S k)) as Hk. rewrite (take_S_r _ _ _ Hlk), bytes_app in Hk.
    unfold bytes_of_messages at 2 in Hk. cbn [map String.concat] in Hk. rewrite Hb in Hk. exact Hk.
Qed.
Print Assumptions C40_success_decodes.
Print Assumptions C40_killed.

(** *** C40 on a concrete project *)
Definition no_errors : sys := Sys None (λ _, None) "" None None.
Definition silent : noise := λ _, "".
Definition disk_full : sys := Sys None (λ n, if Nat.eqb n 2 then Some "no space left on device" else None) (String "018" "") None None.
Lemma x_is_run : ∀ w, x_run w = the_run p_digest p_env x_fs x_h (λ o, o_name o) x_mo x_impl "" "/src" "v1.0.0" false x_meta
    (LoadOk x_all x_proj) x_po x_ao x_po w.
Proof. reflexivity. Qed.
Definition x_tree : ftree := {[ "old.txt" := FReg "keep"; "index.scip" := FReg "stale"; "link" := FLink "index.scip"; "tty" := FSpecial "" ]}.
Lemma x_cli : x_run (cli_writer (sy_write no_errors)) = (x_msgs, Returned None).
Proof. vm_compute. reflexivity. Qed.
Lemma x_cli_full : (x_run (cli_writer (sy_write disk_full))).2 = Returned (Some "failed to write to scip index file: no space left on device").
Proof. vm_compute. reflexivity. Qed.
Example C40_success_example : ∃ t' out content,
  index_cmd no_errors silent None x_run "index.scip" x_tree = (t', out, Exit 0 None) ∧
  t' !! "index.scip" = Some (FReg content) ∧ read_index content = Some (SIndex x_meta (documents x_msgs) (externals x_msgs)) ∧
  t' !! "old.txt" = Some (FReg "keep").
Proof.
  destruct (C40_success_decodes p_digest p_env x_fs x_h (λ o, o_name o) x_mo x_impl "" "/src" "v1.0.0" false x_meta
    (LoadOk x_all x_proj) x_po x_ao x_po no_errors silent "index.scip" x_tree "index.scip" x_msgs) as (t' & out & content & H1 & H2 & H3).
  - split; [done|]. split; [reflexivity|]. right. by eexists.
  - reflexivity.
  - exact x_cli.
  - vm_compute. reflexivity.
  - exists t', out, content. split; [exact H1|]. split; [exact H2|]. split; [exact H3|].
    destruct (C40_only_output_touched no_errors silent None x_run "index.scip" x_tree "old.txt") as (_ & H & _).
    change x_run with (the_run p_digest p_env x_fs x_h (λ o, o_name o) x_mo x_impl "" "/src" "v1.0.0" false x_meta
      (LoadOk x_all x_proj) x_po x_ao x_po) in H. rewrite H1 in H. apply H; done.
Qed.
Example C40_failure_example : ∃ out,
  index_cmd disk_full silent None x_run "index.scip" x_tree =
    (delete "index.scip" x_tree, out, Exit 1 (Some "failed to write to scip index file: no space left on device")).
Proof.
  destruct (x_run (cli_writer (sy_write disk_full))) as [msgs o] eqn:E. pose proof x_cli_full as H. rewrite E in H. cbn in H. subst o.
  apply (C40_failure_removes disk_full silent x_run "index.scip" x_tree msgs); [|done|done|done|exact E].
  split; [done|]. right. by eexists.
Qed.
Example C40_killed_example : ∃ content,
  killed_after 400 x_run no_errors "index.scip" x_tree !! "index.scip" = Some (FReg content) ∧ read_index content = None.
Proof. eexists. split; [vm_compute; reflexivity|]. vm_compute. reflexivity. Qed.

(** *** Limits of C40 *)
Definition crashing : writer → list message * Index.outcome := λ w, ([MMeta x_meta], Crashed "nil pointer dereference").
(** C40: after a crash the (incomplete) output file stays. *)
Theorem C40_crash_leaves_file_refuted : ∃ t' content out msg,
  index_cmd no_errors silent None crashing "index.scip" ∅ = (t', out, Exit 2 msg) ∧ t' !! "index.scip" = Some (FReg content) ∧
  read_index content = Some (SIndex x_meta [] []).
Proof. do 4 eexists. split; [vm_compute; reflexivity|]. split; [vm_compute; reflexivity|]. vm_compute. reflexivity. Qed.
(** C40: a failed run deletes an index that was there before it *)
Theorem C40_failure_destroys_previous_refuted : ∃ t',
  (index_cmd disk_full silent None x_run "index.scip" {[ "index.scip" := FReg "previous index" ]}).1.1 = t' ∧ t' !! "index.scip" = None.
Proof. eexists. split; [vm_compute; reflexivity|reflexivity]. Qed.
(** C40: when the output is a symbolic link, a failed run removes the link and leaves the
    incomplete index in the file it pointed to *)
Theorem C40_symlink_refuted : ∃ t' content,
  (index_cmd disk_full silent None x_run "link" x_tree).1.1 = t' ∧ t' !! "link" = None ∧
  t' !! "index.scip" = Some (FReg content) ∧ content ≠ "" .
Proof. do 2 eexists. split; [vm_compute; reflexivity|]. split; [reflexivity|]. split; [vm_compute; reflexivity|done]. Qed.
(** C40: the error of os.Remove is dropped: the incomplete file stays *)
Theorem C40_remove_failure_refuted : ∃ t' content,
  (index_cmd (Sys None (sy_write disk_full) "" None (Some "operation not permitted")) silent None x_run "index.scip" ∅).1.1 = t' ∧
  t' !! "index.scip" = Some (FReg content) ∧ content ≠ "".
Proof. do 2 eexists. split; [vm_compute; reflexivity|]. split; [vm_compute; reflexivity|done]. Qed.

(** *** C55: the index on stdout *)
Lemma stdout_quiet l : ∀ n, stdout_of silent n l = bytes_of_messages l.
Proof.
  unfold bytes_of_messages. induction l as [|m l IH]; intros n; [done|]. cbn [stdout_of map]. rewrite concat_cons, IH. done.
Qed.
(** With -q and -o -, stdout is exactly the index. *)
Theorem C55_quiet_stdout : ∀ digest env fs h objstr mo impl impl_error root version skip meta ld po ao po2 s (t : ftree) msgs,
  let run := the_run digest env fs h objstr mo impl impl_error root version skip meta ld po ao po2 in
  run (cli_writer (sy_write s)) = (msgs, Returned None) →
  (Z.of_nat (slen (bytes_of_messages msgs)) < 2 ^ 63)%Z →
  ∃ out, index_cmd s silent None run "-" t = (t, out, Exit 0 None) ∧
    read_index out = Some (SIndex meta (documents msgs) (externals msgs)).
Proof.
  intros digest env fs h objstr mo impl impl_error root version skip meta ld po ao po2 s t msgs run Hr Hs.
  assert (Hok : Forall message_ok msgs).
  { pose proof (messages_fit digest env fs h objstr mo (cli_writer (sy_write s)) impl impl_error root version skip meta ld po ao po2) as Hf.
    change (Forall message_ok (run (cli_writer (sy_write s))).1) in Hf. by rewrite Hr in Hf. }
  unfold index_cmd. cbn [String.eqb Ascii.eqb Bool.eqb]. rewrite Hr. eexists. split; [reflexivity|]. rewrite stdout_quiet.
  pose proof (run_accepts digest env fs h objstr mo impl impl_error root version skip meta ld po ao po2 (cli_writer (sy_write s))) as Ha.
  pose proof (run_metas digest env fs h objstr mo impl impl_error root version skip meta ld po ao po2 (cli_writer (sy_write s)) None) as Hm.
  fold run in Ha, Hm. rewrite Hr in Ha, Hm. destruct (Hm eq_refl) as [Hm' _]. cbn [fst] in *.
  apply accepted_marshal in Ha. rewrite (concat_bytes _ _ Ha) in *.
  apply (C39_concatenation_is_index _ _ meta Ha); [done|by apply Hm'|done].
Qed.
Print Assumptions C55_quiet_stdout.
(** Without -q, the progress text is on stdout too (modules.go 40, output.go 18): the
    bytes are not an index. *)
Definition default_noise : noise := λ n, if Nat.eqb n 0 then "Resolving module name" +:+ String "010" "" else "".
Theorem C55_default_stdout_refuted : ∃ out,
  index_cmd no_errors default_noise None x_run "-" ∅ = (∅, out, Exit 0 None) ∧ read_index out = None.
Proof. eexists. split; [vm_compute; reflexivity|]. vm_compute. reflexivity. Qed.
Example C55_quiet_example : ∃ out, index_cmd no_errors silent None x_run "-" ∅ = (∅, out, Exit 0 None) ∧
  read_index out = Some (SIndex x_meta (documents x_msgs) (externals x_msgs)).
Proof.
  apply (C55_quiet_stdout p_digest p_env x_fs x_h (λ o, o_name o) x_mo x_impl "" "/src" "v1.0.0" false x_meta
    (LoadOk x_all x_proj) x_po x_ao x_po no_errors ∅ x_msgs x_cli). vm_compute. reflexivity.
Qed.
