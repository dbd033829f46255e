(** C46-C50: repository names, module versions and names, durations, log levels. *)
From Coq Require Import Ascii String.
From stdpp Require Import prelude strings.
From Verif Require Import GoStr Semver SpecSemver P_Semver Loader Env.
Open Scope string_scope.
Open Scope list_scope.

(** ------------------------------------------------------------------ *)
(** C46 *)
Definition all_chars (f : ascii → bool) (s : string) : Prop := str_forallb f s = true.
Definition one_of (cs : string) (c : ascii) : bool := str_existsb (Ascii.eqb c) cs.
(** host names; user names (with password); repository paths *)
Definition host_name (h : string) : Prop := all_chars (λ c, is_alnum c || one_of "-_.~" c)%bool h.
Definition user_name (u : string) : Prop := all_chars (λ c, is_alnum c || one_of "-_.~:" c)%bool u.
Definition repo_path (p : string) : Prop :=
  all_chars (λ c, negb (one_of ":?#%" c) && negb (is_ctl c))%bool p ∧ has_suffix p ".git" = false.
(** [spelled host path r]: r is a way to write the remote at host/path *)
Definition spelled (host path r : string) : Prop :=
  ∃ git, (git = "" ∨ git = ".git") ∧
  (r = "git@" +:+ host +:+ ":" +:+ path +:+ git ∨
   ∃ scheme user port, scheme ∈ ["https"; "http"; "ssh"; "git"] ∧
     (user = "" ∨ ∃ u, user_name u ∧ user = u +:+ "@") ∧
     (port = "" ∨ ∃ d, all_chars is_digit d ∧ port = ":" +:+ d) ∧
     r = scheme +:+ "://" +:+ user +:+ host +:+ port +:+ "/" +:+ path +:+ git).

Lemma cut_app_sep c s t :
  str_forallb (λ a, negb (Ascii.eqb a c)) s = true → cut c (s +:+ String c t) = (s, Some t).
Proof.
  induction s as [|a s IH]; intros H.
  - rewrite app_nil_l. cbn. by rewrite Ascii.eqb_refl.
  - cbn in H. apply andb_true_iff in H as [Ha Hs]. rewrite app_cons. cbn.
    destruct (Ascii.eqb a c); [done|]. by rewrite IH.
Qed.
Lemma cut_nosep c s : str_forallb (λ a, negb (Ascii.eqb a c)) s = true → cut c s = (s, None).
Proof.
  induction s as [|a s IH]; intros H; [done|].
  cbn in *. apply andb_true_iff in H as [Ha Hs]. destruct (Ascii.eqb a c); [done|]. by rewrite IH.
Qed.
Lemma forallb_impl (f g : ascii → bool) s :
  (∀ c, f c = true → g c = true) → str_forallb f s = true → str_forallb g s = true.
Proof.
  intros Hi. induction s as [|c s IH]; [done|]. cbn. intros [H1 H2]%andb_true_iff.
  by rewrite (Hi c H1), IH.
Qed.
Lemma existsb_forallb (f : ascii → bool) s : str_existsb f s = negb (str_forallb (λ c, negb (f c)) s).
Proof. induction s as [|c s IH]; [done|]. cbn. rewrite IH. by destruct (f c). Qed.
Lemma unescape_plain s : str_forallb (λ a, negb (Ascii.eqb a "%")) s = true → unescape_path s = Some s.
Proof.
  induction s as [|c s IH]; [done|]. cbn. intros [H1 H2]%andb_true_iff.
  destruct (Ascii.eqb c "%"); [done|]. by rewrite IH.
Qed.
Ltac ascii_cases c := let H := fresh in destruct c as [[] [] [] [] [] [] [] []]; intros H; cbv in H |- *; congruence.
Lemma host_not (x : ascii) h :
  (negb (is_alnum x) && negb (one_of "-_.~" x))%bool = true → host_name h →
  str_forallb (λ a, negb (Ascii.eqb a x)) h = true.
Proof.
  intros Hx. apply forallb_impl. intros c Hc. destruct (Ascii.eqb_spec c x) as [->|]; [|done].
  apply andb_true_iff in Hx as [H1 H2]. destruct (is_alnum x); [done|]. by destruct (one_of "-_.~" x).
Qed.
Lemma user_not (x : ascii) h :
  (negb (is_alnum x) && negb (one_of "-_.~:" x))%bool = true → user_name h →
  str_forallb (λ a, negb (Ascii.eqb a x)) h = true.
Proof.
  intros Hx. apply forallb_impl. intros c Hc. destruct (Ascii.eqb_spec c x) as [->|]; [|done].
  apply andb_true_iff in Hx as [H1 H2]. destruct (is_alnum x); [done|]. by destruct (one_of "-_.~:" x).
Qed.
Lemma digit_not (x : ascii) h :
  is_digit x = false → all_chars is_digit h → str_forallb (λ a, negb (Ascii.eqb a x)) h = true.
Proof.
  intros Hx. apply forallb_impl. intros c Hc. destruct (Ascii.eqb_spec c x) as [->|]; [|done]. congruence.
Qed.
Lemma path_not (x : ascii) p :
  one_of ":?#%" x = true → repo_path p → str_forallb (λ a, negb (Ascii.eqb a x)) p = true.
Proof.
  intros Hx [Hp _]. revert Hp. apply forallb_impl. intros c Hc.
  destruct (Ascii.eqb_spec c x) as [->|]; [|done]. by rewrite Hx in Hc.
Qed.
Lemma app_git p git : repo_path p → git = "" ∨ git = ".git" → trim_suffix (p +:+ git) ".git" = p.
Proof.
  intros [_ Hs] [->| ->].
  - rewrite app_nil_r. by apply trim_suffix_id.
  - apply trim_suffix_app.
Qed.
Lemma app_git_slash p git :
  repo_path p → git = "" ∨ git = ".git" → trim_suffix ("/" +:+ p +:+ git) ".git" = "/" +:+ p.
Proof.
  intros [_ Hs] [->| ->].
  - rewrite app_nil_r. apply trim_suffix_id. destruct (has_suffix ("/" +:+ p) ".git") eqn:E; [|done].
    apply has_suffix_spec in E as [r E]. destruct r as [|c r]; [done|].
    rewrite app_cons in E. injection E as _ E. change ("" +:+ p) with p in E. rewrite E, has_suffix_app in Hs. done.
  - rewrite app_assoc. apply trim_suffix_app.
Qed.
Lemma git_chars git (f : ascii → bool) :
  str_forallb f ".git" = true → git = "" ∨ git = ".git" → str_forallb f git = true.
Proof. intros H [->| ->]; done. Qed.

(** the authority of a URL *)
Lemma authority_host user host port :
  host_name host → (user = "" ∨ ∃ u, user_name u ∧ user = u +:+ "@") →
  (port = "" ∨ ∃ d, all_chars is_digit d ∧ port = ":" +:+ d) →
  ∃ hp, parse_authority (user +:+ host +:+ port) = Some hp ∧ hostname hp = host.
Proof.
  intros Hh Hu Hp. exists (host +:+ port).
  assert (str_forallb (λ a, negb (Ascii.eqb a "@")) (host +:+ port) = true) as Hnoat.
  { rewrite str_forallb_app. rewrite (host_not "@" host) by done. cbn.
    destruct Hp as [->|(d & Hd & ->)]; [done|]. exact (digit_not "@" d eq_refl Hd). }
  assert (last_index ":" (host +:+ port) =
          match port with "" => None | _ => Some (slen host) end) as Hli.
  { destruct Hp as [->|(d & Hd & ->)].
    - rewrite app_nil_r. by apply last_index_none, host_not.
    - change (":" +:+ d) with (String ":" d). apply last_index_app_sep. by apply digit_not. }
  assert (valid_optional_port port = true) as Hvp.
  { destruct Hp as [->|(d & Hd & ->)]; [done|]. exact Hd. }
  assert (parse_host (host +:+ port) = Some (host +:+ port)) as Hph.
  { unfold parse_host. destruct (has_prefix (host +:+ port) "[") eqn:E.
    { apply has_prefix_spec in E as [r E]. destruct host as [|c host].
      - rewrite app_nil_l in E. destruct Hp as [->|(d & _ & ->)]; done.
      - rewrite app_cons in E. injection E as -> _. done. }
    rewrite Hli. assert (str_drop (slen host) (host +:+ port) = port) as Hd by by apply str_drop_app.
    assert (str_forallb host_char (host +:+ port) = true) as ->.
    { rewrite str_forallb_app. apply andb_true_iff. split.
      - revert Hh. apply forallb_impl. intros c. unfold host_char. destruct (is_alnum c); [done|].
        unfold one_of. cbn. intros H. repeat (apply orb_true_iff in H as [H|H]; [rewrite H, ?orb_true_r; done|]). done.
      - destruct Hp as [->|(d & Hd' & ->)]; [done|].
        enough (str_forallb host_char d = true) by done.
        revert Hd'. apply forallb_impl. intros c Hc. unfold host_char, is_alnum. by rewrite Hc, orb_true_r. }
    destruct port as [|pc pt]; cbn [negb]; [done|]. by rewrite Hd, Hvp. }
  split.
  - unfold parse_authority. destruct Hu as [->|(u & Hu & ->)].
    + rewrite app_nil_l, last_index_none by done. done.
    + rewrite <-app_assoc. change ("@" +:+ (host +:+ port)) with (String "@" (host +:+ port)).
      rewrite last_index_app_sep by done.
      replace (String "@" (host +:+ port)) with ("@" +:+ (host +:+ port)) by done.
      assert (str_drop (S (slen u)) (u +:+ ("@" +:+ (host +:+ port))) = host +:+ port) as ->.
      { rewrite app_assoc. apply str_drop_app. rewrite slen_app. cbn. lia. }
      rewrite Hph. rewrite str_take_app by done.
      rewrite unescape_plain by (by apply user_not).
      assert (str_forallb userinfo_char u = true) as ->; [|done].
      revert Hu. apply forallb_impl. intros c. unfold userinfo_char, one_of. destruct (is_alnum c); [done|].
      cbn. intros H. repeat (apply orb_true_iff in H as [H|H]; [rewrite H, ?orb_true_r; done|]). done.
  - unfold hostname. rewrite Hli. destruct port as [|pc pt]; [apply app_nil_r|].
    rewrite str_drop_app by done. rewrite Hvp. by apply str_take_app.
Qed.
(** All spellings of a remote give the same repository name. *)
Theorem C46_repository_name host path r :
  host_name host → repo_path path → spelled host path r →
  parse_remote r = Some (host +:+ "/" +:+ path).
Proof.
  intros Hh Hp (git & Hg & [->|(scheme & user & port & Hs & Hu & Hport & ->)]).
  - unfold parse_remote. rewrite has_prefix_app.
    rewrite (app_assoc "git@"). change (":" +:+ path +:+ git) with (String ":" (path +:+ git)).
    rewrite split_on_app_sep.
    2:{ rewrite str_forallb_app. by rewrite (host_not ":" host). }
    rewrite split_on_nosep.
    2:{ rewrite str_forallb_app, (path_not ":" path) by done. by apply git_chars. }
    rewrite trim_prefix_app, app_git by done. done.
  - set (rest := user +:+ host +:+ port +:+ "/" +:+ path +:+ git).
    assert (has_prefix (scheme +:+ "://" +:+ rest) "git@" = false) as E.
    { repeat (apply elem_of_cons in Hs as [->|Hs]; [reflexivity|]). by apply elem_of_nil in Hs. }
    unfold parse_remote. rewrite E. clear E. unfold parse_remote_url.
    destruct (authority_host user host port Hh Hu Hport) as (hp & Hauth & Hhost).
    assert (∀ x : ascii, one_of "?#%" x = true →
              str_forallb (λ a, negb (Ascii.eqb a x)) rest = true) as Hrest.
    { intros x Hx. unfold rest. rewrite !str_forallb_app.
      assert (x = "?"%char ∨ x = "#"%char ∨ x = "%"%char) as Hx3.
      { unfold one_of in Hx. cbn in Hx. repeat (apply orb_true_iff in Hx as [Hx|Hx]; [apply Ascii.eqb_eq in Hx; auto|]).
        done. }
      rewrite (host_not x host), (path_not x path) by
        (first [done|destruct Hx3 as [->| [->| ->]]; reflexivity]).
      rewrite (git_chars git) by (first [done|destruct Hx3 as [->| [->| ->]]; reflexivity]).
      destruct Hu as [->|(u & Hu & ->)]; [|rewrite str_forallb_app, (user_not x u) by
         (first [done|destruct Hx3 as [->| [->| ->]]; reflexivity])];
      (destruct Hport as [->|(d & Hd & ->)]; [|cbn [str_forallb String.append]; rewrite str_forallb_app, (digit_not x d) by
         (first [done|destruct Hx3 as [->| [->| ->]]; reflexivity])]);
      destruct Hx3 as [->| [->| ->]]; reflexivity. }
    assert (str_existsb is_ctl rest = false) as Hctl.
    { rewrite existsb_forallb. apply negb_false_iff. unfold rest. rewrite !str_forallb_app.
      assert (∀ c, (is_alnum c || one_of "-_.~:" c)%bool = true → negb (is_ctl c) = true) as Huc.
      { intros c. ascii_cases c. }
      assert (∀ c, (is_alnum c || one_of "-_.~" c)%bool = true → negb (is_ctl c) = true) as Hhc.
      { intros c. ascii_cases c. }
      assert (∀ c, is_digit c = true → negb (is_ctl c) = true) as Hdc.
      { intros c. ascii_cases c. }
      rewrite (forallb_impl _ _ host Hhc Hh).
      assert (str_forallb (λ c, negb (is_ctl c)) path = true) as ->.
      { destruct Hp as [Hp _]. revert Hp. apply forallb_impl. by intros c [_ H]%andb_true_iff. }
      rewrite (git_chars git) by done.
      destruct Hu as [->|(u & Hu & ->)]; [|rewrite str_forallb_app, (forallb_impl _ _ u Huc Hu)];
      (destruct Hport as [->|(d & Hd & ->)]; [|rewrite str_forallb_app, (forallb_impl _ _ d Hdc Hd)]); done. }
    assert (str_forallb (λ a, negb (Ascii.eqb a "/")) (user +:+ host +:+ port) = true) as Hnoslash.
    { rewrite !str_forallb_app, (host_not "/" host) by done.
      destruct Hu as [->|(u & Hu & ->)]; [|rewrite str_forallb_app, (user_not "/" u) by done];
      (destruct Hport as [->|(d & Hd & ->)]; [|rewrite str_forallb_app, (digit_not "/" d) by done]); done. }
    assert (cut "/" rest = (user +:+ host +:+ port, Some (path +:+ git))) as Hcut.
    { unfold rest. rewrite !app_assoc, <-(app_assoc _ path git), <-(app_assoc _ "/" _), <-(app_assoc user host port).
      change ("/" +:+ (path +:+ git)) with (String "/" (path +:+ git)). by apply cut_app_sep. }
    assert (url_parse (scheme +:+ "://" +:+ rest) = Some (hp, String "/" (path +:+ git))) as ->.
    { assert (str_forallb (λ a, negb (Ascii.eqb a "#")) (scheme +:+ "://" +:+ rest) = true) as Hnh.
      { rewrite !str_forallb_app, Hrest by done.
        repeat (apply elem_of_cons in Hs as [->|Hs]; [reflexivity|]). by apply elem_of_nil in Hs. }
      unfold url_parse. rewrite cut_nosep by done. cbn [fst snd negb].
      assert (str_existsb is_ctl (scheme +:+ "://" +:+ rest) = false) as ->.
      { rewrite existsb_forallb in *. apply negb_false_iff. apply negb_false_iff in Hctl.
        rewrite !str_forallb_app, Hctl.
        repeat (apply elem_of_cons in Hs as [->|Hs]; [reflexivity|]). by apply elem_of_nil in Hs. }
      assert (String.eqb (scheme +:+ "://" +:+ rest) "*" = false) as ->.
      { repeat (apply elem_of_cons in Hs as [->|Hs]; [reflexivity|]). by apply elem_of_nil in Hs. }
      assert (get_scheme (scheme +:+ "://" +:+ rest) = Some (scheme, "//" +:+ rest)) as ->.
      { repeat (apply elem_of_cons in Hs as [->|Hs]; [reflexivity|]). by apply elem_of_nil in Hs. }
      rewrite (cut_nosep "?" ("//" +:+ rest)).
      2:{ rewrite str_forallb_app, Hrest by done. done. }
      cbn [fst]. change (has_prefix ("//" +:+ rest) "/") with (has_prefix ("/" +:+ ("/" +:+ rest)) "/").
      rewrite has_prefix_app. cbn [negb andb].
      assert (String.eqb scheme "" = false) as ->.
      { repeat (apply elem_of_cons in Hs as [->|Hs]; [reflexivity|]). by apply elem_of_nil in Hs. }
      rewrite has_prefix_app. cbn [negb andb orb].
      rewrite (str_drop_app 2 "//" rest) by done. rewrite Hcut. cbn [fst snd]. rewrite Hauth.
      rewrite unescape_plain; [done|]. cbn [str_forallb]. change (Ascii.eqb "/" "%") with false. cbn [negb andb].
      rewrite str_forallb_app, (path_not "%" path) by done. by apply git_chars. }
    rewrite Hhost. by rewrite (app_git_slash path git Hp Hg : trim_suffix (String "/" (path +:+ git)) ".git" = _).
Qed.
Corollary C46_same_name host path r r' :
  host_name host → repo_path path → spelled host path r → spelled host path r' →
  parse_remote r = parse_remote r'.
Proof. intros Hh Hp H1 H2. by rewrite !(C46_repository_name host path). Qed.
Example C46_example :
  host_name "github.com" ∧ repo_path "scip-code/scip-go" ∧
  spelled "github.com" "scip-code/scip-go" "git@github.com:scip-code/scip-go.git" ∧
  spelled "github.com" "scip-code/scip-go" "ssh://git@github.com:2222/scip-code/scip-go".
Proof.
  split; [done|]. split; [done|]. split.
  - exists ".git". split; [by right|]. by left.
  - exists "". split; [by left|]. right. exists "ssh", "git@", ":2222". split; [right; right; left|].
    split; [right; by exists "git"|]. split; [right; by exists "2222"|]. done.
Qed.
(** Limits: an absolute path in scp style keeps its extra slash, and scp style with another
    user than git is rejected although ssh://alice@host/path is accepted. *)
Theorem C46_absolute_scp_refuted :
  parse_remote "git@example.com:/srv/repo.git" = Some "example.com//srv/repo" ∧
  parse_remote "ssh://git@example.com/srv/repo.git" = Some "example.com/srv/repo".
Proof. done. Qed.
Theorem C46_other_user_refuted :
  parse_remote "alice@example.com:repo.git" = None ∧
  parse_remote "ssh://alice@example.com/repo.git" = Some "example.com/repo".
Proof. done. Qed.

(** ------------------------------------------------------------------ *)
(** C47 *)
Definition no_space (s : string) : Prop := s ≠ "" ∧ all_chars (λ c, negb (is_space c)) s.
Definition semantic_version (t : string) : Prop := ∃ pre b, semver_text t pre b.
(** what git prints: one item per line *)
Definition lines_of (l : list string) : string := join nl l +:+ nl.
Definition succeeds (out : string) : cmd_result := CmdResult out true.

Lemma trim_right_nospace s c : is_space c = false → trim_right (s +:+ String c "") = s +:+ String c "".
Proof.
  intros Hc. induction s as [|a s IH]; [rewrite app_nil_l; cbn [trim_right]; by rewrite Hc|]. rewrite app_cons. cbn [trim_right].
  rewrite IH. destruct s; done.
Qed.
Lemma trim_right_space s c : is_space c = true → trim_right (s +:+ String c "") = trim_right s.
Proof.
  intros Hc. induction s as [|a s IH]; [rewrite app_nil_l; cbn [trim_right]; by rewrite Hc|]. rewrite app_cons. cbn [trim_right].
  by rewrite IH.
Qed.
Lemma str_snoc s : s ≠ "" → ∃ r c, s = r +:+ String c "".
Proof.
  induction s as [|a s IH]; [done|]. intros _. destruct s as [|b s]; [by exists "", a|].
  destruct IH as (r & c & E); [done|]. exists (String a r), c. by rewrite app_cons, <-E.
Qed.
(** s starts and ends with a non-space *)
Definition tight (s : string) : Prop :=
  (∃ c r, s = String c r ∧ is_space c = false) ∧ (∃ r c, s = r +:+ String c "" ∧ is_space c = false).
Lemma trim_tight s : tight s → trim_space (s +:+ nl) = s.
Proof.
  intros [(c & r & -> & Hc) (r' & c' & E & Hc')]. unfold trim_space. rewrite app_cons. cbn [trim_left].
  rewrite Hc. rewrite <-app_cons, E. unfold nl. rewrite trim_right_space by done. by apply trim_right_nospace.
Qed.
Lemma no_space_tight s : no_space s → tight s.
Proof.
  intros [Hne Ha]. split.
  - destruct s as [|c r]; [done|]. exists c, r. split; [done|]. unfold all_chars in Ha. cbn in Ha.
    apply andb_true_iff in Ha as [Ha _]. by apply negb_true_iff in Ha.
  - destruct (str_snoc s Hne) as (r & c & ->). exists r, c. split; [done|]. unfold all_chars in Ha.
    rewrite str_forallb_app in Ha. apply andb_true_iff in Ha as [_ Ha]. cbn in Ha.
    rewrite andb_true_r in Ha. by apply negb_true_iff in Ha.
Qed.
Lemma join_tight l : l ≠ [] → Forall no_space l → tight (join nl l).
Proof.
  induction l as [|a l IH]; [done|]. intros _ HF. inversion HF as [|?? Ha Hl]; subst.
  destruct l as [|b l]; [by apply no_space_tight|].
  destruct IH as [(c & r & E & Hc) (r' & c' & E' & Hc')]; [done|done|].
  destruct (no_space_tight a Ha) as [(ca & ra & Ea & Hca) _].
  change (join nl (a :: b :: l)) with (a +:+ nl +:+ join nl (b :: l)). split.
  - exists ca, (ra +:+ nl +:+ join nl (b :: l)). split; [|done]. by rewrite Ea, app_cons.
  - exists (a +:+ nl +:+ r'), c'. split; [|done]. by rewrite E', !app_assoc.
Qed.
Lemma split_join l : l ≠ [] → Forall no_space l → split_on newline (join nl l) = l.
Proof.
  induction l as [|a l IH]; [done|]. intros _ HF. inversion HF as [|?? [_ Ha] Hl]; subst.
  assert (str_forallb (λ c, negb (Ascii.eqb c newline)) a = true) as Hn.
  { revert Ha. apply forallb_impl. intros c Hc. destruct (Ascii.eqb_spec c newline) as [->|]; done. }
  destruct l as [|b l]; [by apply split_on_nosep|].
  change (join nl (a :: b :: l)) with (a +:+ String newline (join nl (b :: l))).
  rewrite split_on_app_sep by done. f_equal. by apply IH.
Qed.

(** With tags on HEAD: the first that is a semantic version, else the first. *)
Theorem C47_version_tag before t after rev :
  Forall no_space (before ++ t :: after) → Forall (λ x, ¬ semantic_version x) before → semantic_version t →
  infer_module_version (succeeds (lines_of (before ++ t :: after))) rev = Ok (Some t).
Proof.
  intros HF Hb Ht. unfold infer_module_version, command_run, lines_of. cbn [succeeds cmd_out cmd_ok negb].
  assert (before ++ t :: after ≠ []) as Hne by by destruct before.
  rewrite (trim_tight _ (join_tight _ Hne HF)).
  destruct (join_tight _ Hne HF) as [(c & r & E & _) _].
  destruct (String.eqb_spec (join nl (before ++ t :: after)) "") as [E0|_]; [by rewrite E in E0|].
  cbn [negb]. rewrite split_join by done.
  assert (List.find semver_is_valid (before ++ t :: after) = Some t) as ->; [|done].
  clear -Hb Ht. induction before as [|x before IH]; cbn.
  - by rewrite (proj2 (semver_is_valid_spec t) Ht).
  - inversion Hb as [|?? Hx Hb']; subst. destruct (semver_is_valid x) eqn:E; [|by apply IH].
    destruct Hx. by apply semver_is_valid_spec.
Qed.
Theorem C47_other_tag t after rev :
  Forall no_space (t :: after) → Forall (λ x, ¬ semantic_version x) (t :: after) →
  infer_module_version (succeeds (lines_of (t :: after))) rev = Ok (Some t).
Proof.
  intros HF Hb. unfold infer_module_version, command_run, lines_of. cbn [succeeds cmd_out cmd_ok negb].
  assert (t :: after ≠ []) as Hne by done.
  rewrite (trim_tight _ (join_tight _ Hne HF)).
  destruct (join_tight _ Hne HF) as [(c & r & E & _) _].
  destruct (String.eqb_spec (join nl (t :: after)) "") as [E0|_]; [by rewrite E in E0|].
  cbn [negb]. rewrite split_join by done.
  assert (List.find semver_is_valid (t :: after) = None) as ->; [|done].
  clear -Hb. induction (t :: after) as [|x l IH]; [done|]. inversion Hb as [|?? Hx Hb']; subst. cbn.
  destruct (semver_is_valid x) eqn:E; [|by apply IH]. destruct Hx. by apply semver_is_valid_spec.
Qed.
(** Without tags: the first 12 characters of the commit. *)
Theorem C47_commit commit :
  no_space commit → 12 <= slen commit →
  ∃ v r, infer_module_version (succeeds "") (succeeds (lines_of [commit])) = Ok (Some v) ∧
    slen v = 12 ∧ commit = v +:+ r.
Proof.
  intros Hc Hl. unfold infer_module_version, command_run, lines_of. cbn [succeeds cmd_out cmd_ok negb].
  change (trim_space "") with "". change (String.eqb "" "") with true. cbn [negb].
  change (join nl [commit]) with commit.   rewrite (trim_tight _ (no_space_tight _ Hc)). unfold slice_to.
  destruct (Nat.leb_spec 12 (slen commit)); [|lia]. cbn [res_bind].
  exists (str_take 12 commit), (str_drop 12 commit). split; [done|]. split; [by apply slen_take|].
  by rewrite str_take_drop.
Qed.
(** A failing git command is an error. *)
Theorem C47_git_fails tag rev :
  cmd_ok tag = false ∨ (trim_space (cmd_out tag) = "" ∧ cmd_ok rev = false) →
  infer_module_version tag rev = Ok None.
Proof.
  intros H. unfold infer_module_version, command_run. destruct (cmd_ok tag); cbn [negb]; [|done].
  destruct H as [H|[H1 H2]]; [done|]. rewrite H1, H2. done.
Qed.
Example C47_example :
  Forall no_space ["latest"; "v1.2.3"; "v1.2.4"] ∧ ¬ semantic_version "latest" ∧ semantic_version "v1.2.3" ∧
  infer_module_version (succeeds (lines_of ["latest"; "v1.2.3"; "v1.2.4"])) (succeeds "") = Ok (Some "v1.2.3") ∧
  (no_space "e83c5163316f89bfbde7d9ab23ca2e25604af290" ∧ 12 <= slen "e83c5163316f89bfbde7d9ab23ca2e25604af290").
Proof.
  split; [repeat constructor; done|]. split.
  { intros H. apply semver_is_valid_spec in H. vm_compute in H. done. }
  split; [apply semver_is_valid_spec; vm_compute; done|]. split; [vm_compute; done|].
  split; [done|]. cbn. lia.
Qed.

(** ------------------------------------------------------------------ *)
(** C48 *)
Theorem C48_explicit_name roots gm repo name :
  name ≠ "" →
  ∃ std, module_name roots gm repo name = Ok (Some (name, std)) ∧ (std = true ↔ name = "std").
Proof.
  intros H. unfold module_name. destruct (String.eqb_spec name ""); [done|]. cbn [negb].
  eexists. split; [done|]. rewrite orb_false_r. by rewrite String.eqb_eq.
Qed.
Theorem C48_go_mod roots repo path :
  ∃ std, module_name roots (Parsed (Some path)) repo "" = Ok (Some (path, std)) ∧ (std = true ↔ path = "std").
Proof.
  unfold module_name. cbn. eexists. split; [done|]. rewrite orb_false_r. by rewrite String.eqb_eq.
Qed.
Theorem C48_unparsable_go_mod roots repo : module_name roots ParseFails repo "" = Ok None.
Proof. done. Qed.
(** without go.mod: the repository name (its version control root followed by the rest) *)
Theorem C48_repository roots root rest :
  roots (root +:+ rest) = Some root →
  ∃ std, module_name roots NoFile (root +:+ rest) "" = Ok (Some (root +:+ rest, std)) ∧
    (std = true ↔ root +:+ rest = "std").
Proof.
  intros H. unfold module_name, resolve_module_name. cbn [String.eqb negb]. rewrite H.
  rewrite trim_prefix_app. eexists. split; [done|]. rewrite orb_diag. by rewrite String.eqb_eq.
Qed.
(** Findings: if the repository cannot be resolved either, no error is reported: the result
    is the empty name; and a go.mod without module line crashes. *)
Theorem C48_failure_reported_refuted roots repo :
  roots repo = None → module_name roots NoFile repo "" = Ok (Some ("", false)).
Proof. intros H. unfold module_name, resolve_module_name. cbn [String.eqb negb]. by rewrite H. Qed.
Theorem C48_no_module_line_refuted roots repo :
  ∃ msg, module_name roots (Parsed None) repo "" = Panic msg.
Proof. by eexists. Qed.
Example C48_example :
  let roots x := if String.eqb x "github.com/a/b" then Some "github.com/a/b" else None in
  roots ("github.com/a/b" +:+ "") = Some "github.com/a/b" ∧ roots "" = None.
Proof. done. Qed.

(** ------------------------------------------------------------------ *)
(** C49, for elapsed times in nanoseconds *)
Local Open Scope Z_scope.
(** the largest unit (ns, us, ms, s, min, h) not above t *)
Definition largest_unit (t u : Z) : Prop :=
  u ∈ [1; 1000; 1000000; 1000000000; 60000000000; 3600000000000] ∧ u <= t ∧
  ∀ u', u' ∈ [1; 1000; 1000000; 1000000000; 60000000000; 3600000000000] → u' <= t → u' <= u.
(** displayed steps: two decimals of ms, us and s; seconds for minutes; minutes for hours *)
Lemma human_elapsed_cases e :
  0 <= e →
  human_elapsed e =
    if e <? 1000 then e else if e <? 1000000 then e - e mod 10
    else if e <? 1000000000 then e - e mod 10000 else if e <? 60000000000 then e - e mod 10000000
    else if e <? 3600000000000 then e - e mod 1000000000 else e - e mod 60000000000.
Proof.
  intros He. unfold human_elapsed, unit_count, durations.
  destruct (Z.leb_spec 1 e), (Z.leb_spec 1000 e), (Z.leb_spec 1000000 e), (Z.leb_spec 1000000000 e),
    (Z.leb_spec 60000000000 e), (Z.leb_spec 3600000000000 e); try lia;
  repeat match goal with |- context [e <? ?b] =>
    first [rewrite (proj2 (Z.ltb_lt e b)) by lia|rewrite (proj2 (Z.ltb_ge e b)) by lia] end;
  try done; cbn [nth]; unfold truncate;
  repeat match goal with |- context [100 <? ?b] => let x := eval vm_compute in (100 <? b) in change (100 <? b) with x end;
  cbv iota beta; rewrite Z.rem_mod_nonneg by lia; done.
Qed.
Ltac human := repeat match goal with
  | |- context [?a <? ?b] => destruct (Z.ltb_spec a b)
  | |- context [?a mod ?b] =>
      let H1 := fresh in let H2 := fresh in let r := fresh "r" in let q := fresh "q" in
      pose proof (Z.mod_pos_bound a b ltac:(lia)) as H1;
      pose proof (Z.div_mod a b ltac:(lia)) as H2; set (r := a mod b) in *; set (q := a / b) in *;
      clearbody r q
  end.
(** never more than the elapsed time; off by less than the unit (even a hundredth of it below
    the minute, a sixtieth above) *)
Theorem C49_close e u :
  0 <= e → largest_unit e u → 0 <= e - human_elapsed e < u.
Proof.
  intros He (Hu & Hle & Hmax). rewrite human_elapsed_cases by done.
  assert (1000 <= e → 1000 <= u) as H1 by (apply Hmax; set_solver).
  assert (1000000 <= e → 1000000 <= u) as H2 by (apply Hmax; set_solver).
  assert (1000000000 <= e → 1000000000 <= u) as H3 by (apply Hmax; set_solver).
  assert (60000000000 <= e → 60000000000 <= u) as H4 by (apply Hmax; set_solver).
  assert (3600000000000 <= e → 3600000000000 <= u) as H5 by (apply Hmax; set_solver).
  assert (1 <= u) as H0.
  { repeat (apply elem_of_cons in Hu as [->|Hu]; [lia|]). by apply elem_of_nil in Hu. }
  human; lia.
Qed.
Theorem C49_precise e u :
  0 <= e → largest_unit e u → 1000 <= e → 50 * (e - human_elapsed e) < u.
Proof.
  intros He (Hu & Hle & Hmax) He2. rewrite human_elapsed_cases by done.
  assert (1000 <= e → 1000 <= u) as H1 by (apply Hmax; set_solver).
  assert (1000000 <= e → 1000000 <= u) as H2 by (apply Hmax; set_solver).
  assert (1000000000 <= e → 1000000000 <= u) as H3 by (apply Hmax; set_solver).
  assert (60000000000 <= e → 60000000000 <= u) as H4 by (apply Hmax; set_solver).
  assert (3600000000000 <= e → 3600000000000 <= u) as H5 by (apply Hmax; set_solver).
  human; lia.
Qed.
Theorem C49_stable e : 0 <= e → human_elapsed (human_elapsed e) = human_elapsed e.
Proof.
  intros He. assert (0 <= human_elapsed e) as Hh.
  { rewrite human_elapsed_cases by done. human; lia. }
  rewrite (human_elapsed_cases (human_elapsed e)) by done. revert Hh.
  rewrite human_elapsed_cases by done.
  Local Ltac fin := match goal with |- context [?x mod ?m] =>
    replace (x mod m) with 0; [lia|symmetry; apply Z.mod_divide; [lia|];
      match goal with |- (_ | ?e - ?e mod _) => exists (e / m); pose proof (Z.div_mod e m ltac:(lia)); lia end] end.
  destruct (Z.ltb_spec e 1000).
  { intros _. rewrite (proj2 (Z.ltb_lt e 1000)) by lia. done. }
  destruct (Z.ltb_spec e 1000000);
   [pose proof (Z.mod_pos_bound e 10 ltac:(lia)); pose proof (Z.div_mod e 10 ltac:(lia))|
   destruct (Z.ltb_spec e 1000000000);
   [pose proof (Z.mod_pos_bound e 10000 ltac:(lia)); pose proof (Z.div_mod e 10000 ltac:(lia))|
   destruct (Z.ltb_spec e 60000000000);
   [pose proof (Z.mod_pos_bound e 10000000 ltac:(lia)); pose proof (Z.div_mod e 10000000 ltac:(lia))|
   destruct (Z.ltb_spec e 3600000000000);
   [pose proof (Z.mod_pos_bound e 1000000000 ltac:(lia)); pose proof (Z.div_mod e 1000000000 ltac:(lia))|
    pose proof (Z.mod_pos_bound e 60000000000 ltac:(lia)); pose proof (Z.div_mod e 60000000000 ltac:(lia))]]]];
  intros _;
  repeat match goal with |- context [?a <? ?b] =>
    first [rewrite (proj2 (Z.ltb_lt a b)) by lia|rewrite (proj2 (Z.ltb_ge a b)) by lia] end;
  fin.
Qed.
(** longer times never display shorter *)
Theorem C49_monotone e e' : 0 <= e <= e' → human_elapsed e <= human_elapsed e'.
Proof.
  intros He. rewrite !human_elapsed_cases by lia. human; lia.
Qed.
Example C49_example :
  largest_unit 725834123 1000000 ∧ human_elapsed 725834123 = 725830000 ∧ human_elapsed 83999999999 = 83000000000.
Proof.
  split; [|done]. split; [set_solver|]. split; [lia|].
  intros u Hu. repeat (apply elem_of_cons in Hu as [->|Hu]; [lia|]). by apply elem_of_nil in Hu.
Qed.

(** ------------------------------------------------------------------ *)
(** C50: warn, info, debug *)
Definition Warn : Z := 4. Definition Info : Z := 0. Definition Debug : Z := -4. Definition Error : Z := 8.
Theorem C50_quiet v : get_log_level true v = Ok Error.
Proof. done. Qed.
Theorem C50_verbosity v :
  0 <= v → get_log_level false v = Ok (if v =? 0 then Warn else if v =? 1 then Info else Debug).
Proof.
  intros Hv. unfold get_log_level. cbn [length log_levels]. change (Z.of_nat 3) with 3.
  destruct (Z.leb_spec 3 v).
  - destruct (Z.eqb_spec v 0), (Z.eqb_spec v 1); try lia. done.
  - assert (v = 0 ∨ v = 1 ∨ v = 2) as [->| [->| ->]] by lia; done.
Qed.
(** A negative count (--verbose=-1) crashes. *)
Theorem C50_negative_refuted v : v < 0 → ∃ msg, get_log_level false v = Panic msg.
Proof.
  intros Hv. unfold get_log_level. cbn [length log_levels]. change (Z.of_nat 3) with 3.
  destruct (Z.leb_spec 3 v); [lia|]. destruct (Z.ltb_spec v 0); [eauto|lia].
Qed.
