(** C46, C47 continued: remotes whose path is percent-encoded, remotes without a scheme, and what git must
    print for a module version to be inferred. *)
From Coq Require Import Ascii String.
From stdpp Require Import prelude strings.
From Verif Require Import GoStr Semver SpecSemver P_Semver Loader Env PropEnv Quote P_Utf8 Url PropUrl.
Open Scope string_scope.
Open Scope list_scope.
Local Open Scope Z_scope.

(** *** Specification *)
(** the text of a URL's path: no query, no fragment, no control characters *)
Definition path_text (t : string) : Prop :=
  all_chars (λ c, negb (one_of "?#" c) && negb (is_ctl c))%bool t.
(** [written host path r]: r is a URL of the repository whose path, once its percent escapes are read
    (RFC 3986), is [path] *)
Definition written (host path r : string) : Prop :=
  ∃ git text scheme user port, (git = "" ∨ git = ".git") ∧ path_text text ∧ percent_decodes text path ∧
     scheme ∈ ["https"; "http"; "ssh"; "git"] ∧
     (user = "" ∨ ∃ u, user_name u ∧ user = u +:+ "@") ∧
     (port = "" ∨ ∃ d, all_chars is_digit d ∧ port = ":" +:+ d) ∧
     r = scheme +:+ "://" +:+ user +:+ host +:+ port +:+ "/" +:+ text +:+ git.

(** *** Proofs *)
Lemma hex_env c n : hex_digit c n → 0 <= n < 16 ∧ Env.unhex c = Some (Z.to_N n).
Proof.
  intros [Hn H]. split; [done|]. apply sixteen in Hn.
  repeat (destruct Hn as [<-|Hn]; [cbn in H; destruct H as [[= <-]|[= <-]]; reflexivity|]). by destruct Hn.
Qed.
Lemma unescape_decodes t b : percent_decodes t b → unescape_path t = Some b.
Proof.
  induction 1 as [|c t b Hc _ IH|c1 c2 n1 n2 t b H1 H2 _ IH]; [done| |].
  - cbn [unescape_path]. destruct (Ascii.eqb_spec c "%"); [done|]. by rewrite IH.
  - cbn [unescape_path]. change (Ascii.eqb "%" "%") with true. cbn match.
    destruct (hex_env _ _ H1) as [R1 ->]. destruct (hex_env _ _ H2) as [R2 ->]. rewrite IH.
    unfold chr. by replace (16 * Z.to_N n1 + Z.to_N n2)%N with (Z.to_N (n1 * 16 + n2)) by lia.
Qed.
Lemma decodes_app s b t d : percent_decodes s b → percent_decodes t d → percent_decodes (s +:+ t) (b +:+ d).
Proof.
  intros H Ht. induction H as [|c s b Hc _ IH|c1 c2 n1 n2 s b H1 H2 _ IH]; [done| |].
  - rewrite !app_cons. by constructor.
  - rewrite !app_cons. by constructor.
Qed.
Lemma decodes_git git : git = "" ∨ git = ".git" → percent_decodes git git.
Proof. intros [->| ->]; repeat constructor; done. Qed.
Lemma text_not (x : ascii) t :
  one_of "?#" x = true → path_text t → str_forallb (λ a, negb (Ascii.eqb a x)) t = true.
Proof.
  intros Hx. apply forallb_impl. intros c Hc. destruct (Ascii.eqb_spec c x) as [->|]; [|done]. by rewrite Hx in Hc.
Qed.
Lemma git_slash p git :
  has_suffix p ".git" = false → git = "" ∨ git = ".git" → trim_suffix ("/" +:+ p +:+ git) ".git" = "/" +:+ p.
Proof.
  intros Hs [->| ->].
  - rewrite app_nil_r. apply trim_suffix_id. destruct (has_suffix ("/" +:+ p) ".git") eqn:E; [|done].
    apply has_suffix_spec in E as [r E]. destruct r as [|c r]; [done|].
    rewrite app_cons in E. injection E as _ E. change ("" +:+ p) with p in E. rewrite E, has_suffix_app in Hs. done.
  - rewrite app_assoc. apply trim_suffix_app.
Qed.

(** A URL's percent escapes are read: the repository is named by its path, not by how the path is written. *)
Theorem C46_escaped_path host path r :
  host_name host → has_suffix path ".git" = false → written host path r →
  parse_remote r = Some (host +:+ "/" +:+ path).
Proof.
  intros Hh Hp (git & text & scheme & user & port & Hg & Ht & Hd & Hs & Hu & Hport & ->).
  set (rest := user +:+ host +:+ port +:+ "/" +:+ text +:+ git).
  assert (has_prefix (scheme +:+ "://" +:+ rest) "git@" = false) as E.
  { repeat (apply elem_of_cons in Hs as [->|Hs]; [reflexivity|]). by apply elem_of_nil in Hs. }
  unfold parse_remote. rewrite E. clear E. unfold parse_remote_url.
  destruct (authority_host user host port Hh Hu Hport) as (hp & Hauth & Hhost).
  assert (∀ x : ascii, one_of "?#" x = true →
            str_forallb (λ a, negb (Ascii.eqb a x)) rest = true) as Hrest.
  { intros x Hx. unfold rest. rewrite !str_forallb_app.
    assert (x = "?"%char ∨ x = "#"%char) as Hx3.
    { unfold one_of in Hx. cbn in Hx. repeat (apply orb_true_iff in Hx as [Hx|Hx]; [apply Ascii.eqb_eq in Hx; auto|]).
      done. }
    rewrite (host_not x host), (text_not x text) by
      (first [done|destruct Hx3 as [->| ->]; reflexivity]).
    rewrite (git_chars git) by (first [done|destruct Hx3 as [->| ->]; reflexivity]).
    destruct Hu as [->|(u & Hu & ->)]; [|rewrite str_forallb_app, (user_not x u) by
       (first [done|destruct Hx3 as [->| ->]; reflexivity])];
    (destruct Hport as [->|(d & Hdd & ->)]; [|cbn [str_forallb String.append]; rewrite str_forallb_app, (digit_not x d) by
       (first [done|destruct Hx3 as [->| ->]; reflexivity])]);
    destruct Hx3 as [->| ->]; reflexivity. }
  assert (str_existsb is_ctl rest = false) as Hctl.
  { rewrite existsb_forallb. apply negb_false_iff. unfold rest. rewrite !str_forallb_app.
    assert (∀ c, (is_alnum c || one_of "-_.~:" c)%bool = true → negb (is_ctl c) = true) as Huc.
    { intros c. ascii_cases c. }
    assert (∀ c, (is_alnum c || one_of "-_.~" c)%bool = true → negb (is_ctl c) = true) as Hhc.
    { intros c. ascii_cases c. }
    assert (∀ c, is_digit c = true → negb (is_ctl c) = true) as Hdc.
    { intros c. ascii_cases c. }
    rewrite (forallb_impl _ _ host Hhc Hh).
    assert (str_forallb (λ c, negb (is_ctl c)) text = true) as ->.
    { revert Ht. apply forallb_impl. by intros c [_ H]%andb_true_iff. }
    rewrite (git_chars git) by done.
    destruct Hu as [->|(u & Hu & ->)]; [|rewrite str_forallb_app, (forallb_impl _ _ u Huc Hu)];
    (destruct Hport as [->|(d & Hdd & ->)]; [|rewrite str_forallb_app, (forallb_impl _ _ d Hdc Hdd)]); done. }
  assert (str_forallb (λ a, negb (Ascii.eqb a "/")) (user +:+ host +:+ port) = true) as Hnoslash.
  { rewrite !str_forallb_app, (host_not "/" host) by done.
    destruct Hu as [->|(u & Hu & ->)]; [|rewrite str_forallb_app, (user_not "/" u) by done];
    (destruct Hport as [->|(d & Hdd & ->)]; [|rewrite str_forallb_app, (digit_not "/" d) by done]); done. }
  assert (cut "/" rest = (user +:+ host +:+ port, Some (text +:+ git))) as Hcut.
  { unfold rest. rewrite !app_assoc, <-(app_assoc _ text git), <-(app_assoc _ "/" _), <-(app_assoc user host port).
    change ("/" +:+ (text +:+ git)) with (String "/" (text +:+ git)). by apply cut_app_sep. }
  assert (url_parse (scheme +:+ "://" +:+ rest) = Some (hp, String "/" (path +:+ git))) as ->.
  { assert (str_forallb (λ a, negb (Ascii.eqb a "#")) (scheme +:+ "://" +:+ rest) = true) as Hnh.
    { rewrite !str_forallb_app, Hrest by done.
      repeat (apply elem_of_cons in Hs as [->|Hs]; [reflexivity|]). by apply elem_of_nil in Hs. }
    unfold url_parse. rewrite cut_nosep by done. cbn [fst snd negb].
    assert (str_existsb is_ctl (scheme +:+ "://" +:+ rest) = false) as ->.
    { rewrite existsb_forallb in *. apply negb_false_iff. apply negb_false_iff in Hctl.
      rewrite !str_forallb_app, Hctl.
      repeat (apply elem_of_cons in Hs as [->|Hs]; [reflexivity|]). by apply elem_of_nil in Hs. }
    assert (String.eqb (scheme +:+ "://" +:+ rest) "*" = false) as ->.
    { repeat (apply elem_of_cons in Hs as [->|Hs]; [reflexivity|]). by apply elem_of_nil in Hs. }
    assert (get_scheme (scheme +:+ "://" +:+ rest) = Some (scheme, "//" +:+ rest)) as ->.
    { repeat (apply elem_of_cons in Hs as [->|Hs]; [reflexivity|]). by apply elem_of_nil in Hs. }
    rewrite (cut_nosep "?" ("//" +:+ rest)).
    2:{ rewrite str_forallb_app, Hrest by done. done. }
    cbn [fst]. change (has_prefix ("//" +:+ rest) "/") with (has_prefix ("/" +:+ ("/" +:+ rest)) "/").
    rewrite has_prefix_app. cbn [negb andb].
    assert (String.eqb scheme "" = false) as ->.
    { repeat (apply elem_of_cons in Hs as [->|Hs]; [reflexivity|]). by apply elem_of_nil in Hs. }
    rewrite has_prefix_app. cbn [negb andb orb].
    rewrite (str_drop_app 2 "//" rest) by done. rewrite Hcut. cbn [fst snd]. rewrite Hauth.
    rewrite (unescape_decodes (String "/" (text +:+ git)) (String "/" (path +:+ git))); [done|].
    constructor; [done|]. apply decodes_app; [done|]. by apply decodes_git. }
  rewrite Hhost. by rewrite (git_slash path git Hp Hg : trim_suffix (String "/" (path +:+ git)) ".git" = _).
Qed.
Print Assumptions C46_escaped_path.
Example C46_escaped_example :
  host_name "dev.azure.com" ∧ has_suffix "org/My Project/_git/a+b" ".git" = false ∧
  written "dev.azure.com" "org/My Project/_git/a+b" "https://org@dev.azure.com/org/My%20Project/_git/a%2bb" ∧
  parse_remote "https://org@dev.azure.com/org/My%20Project/_git/a%2bb" = Some "dev.azure.com/org/My Project/_git/a+b".
Proof.
  split; [reflexivity|]. split; [reflexivity|]. split; [|reflexivity].
  exists "", "org/My%20Project/_git/a%2bb", "https", "org@", "". split; [by left|]. split; [reflexivity|]. split.
  { change "org/My%20Project/_git/a%2bb" with ("org/My" +:+ ("%20" +:+ ("Project/_git/a" +:+ ("%2b" +:+ "b")))).
    change "org/My Project/_git/a+b" with ("org/My" +:+ (" " +:+ ("Project/_git/a" +:+ ("+" +:+ "b")))).
    repeat apply decodes_app.
    - repeat (constructor; [done|]). constructor.
    - apply (pd_escape "2" "0" 2 0); [by split; [lia|left]|by split; [lia|left]|constructor].
    - repeat (constructor; [done|]). constructor.
    - apply (pd_escape "2" "b" 2 11); [by split; [lia|left]|by split; [lia|left]|constructor].
    - repeat (constructor; [done|]). constructor. }
  split; [left|]. split; [right; by exists "org"|]. split; [by left|]. reflexivity.
Qed.

(** A malformed escape makes the command ask for --module-name instead of guessing: nothing is inferred. *)
Theorem C46_bad_escape host text c1 c2 t :
  host_name host → path_text (text +:+ String "%" (String c1 (String c2 t))) →
  str_forallb (λ a, negb (Ascii.eqb a "%")) text = true →
  (∀ n, ¬ hex_digit c1 n) ∨ (∀ n, ¬ hex_digit c2 n) →
  parse_remote ("https://" +:+ host +:+ "/" +:+ text +:+ String "%" (String c1 (String c2 t))) = None.
Proof.
  intros Hh Ht Htext Hbad. set (tail := text +:+ String "%" (String c1 (String c2 t))) in *.
  assert (unescape_path (String "/" tail) = None) as Hun.
  { assert (∀ c n, Env.unhex c = Some n → ∃ m, hex_digit c m) as Hhex.
    { intros c n. destruct c as [[] [] [] [] [] [] [] []]; intros X; try discriminate X; clear X;
        first [by (exists 0; split; [lia|first [by left|by right]])|by (exists 1; split; [lia|first [by left|by right]])|by (exists 2; split; [lia|first [by left|by right]])|by (exists 3; split; [lia|first [by left|by right]])|by (exists 4; split; [lia|first [by left|by right]])|by (exists 5; split; [lia|first [by left|by right]])|by (exists 6; split; [lia|first [by left|by right]])|by (exists 7; split; [lia|first [by left|by right]])|by (exists 8; split; [lia|first [by left|by right]])|by (exists 9; split; [lia|first [by left|by right]])|by (exists 10; split; [lia|first [by left|by right]])|by (exists 11; split; [lia|first [by left|by right]])|by (exists 12; split; [lia|first [by left|by right]])|by (exists 13; split; [lia|first [by left|by right]])|by (exists 14; split; [lia|first [by left|by right]])|by (exists 15; split; [lia|first [by left|by right]])]. }
    cbn [unescape_path]. change (Ascii.eqb "/" "%") with false. cbn match.
    assert (unescape_path tail = None) as ->; [|done]. unfold tail. clear Ht tail. induction text as [|a text IH].
    - rewrite app_nil_l. cbn [unescape_path]. change (Ascii.eqb "%" "%") with true. cbn match.
      destruct (Env.unhex c1) as [n1|] eqn:E1; [|done]. destruct (Env.unhex c2) as [n2|] eqn:E2; [|done].
      destruct (Hhex _ _ E1) as [m1 M1], (Hhex _ _ E2) as [m2 M2]. destruct Hbad as [H|H]; by edestruct H.
    - rewrite app_cons. cbn [unescape_path]. cbn [str_forallb] in Htext. apply andb_true_iff in Htext as [Ha Htext].
      destruct (Ascii.eqb a "%"); [done|]. by rewrite IH. }
  set (rest := host +:+ "/" +:+ tail).
  assert (∀ x : ascii, one_of "?#" x = true →
            str_forallb (λ a, negb (Ascii.eqb a x)) rest = true) as Hrest.
  { intros x Hx. unfold rest. rewrite !str_forallb_app.
    assert (x = "?"%char ∨ x = "#"%char) as Hx3.
    { unfold one_of in Hx. cbn in Hx. repeat (apply orb_true_iff in Hx as [Hx|Hx]; [apply Ascii.eqb_eq in Hx; auto|]).
      done. }
    rewrite (host_not x host), (text_not x tail) by
      (first [done|destruct Hx3 as [->| ->]; reflexivity]).
    destruct Hx3 as [->| ->]; reflexivity. }
  destruct (authority_host "" host "" Hh (or_introl eq_refl) (or_introl eq_refl)) as (hp & Hauth & Hhost).
  rewrite app_nil_l, app_nil_r in Hauth.
  assert (url_parse ("https://" +:+ rest) = None) as Hu.
  { unfold url_parse. rewrite cut_nosep.
    2:{ rewrite str_forallb_app, Hrest by done. done. }
    cbn [fst snd negb].
    destruct (str_existsb is_ctl ("https://" +:+ rest)); [done|].
    assert (String.eqb ("https://" +:+ rest) "*" = false) as -> by reflexivity.
    assert (get_scheme ("https://" +:+ rest) = Some ("https", "//" +:+ rest)) as -> by reflexivity.
    rewrite (cut_nosep "?" ("//" +:+ rest)).
    2:{ rewrite str_forallb_app, Hrest by done. done. }
    cbn [fst]. change (has_prefix ("//" +:+ rest) "/") with (has_prefix ("/" +:+ ("/" +:+ rest)) "/").
    rewrite has_prefix_app. cbn [negb andb].
    change (String.eqb "https" "") with false.
    rewrite has_prefix_app. cbn [negb andb orb].
    rewrite (str_drop_app 2 "//" rest) by done.
    unfold rest at 1 2. change ("/" +:+ tail) with (String "/" tail).
    rewrite (cut_app_sep "/" host tail) by (by apply host_not). cbn [fst snd]. by rewrite Hauth, Hun. }
  change (parse_remote ("https://" +:+ rest) = None). unfold parse_remote.
  change (has_prefix ("https://" +:+ rest) "git@") with false. cbn match. unfold parse_remote_url. by rewrite Hu.
Qed.
Print Assumptions C46_bad_escape.
Example C46_bad_escape_example :
  path_text ("a/" +:+ String "%" (String "z" (String "0" ""))) ∧ (∀ n, ¬ hex_digit "z" n) ∧
  parse_remote "https://github.com/a/%z0" = None.
Proof.
  split; [reflexivity|]. split; [|reflexivity]. intros n [H1 H2]. apply sixteen in H1.
  repeat (destruct H1 as [<-|H1]; [destruct H2 as [[=]|[=]]|]). done.
Qed.

(** A remote that begins with a colon names no repository. *)
Theorem C46_no_scheme r : parse_remote (":" +:+ r) = None.
Proof.
  unfold parse_remote. assert (has_prefix (":" +:+ r) "git@" = false) as -> by reflexivity.
  unfold parse_remote_url. assert (url_parse (":" +:+ r) = None) as ->; [|done].
  unfold url_parse. change (":" +:+ r) with (String ":" r). cbn [cut]. change (Ascii.eqb ":" "#") with false. cbn match.
  destruct (cut "#" r) as [u f] eqn:E. cbn [fst snd].
  destruct (negb _); [done|]. destruct (str_existsb is_ctl (String ":" u)); [done|].
  destruct (String.eqb (String ":" u) "*") eqn:E1; [by apply String.eqb_eq in E1|]. reflexivity.
Qed.
Print Assumptions C46_no_scheme.

(** ------------------------------------------------------------------ *)
(** C47: if no tag points at the commit and git prints fewer than twelve characters for the commit, the
    command does not invent a version: it stops. *)
Theorem C47_short_commit : ∀ commit,
  no_space commit → (slen commit < 12)%nat →
  ∃ m, infer_module_version (succeeds "") (succeeds (lines_of [commit])) = Panic m.
Proof.
  intros commit Hc Hl. unfold infer_module_version.
  assert (command_run (succeeds "") = ("", true)) as -> by reflexivity. cbn match. cbn [negb].
  change (String.eqb "" "") with true. cbn match. cbn [negb].
  assert (command_run (succeeds (lines_of [commit])) = (commit, true)) as ->.
  { unfold command_run, succeeds. cbn [cmd_out cmd_ok]. f_equal. unfold lines_of. change (join nl [commit]) with commit. by apply (trim_tight _ (no_space_tight _ Hc)). }
  cbn match. cbn [negb]. unfold slice_to. destruct (Nat.leb_spec 12 (slen commit)); [lia|]. by eexists.
Qed.
Print Assumptions C47_short_commit.
Example C47_short_example : no_space "abc1234" ∧ (slen "abc1234" < 12)%nat.
Proof. split; [by split|vm_compute; lia]. Qed.
