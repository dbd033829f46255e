(** C65: the project root recorded in the metadata names the module root. *)
From Coq Require Import Ascii String.
From stdpp Require Import prelude strings.
From Verif Require Import GoStr Scip Pass2 Loader Index Paths PropPaths Options PropOptions Proto Quote P_Utf8 Url.
Open Scope string_scope.
Open Scope list_scope.
Local Open Scope Z_scope.

(** *** Specification: RFC 3986, RFC 8089 *)
(** reading a text with percent escapes gives the bytes *)
Inductive percent_decodes : string → string → Prop :=
| pd_nil : percent_decodes "" ""
| pd_plain c t b : c ≠ "%"%char → percent_decodes t b → percent_decodes (String c t) (String c b)
| pd_escape c1 c2 n1 n2 t b : hex_digit c1 n1 → hex_digit c2 n2 → percent_decodes t b →
    percent_decodes (String "%" (String c1 (String c2 t))) (String (chr (n1 * 16 + n2)) b).
(** u is a URL for the file with absolute name p: no host, no query, no fragment; only characters that
    a URL may contain *)
Definition url_char (c : ascii) : Prop :=
  is_alnum c = true ∨ In c (list_ascii_of_string "-._~:/?#[]@!$&'()*+,;=%").
Definition names_file (u p : string) : Prop :=
  ∃ t, u = "file://" +:+ String "/" t ∧ Forall url_char (list_ascii_of_string u) ∧
    ¬ In "?"%char (list_ascii_of_string u) ∧ ¬ In "#"%char (list_ascii_of_string u) ∧
    percent_decodes (String "/" t) p.

(** *** Proofs *)
Lemma sixteen n : 0 <= n < 16 → In n [0;1;2;3;4;5;6;7;8;9;10;11;12;13;14;15].
Proof. intros H. cbn. lia. Qed.
Lemma hex_unhex c n : hex_digit c n → unhex c = Some n.
Proof.
  intros [Hn%sixteen H].
  repeat (destruct Hn as [<-|Hn]; [cbn in H; destruct H as [[= <-]|[= <-]]; reflexivity|]). by destruct Hn.
Qed.
Lemma percent_decodes_fun t b : percent_decodes t b → ∀ b', percent_decodes t b' → b = b'.
Proof.
  induction 1 as [|c t b Hc _ IH|c1 c2 n1 n2 t b H1 H2 _ IH]; intros b' H'; inversion H'; subst; try done.
  - f_equal. by apply IH.
  - repeat match goal with H : hex_digit _ _ |- _ => apply hex_unhex in H end.
    repeat match goal with H : unhex ?c = Some ?n, H' : unhex ?c = Some ?m |- _ => assert (n = m) as -> by congruence; clear H end.
    f_equal. by apply IH.
Qed.
Lemma upper_hex_digit n : 0 <= n < 16 → hex_digit (upper_hex n) n ∧ is_alnum (upper_hex n) = true.
Proof.
  intros H. pose proof (sixteen n H) as Hn.
  repeat (destruct Hn as [<-|Hn]; [split; [split; [done|right; reflexivity]|reflexivity]|]). by destruct Hn.
Qed.
Lemma path_char_url c : path_char c = true → url_char c ∧ c ≠ "%"%char ∧ c ≠ "?"%char ∧ c ≠ "#"%char.
Proof.
  unfold path_char, url_char. destruct (is_alnum c) eqn:E; cbn [orb].
  - intros _. split; [by left|]. split; [|split]; intros ->; done.
  - intros H. split.
    + right. cbn [str_existsb] in H.
      repeat match type of H with orb (Ascii.eqb c ?x) _ = true => destruct (Ascii.eqb_spec c x) as [->|_]; [vm_compute; tauto|cbn [orb] in H] end. done.
    + split; [|split]; intros ->; done.
Qed.
Lemma path_escape_ok s : percent_decodes (path_escape s) s ∧
  Forall (λ c, url_char c ∧ c ≠ "?"%char ∧ c ≠ "#"%char) (list_ascii_of_string (path_escape s)).
Proof.
  induction s as [|c s [IH1 IH2]]; [split; constructor|]. cbn [path_escape]. destruct (path_char c) eqn:E.
  - destruct (path_char_url c E) as (H1 & H2 & H3 & H4). split; [by constructor|]. cbn [list_ascii_of_string]. by constructor.
  - pose proof (ord_range c) as Hr. pose proof (Z.mod_pos_bound (ord c) 16) as Hm. pose proof (Z.div_mod (ord c) 16) as Hd.
    assert (0 <= ord c / 16 < 16) as Hq by (split; [apply Z.div_pos; lia|apply Z.div_lt_upper_bound; lia]).
    destruct (upper_hex_digit _ Hq) as [Ha1 Ha2]. destruct (upper_hex_digit (ord c mod 16)) as [Hb1 Hb2]; [lia|].
    split.
    + replace c with (chr (ord c / 16 * 16 + ord c mod 16)) at 3.
      * by constructor.
      * replace (ord c / 16 * 16 + ord c mod 16) with (ord c) by lia. apply chr_ord.
    + cbn [list_ascii_of_string]. repeat apply List.Forall_cons; [|split; [by left|]|split; [by left|]|done].
      * split; [right; vm_compute; tauto|done].
      * split; intros X; by rewrite X in Ha2.
      * split; intros X; by rewrite X in Hb2.
Qed.
Lemma list_ascii_app s t : list_ascii_of_string (s +:+ t) = list_ascii_of_string s ++ list_ascii_of_string t.
Proof. induction s as [|c s IH]; [done|]. rewrite app_cons. cbn. by rewrite IH. Qed.

Lemma file_url_names p t : p = String "/" t → names_file (file_url p) p.
Proof.
  intros ->. destruct (path_escape_ok t) as [H1 H2]. exists (path_escape t). unfold file_url, escaped_path.
  rewrite (proj2 (String.eqb_neq _ _)) by done. rewrite (proj2 (String.eqb_neq _ _)) by (by intros [=]).
  assert (path_escape (String "/" t) = String "/" (path_escape t)) as -> by done.
  rewrite app_assoc. change ("file:" +:+ "//") with "file://".
  assert (Hall : Forall (λ c, url_char c ∧ c ≠ "?"%char ∧ c ≠ "#"%char) (list_ascii_of_string ("file://" +:+ String "/" (path_escape t)))).
  { rewrite list_ascii_app. apply Forall_app. split.
    - apply List.Forall_forall. intros c Hc. cbn in Hc.
      repeat (destruct Hc as [<-|Hc]; [split; [first [by left|right; vm_compute; tauto]|done]|]). done.
    - cbn [list_ascii_of_string]. constructor; [split; [right; vm_compute; tauto|done]|done]. }
  split; [done|]. split; [eapply Forall_impl; [exact Hall|by intros c []]|].
  split; [|split].
  - intros Hin. pose proof (proj1 (List.Forall_forall _ _) Hall _ Hin) as (_ & Hx & _). done.
  - intros Hin. pose proof (proj1 (List.Forall_forall _ _) Hall _ Hin) as (_ & _ & Hx). done.
  - constructor; done.
Qed.

(** C65: the metadata's project root is a file URL that names the module root, and no other directory:
    a reader of the index that follows the RFC finds the root again. *)
Theorem C65_project_root : ∀ mc l f o tool, mc_wd mc = Some (abs_path l) → Forall name_ok l →
  make_options mc f = Ok (Some o) → let u := md_root (index_metadata tool (ro_index o)) in
  names_file u (io_module_root (ro_index o)) ∧ ∀ p, names_file u p → p = io_module_root (ro_index o).
Proof.
  intros mc l f o tool Hw Hl Ho. destruct (C60_root_absolute mc l f o Hw Hl Ho) as (d & _ & E).
  cbn [index_metadata md_root]. assert (Hn : names_file (file_url (io_module_root (ro_index o))) (io_module_root (ro_index o))).
  { rewrite E. unfold abs_path. eapply file_url_names. reflexivity. }
  split; [done|]. intros p (t & E1 & _ & _ & _ & D1). destruct Hn as (t' & E2 & _ & _ & _ & D2).
  rewrite E1 in E2. apply app_inj_l in E2. rewrite <- E2 in D2. by eapply percent_decodes_fun.
Qed.
Print Assumptions C65_project_root.
(** Different roots have different URLs. *)
Theorem C65_injective : ∀ p q t t', p = String "/" t → q = String "/" t' → file_url p = file_url q → p = q.
Proof.
  intros p q t t' Hp Hq E. destruct (file_url_names p t Hp) as (a & Ea & _ & _ & _ & Da). destruct (file_url_names q t' Hq) as (b & Eb & _ & _ & _ & Db).
  rewrite E, Eb in Ea. apply app_inj_l in Ea. rewrite Ea in Db. by eapply percent_decodes_fun.
Qed.
Print Assumptions C65_injective.
Example C65_example : file_url "/home/ü/a b%c?" = "file:///home/%C3%BC/a%20b%25c%3F" ∧
  names_file (file_url "/home/ü/a b%c?") "/home/ü/a b%c?".
Proof. split; [reflexivity|]. by eapply file_url_names. Qed.
