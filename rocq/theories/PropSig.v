(** C62: the signature texts of declared and local symbols. *)
From Coq Require Import Ascii String.
From stdpp Require Import prelude strings.
From Verif Require Import GoStr Document Quote PropQuote Signature.
Open Scope string_scope.
Open Scope list_scope.

(** *** Specification *)
(** apply fn to every named type that occurs in a type *)
Fixpoint tmap (fn : hname → hname) (t : hty) {struct t} : hty :=
  match t with
  | HBasic n => HBasic n
  | HNamed n args tps => HNamed (fn n) (map (tmap fn) args) (map (λ p : list string * hty, (p.1, tmap fn p.2)) tps)
  | HPointer t => HPointer (tmap fn t)
  | HSlice t => HSlice (tmap fn t)
  | HArray n t => HArray n (tmap fn t)
  | HMap k v => HMap (tmap fn k) (tmap fn v)
  | HChan d t => HChan d (tmap fn t)
  | HStruct fs => HStruct (map (λ p : string * bool * string * hty, (p.1, tmap fn p.2)) fs)
  | HSig tps ps rs v => HSig (map (λ p : list string * hty, (p.1, tmap fn p.2)) tps) (map (λ p : string * hty, (p.1, tmap fn p.2)) ps)
      (map (λ p : string * hty, (p.1, tmap fn p.2)) rs) v
  | HInterface b ms es => HInterface b (map (λ p : string * hty, (p.1, tmap fn p.2)) ms) (map (tmap fn) es)
  | HAny => HAny
  | HComparable => HComparable
  | HTypeParam n => HTypeParam n
  | HUnion l => HUnion (map (λ p : bool * hty, (p.1, tmap fn p.2)) l)
  end.

Lemma map_map_ext {A B C} (f : A → B) (g : B → C) (g' : A → C) (l : list A) :
  Forall (λ x, g (f x) = g' x) l → map g (map f l) = map g' l.
Proof. induction 1 as [|x l E _ IH]; [done|]. cbn. by rewrite E, IH. Qed.

Lemma recv_tmap fn t : is_recv_chan (tmap fn t) = is_recv_chan t.
Proof. by destruct t. Qed.

Lemma write_tmap quote qf qf' fn : (∀ n, write_name qf (fn n) = write_name qf' n) → prefix_of qf (Some unsafe_pkg) = prefix_of qf' (Some unsafe_pkg) →
  ∀ t b, write quote qf b (tmap fn t) = write quote qf' b t.
Proof.
  intros Hn Hu.
  assert (Htp : ∀ tps : list (list string * hty), Forall (λ x, ∀ b, write quote qf b (tmap fn x.2) = write quote qf' b x.2) tps →
    map (λ p : list string * hty, String.concat ", " p.1 +:+ " " +:+ write quote qf false p.2) (map (λ p : list string * hty, (p.1, tmap fn p.2)) tps) =
    map (λ p : list string * hty, String.concat ", " p.1 +:+ " " +:+ write quote qf' false p.2) tps).
  { intros tps H. apply map_map_ext. eapply Forall_impl; [exact H|]. intros x Hx. cbn [fst snd]. by rewrite Hx. }
  induction t as [n|n l tps Hl Ht|t IH|t IH|n t IH|k v IHk IHv|d t IH|l Hl|tps ps rs v Ht Hp Hr|i ms es Hm He| | |n|l Hl] using hty_ind'; intros b; cbn [write tmap].
  - unfold write_name. cbn [hn_pkg]. by rewrite Hu.
  - rewrite Hn. f_equal. destruct l as [|x l].
    + destruct tps as [|y tps]; [done|]. by rewrite (Htp _ Ht).
    + rewrite (map_map_ext (tmap fn) (write quote qf false) (write quote qf' false) (x :: l)); [done|].
      eapply Forall_impl; [exact Hl|]. intros z Hz. apply Hz.
  - by rewrite IH.
  - by rewrite IH.
  - by rewrite IH.
  - by rewrite IHk, IHv.
  - rewrite recv_tmap, !IH. done.
  - rewrite (map_map_ext _ _ (λ f : string * bool * string * hty, (if f.1.1.2 then "" else f.1.1.1 +:+ " ") +:+ write quote qf' false f.2 +:+
      (if String.eqb f.1.2 "" then "" else " " +:+ quote f.1.2))); [done|].
    eapply Forall_impl; [exact Hl|]. intros z Hz. cbn [fst snd]. by rewrite Hz.
  - assert (Eps : ∀ l : list (string * hty), Forall (λ x, ∀ b, write quote qf b (tmap fn x.2) = write quote qf' b x.2) l →
      (fix params (l : list (string * hty)) : list string :=
            match l with
            | [] => []
            | p :: l' =>
                (label p.1 +:+
                 (if (v && match l' with [] => true | _ => false end)%bool
                  then match p.2 with
                       | HSlice e => "..." +:+ write quote qf false e
                       | _ => write quote qf false p.2 +:+ "..."
                       end
                  else write quote qf false p.2)) :: params l'
            end) (map (λ p : string * hty, (p.1, tmap fn p.2)) l) =
      (fix params (l : list (string * hty)) : list string :=
            match l with
            | [] => []
            | p :: l' =>
                (label p.1 +:+
                 (if (v && match l' with [] => true | _ => false end)%bool
                  then match p.2 with
                       | HSlice e => "..." +:+ write quote qf' false e
                       | _ => write quote qf' false p.2 +:+ "..."
                       end
                  else write quote qf' false p.2)) :: params l'
            end) l).
    { induction 1 as [|x l' E _ IH]; [done|]. cbn [map]. f_equal; [|exact IH]. cbn [fst snd]. f_equal.
      destruct l'; cbn [map]; destruct v; cbn [andb]; try apply E.
      destruct x as [nm t]. cbn [snd] in *. specialize (E false).
      destruct t; cbn [tmap] in *; try (by rewrite E).
      f_equal. cbn [write] in E. injection E as E. exact E. }
    rewrite (Eps _ Hp). clear Eps. f_equal. f_equal; [destruct tps as [|y tps]; [done|]; by rewrite (Htp _ Ht)|]. f_equal. f_equal. f_equal.
    destruct rs as [|r rs]; [done|]. pose proof Hr as Hr'. apply Forall_cons in Hr' as [Hr0 _].
    rewrite (map_map_ext _ _ (λ p : string * hty, label p.1 +:+ write quote qf' false p.2) (r :: rs)).
    2:{ eapply Forall_impl; [exact Hr|]. intros z Hz. cbn [fst snd]. by rewrite Hz. }
    cbn [map fst snd]. rewrite Hr0. by destruct rs.
  - assert (Em : map (λ m : string * hty, m.1 +:+ write quote qf true m.2) (map (λ p : string * hty, (p.1, tmap fn p.2)) ms) =
      map (λ m : string * hty, m.1 +:+ write quote qf' true m.2) ms).
    { apply map_map_ext. eapply Forall_impl; [exact Hm|]. intros z Hz. cbn [fst snd]. by rewrite Hz. }
    assert (Ee : map (write quote qf false) (map (tmap fn) es) = map (write quote qf' false) es).
    { apply map_map_ext. eapply Forall_impl; [exact He|]. intros z Hz. apply Hz. }
    rewrite Em, Ee. destruct i; [|done]. destruct ms; [|done]. cbn [map]. destruct es as [|e [|e' es]]; [done| |done].
    apply Forall_cons in He as [He _]. cbn [map]. apply He.
  - done.
  - done.
  - done.
  - rewrite (map_map_ext _ _ (λ x : bool * hty, (if x.1 then "~" else "") +:+ write quote qf' false x.2)); [done|].
    eapply Forall_impl; [exact Hl|]. intros z Hz. cbn [fst snd]. by rewrite Hz.
Qed.

(** the package of an object, with another import path *)
Definition rename_pkg (ρ : string → string) (p : hpkg) : hpkg := HPkg (ρ (hp_path p)) (hp_name p).
Definition rename_name (ρ : string → string) (n : hname) : hname := HName (rename_pkg ρ <$> hn_pkg n) (hn_name n).
Definition rename_groups (ρ : string → string) (l : list (list string * hty)) : list (list string * hty) :=
  map (λ p : list string * hty, (p.1, tmap (rename_name ρ) p.2)) l.
Definition rename_decl (ρ : string → string) (d : hdecl) : hdecl :=
  let r := tmap (rename_name ρ) in
  match d with
  | DAlias tps t => DAlias (rename_groups ρ tps) (r t)
  | DOldAlias t => DOldAlias (r t)
  | DDefined tps t => DDefined (rename_groups ρ tps) (r t)
  | DTypeParam b t => DTypeParam (r b) (r t)
  end.
(** the same object in a world where the package with import path x has the import path ρ x *)
Definition rename_obj (ρ : string → string) (o : hobj) : hobj :=
  let r := tmap (rename_name ρ) in
  HObj (ho_name o) (rename_pkg ρ <$> ho_pkg o) (ho_top o)
    (match ho_kind o with
     | HPkgName p => HPkgName (ρ p)
     | HConst t v => HConst (r t) v
     | HTypeName d => HTypeName (rename_decl ρ d)
     | HVar f t => HVar f (r t)
     | HFunc recv sig => HFunc (r <$> recv) (r sig)
     | HLabel => HLabel
     | HBuiltin => HBuiltin
     | HNil => HNil
     end).

(** a named type as it is written in a file of package own: T for own types, q.T for a type of package q *)
Definition as_written (own : option hpkg) (n : hname) : hname :=
  HName None
    (match hn_pkg n with
     | None => hn_name n
     | Some p => if decide (own = Some p) then hn_name n
                 else if String.eqb (hp_name p) "" then hn_name n else hp_name p +:+ "." +:+ hn_name n
     end).
(** a type expression as it is written in a file of package own *)
Definition written (quote : string → string) (own : option hpkg) (t : hty) : string :=
  type_string quote (λ p, if decide (p = unsafe_pkg) then "unsafe" else "") (tmap (as_written own) t).
(** the parameters and results of a signature as they are written in a file of package own *)
Definition written_sig (quote : string → string) (own : option hpkg) (t : hty) : string :=
  write quote (λ p, if decide (p = unsafe_pkg) then "unsafe" else "") true (tmap (as_written own) t).
(** white space and semicolons separate *)
Definition separator (c : ascii) : bool := (is_space c || Ascii.eqb c ";")%bool.
(** a text without white space and semicolons *)
Fixpoint squeeze (s : string) : string :=
  match s with
  | "" => ""
  | String c r => if separator c then squeeze r else String c (squeeze r)
  end.
(** what is assumed of go/format: it changes only the layout of the declaration, which ends the output *)
Definition gofmt_layout (gofmt : string → option string) : Prop := ∀ body out,
  gofmt ("package p" +:+ nl +:+ nl +:+ "type _ " +:+ body +:+ nl) = Some out →
  ∃ b, out = "package p" +:+ nl +:+ nl +:+ "type _ " +:+ b +:+ nl ∧ squeeze b = squeeze body ∧ b ≠ "" ∧ trim_right b = b.
(** an interface type that is not named *)
Definition iface (t : hty) : bool := match t with HInterface _ _ _ | HAny | HComparable => true | _ => false end.
(** a struct or interface type *)
Definition braced (t : hty) : bool := match t with HStruct _ | HInterface _ _ _ | HAny | HComparable => true | _ => false end.

(** *** Proofs *)
Lemma prefix_own p : prefix_of (relative_qualifier p) p = "".
Proof. destruct p as [p|]; [|done]. cbn. unfold relative_qualifier. by rewrite decide_True. Qed.
Lemma qualifier_rename ρ own p : Inj (=) (=) ρ → relative_qualifier (rename_pkg ρ <$> own) (rename_pkg ρ p) = relative_qualifier own p.
Proof.
  intros Hi. unfold relative_qualifier. destruct (decide (own = Some p)) as [->|Hn].
  - by rewrite decide_True.
  - rewrite decide_False; [done|]. destruct own as [q|]; [|done]. cbn. intros [= H]. apply Hi in H. apply Hn. f_equal. destruct q, p. cbn in *. congruence.
Qed.
Lemma prefix_rename ρ own p : Inj (=) (=) ρ → prefix_of (relative_qualifier (rename_pkg ρ <$> own)) (rename_pkg ρ <$> p) = prefix_of (relative_qualifier own) p.
Proof. intros Hi. destruct p as [p|]; [|done]. cbn. by rewrite qualifier_rename. Qed.
Lemma write_rename quote ρ own : Inj (=) (=) ρ → ρ "unsafe" = "unsafe" →
  ∀ t b, write quote (relative_qualifier (rename_pkg ρ <$> own)) b (tmap (rename_name ρ) t) = write quote (relative_qualifier own) b t.
Proof.
  intros Hi Hu. apply write_tmap.
  - intros n. unfold write_name. cbn [rename_name hn_pkg hn_name]. by rewrite prefix_rename.
  - assert (unsafe_pkg = rename_pkg ρ unsafe_pkg) as E by (unfold rename_pkg; cbn; by rewrite Hu).
    rewrite E at 1. exact (prefix_rename ρ own (Some unsafe_pkg) Hi).
Qed.
Lemma expand_rename quote gofmt ρ own t : Inj (=) (=) ρ → ρ "unsafe" = "unsafe" →
  expand_type_expr quote gofmt (rename_pkg ρ <$> own) (tmap (rename_name ρ) t) = expand_type_expr quote gofmt own t.
Proof.
  intros Hi Hu. unfold expand_type_expr, type_string. rewrite write_rename by done. by destruct t.
Qed.

(** C62: signatures do not mention import paths: they are the same whatever the import paths of the packages
    are.  (Not so for the constraints of generic aliases.) *)
Theorem C62_paths_irrelevant_partial : ∀ quote unquote gofmt ρ o, Inj (=) (=) ρ → ρ "unsafe" = "unsafe" →
  (∀ tps rhs, ho_kind o = HTypeName (DAlias tps rhs) → tps = []) →
  type_string_for_object quote unquote gofmt (rename_obj ρ o) = type_string_for_object quote unquote gofmt o.
Proof.
  intros quote unquote gofmt ρ [name pkg top kind] Hi Hu Ha. cbn in Ha.
  unfold type_string_for_object, rename_obj. cbn [ho_name ho_pkg ho_top ho_kind].
  destruct kind as [path|t v|d|f t|recv sig| | |]; cbn [rename_decl].
  - done.
  - unfold object_string, type_string. cbn [ho_name ho_pkg ho_top ho_kind]. by rewrite prefix_rename, write_rename.
  - destruct d as [tps rhs|u|tps u|b u]; cbn [rename_decl format_type_declaration]; [|by rewrite expand_rename..].
    rewrite (Ha tps rhs eq_refl). unfold format_alias_declaration, rename_groups. cbn [map].
    assert (E : ∀ t, expand_type_expr quote gofmt (rename_pkg ρ <$> pkg) (tmap (rename_name ρ) t) = expand_type_expr quote gofmt pkg t) by (intros; by apply expand_rename).
    assert (E' : ∀ t, type_string quote (relative_qualifier (rename_pkg ρ <$> pkg)) (tmap (rename_name ρ) t) = type_string quote (relative_qualifier pkg) t)
      by (intros; by apply write_rename).
    specialize (E rhs). specialize (E' rhs). destruct rhs; cbn [tmap] in *; by rewrite ?E, ?E'.
  - assert (E : object_string quote (relative_qualifier (rename_pkg ρ <$> pkg)) (HObj name (rename_pkg ρ <$> pkg) top (HVar f (tmap (rename_name ρ) t))) =
      object_string quote (relative_qualifier pkg) (HObj name pkg top (HVar f t))).
    { unfold object_string, type_string. cbn [ho_name ho_pkg ho_top ho_kind]. by rewrite prefix_rename, write_rename. }
    destruct f; by rewrite E.
  - unfold object_string, type_string. cbn [ho_name ho_pkg ho_top ho_kind]. rewrite write_rename by done. destruct recv as [r|]; cbn.
    + pose proof (write_rename quote ρ pkg Hi Hu r false) as E. destruct r; cbn [tmap] in *; by rewrite ?E.
    + pose proof (prefix_rename ρ pkg pkg Hi) as E. cbn in E. by rewrite E.
  - unfold object_string. cbn [ho_name ho_pkg ho_top ho_kind]. by rewrite prefix_rename.
  - unfold object_string. cbn [ho_name ho_pkg ho_top ho_kind]. by rewrite prefix_rename.
  - done.
Qed.
Print Assumptions C62_paths_irrelevant_partial.

Lemma write_written quote own : own ≠ Some unsafe_pkg → ∀ t b,
  write quote (relative_qualifier own) b t = write quote (λ p, if decide (p = unsafe_pkg) then "unsafe" else "") b (tmap (as_written own) t).
Proof.
  intros Ho t b. symmetry. apply write_tmap.
  - intros n. unfold write_name, as_written. cbn [hn_pkg hn_name prefix_of]. rewrite app_nil_l.
    destruct (hn_pkg n) as [p|]; [|done]. cbn [prefix_of]. unfold relative_qualifier.
    destruct (decide (own = Some p)); [done|]. destruct (String.eqb (hp_name p) ""); [done|]. by rewrite <- app_assoc.
  - cbn [prefix_of]. unfold relative_qualifier. rewrite (decide_False (P := own = Some unsafe_pkg)) by done. rewrite decide_True by done. done.
Qed.

Lemma no_quote_cons_2 c s : c ≠ dquote → no_quote s → no_quote (String c s).
Proof. intros Hc Hs [|i]; [cbn; congruence|]. apply Hs. Qed.
(** C62: the signatures of values, functions, methods and fields: the keyword, the bare name and the type as it
    is written in the object's own package; constants with their value. *)
Theorem C62_values : ∀ quote unquote gofmt name pkg top, pkg ≠ Some unsafe_pkg →
  let sig k := type_string_for_object quote unquote gofmt (HObj name pkg top k) in
  (∀ t v, sig (HConst t v) = "const " +:+ name +:+ " " +:+ written quote pkg t +:+ " = " +:+ v) ∧
  (∀ t, sig (HVar false t) = "var " +:+ name +:+ " " +:+ written quote pkg t) ∧
  (∀ t, no_quote (name +:+ " " +:+ written quote pkg t) → sig (HVar true t) = "struct field " +:+ name +:+ " " +:+ written quote pkg t) ∧
  (∀ t, sig (HFunc None t) = "func " +:+ name +:+ written_sig quote pkg t) ∧
  (∀ r t, iface r = false → sig (HFunc (Some r) t) = "func (" +:+ written quote pkg r +:+ ")." +:+ name +:+ written_sig quote pkg t) ∧
  (∀ r t, iface r = true → sig (HFunc (Some r) t) = "func (interface)." +:+ name +:+ written_sig quote pkg t) ∧
  (∀ path, sig (HPkgName path) = "package " +:+ name).
Proof.
  intros quote unquote gofmt name pkg top Ho sig. subst sig.
  assert (Hn : (if top then prefix_of (relative_qualifier pkg) pkg else "") +:+ name = name) by (rewrite prefix_own; by destruct top).
  assert (Ht : ∀ t, type_string quote (relative_qualifier pkg) t = written quote pkg t) by (intros; by apply write_written).
  assert (Hs : ∀ t, write quote (relative_qualifier pkg) true t = written_sig quote pkg t) by (intros; by apply write_written).
  unfold type_string_for_object. cbn [ho_kind ho_pkg ho_name ho_top].
  split_and!.
  - intros t v. unfold object_string. cbn [ho_kind ho_pkg ho_name ho_top]. rewrite Hn, Ht. by rewrite <- !app_assoc.
  - intros t. unfold object_string. cbn [ho_kind ho_pkg ho_name ho_top]. by rewrite Hn, Ht.
  - intros t Hq. unfold object_string. cbn [ho_kind ho_pkg ho_name ho_top]. rewrite Hn, Ht.
    rewrite C51_no_quotes; [done|]. repeat (apply no_quote_cons_2; [done|]). done.
  - intros t. unfold object_string. cbn [ho_kind ho_pkg ho_name ho_top]. rewrite prefix_own, Hs. done.
  - intros r t Hr. unfold object_string. cbn [ho_kind ho_pkg ho_name ho_top]. rewrite Hs, Ht. destruct r; try done; cbn [iface] in Hr; by rewrite <- !app_assoc.
  - intros r t Hr. unfold object_string. cbn [ho_kind ho_pkg ho_name ho_top]. rewrite Hs. by destruct r.
  - done.
Qed.
Print Assumptions C62_values.

(** *** Layout *)
Lemma squeeze_app a b : squeeze (a +:+ b) = squeeze a +:+ squeeze b.
Proof. induction a as [|c a IH]; [done|]. rewrite app_cons. cbn [squeeze]. rewrite IH. by destruct (separator c). Qed.
Lemma squeeze_expand s : squeeze (expand_tabs s) = squeeze s.
Proof.
  induction s as [|c s IH]; [done|]. cbn [expand_tabs]. destruct (Ascii.eqb_spec c tab) as [->|Hc].
  - rewrite squeeze_app, IH. done.
  - cbn [squeeze]. by rewrite IH.
Qed.
Lemma squeeze_trim_right s : squeeze (trim_right s) = squeeze s.
Proof.
  induction s as [|c s IH]; [done|]. cbn [trim_right squeeze]. rewrite <- IH. destruct (trim_right s) as [|c' r] eqn:E.
  - unfold separator. destruct (is_space c) eqn:Ec; cbn; [done|]. unfold separator. by rewrite Ec.
  - cbn [squeeze]. done.
Qed.
Lemma trim_right_app a s : trim_right s ≠ "" → trim_right (a +:+ s) = a +:+ trim_right s.
Proof.
  intros H. induction a as [|c a IH]; [done|]. rewrite !app_cons. cbn [trim_right]. rewrite IH.
  destruct (a +:+ trim_right s) eqn:E; [|done]. apply app_eq_nil in E as [_ E]. by destruct H.
Qed.

Lemma trim_right_nl s : trim_right (s +:+ nl) = trim_right s.
Proof. induction s as [|c s IH]; [done|]. rewrite app_cons. cbn [trim_right]. by rewrite IH. Qed.
Lemma expand_tabs_type s : expand_tabs ("type _ " +:+ s) = "type _ " +:+ expand_tabs s.
Proof. reflexivity. Qed.

Lemma expand_type_layout quote gofmt pkg t : pkg ≠ Some unsafe_pkg → gofmt_layout gofmt →
  squeeze (expand_type_expr quote gofmt pkg t) = squeeze (written quote pkg t) ∧
  (braced t = false → expand_type_expr quote gofmt pkg t = written quote pkg t).
Proof.
  intros Ho Hg. unfold expand_type_expr.
  assert (Hw : type_string quote (relative_qualifier pkg) t = written quote pkg t) by by apply write_written.
  rewrite Hw. generalize (written quote pkg t) as raw. intros raw.
  assert (H : squeeze (match format_go_decl gofmt ("type _ " +:+ raw) with Some formatted => trim_prefix formatted "type _ " | None => raw end) = squeeze raw).
  { unfold format_go_decl. destruct (gofmt _) as [out|] eqn:E; [|done]. cbn [fmap option_fmap option_map].
    rewrite <- !app_assoc in E. destruct (Hg _ _ E) as (b & -> & Hb & Hne & Htr).
    change ("package p" +:+ nl +:+ nl +:+ "type _ " +:+ b +:+ nl) with (("package p" +:+ nl +:+ nl) +:+ "type _ " +:+ b +:+ nl).
    rewrite trim_prefix_app.
    assert (trim_space ("type _ " +:+ b +:+ nl) = "type _ " +:+ b) as ->.
    { unfold trim_space. change (trim_left ("type _ " +:+ b +:+ nl)) with ("type _ " +:+ b +:+ nl).
      rewrite trim_right_app; [by rewrite trim_right_nl, Htr|]. by rewrite trim_right_nl, Htr. }
    rewrite expand_tabs_type, trim_prefix_app, squeeze_expand. done. }
  destruct t; cbn [braced]; split; done.
Qed.

(** C62: the signature of a type declaration: the name and, up to layout, the underlying type as it is written in
    the package; of an alias: the name, = and the aliased type. *)
Theorem C62_types_partial : ∀ quote unquote gofmt name pkg top, pkg ≠ Some unsafe_pkg → gofmt_layout gofmt →
  let sig d := type_string_for_object quote unquote gofmt (HObj name pkg top (HTypeName d)) in
  (∀ tps u, ∃ text, sig (DDefined tps u) = "type " +:+ name +:+ " " +:+ text ∧ squeeze text = squeeze (written quote pkg u) ∧
     (braced u = false → text = written quote pkg u)) ∧
  (∀ rhs, ∃ text, sig (DAlias [] rhs) = "type " +:+ name +:+ " = " +:+ text ∧ squeeze text = squeeze (written quote pkg rhs) ∧
     (braced rhs = false → text = written quote pkg rhs)).
Proof.
  intros quote unquote gofmt name pkg top Ho Hg sig. subst sig. unfold type_string_for_object. cbn [ho_kind ho_pkg ho_name].
  split.
  - intros tps u. destruct (expand_type_layout quote gofmt pkg u Ho Hg) as [H1 H2]. cbn [format_type_declaration].
    eexists. split; [reflexivity|]. done.
  - intros rhs. destruct (expand_type_layout quote gofmt pkg rhs Ho Hg) as [H1 H2].
    unfold format_type_declaration, format_alias_declaration, format_type_param_list. rewrite app_nil_r.
    destruct (match rhs with HNamed _ _ _ => true | _ => false end) eqn:E.
    + destruct rhs; try done. eexists. split; [reflexivity|].
      assert (type_string quote (relative_qualifier pkg) (HNamed n targs tparams) = written quote pkg (HNamed n targs tparams)) as -> by by apply write_written.
      done.
    + eexists (expand_type_expr quote gofmt pkg rhs). split; [by destruct rhs|]. done.
Qed.
Print Assumptions C62_types_partial.

(** every object has a signature, so every declared symbol whose identifier has an object shows one *)
Theorem C62_nonempty : ∀ quote unquote gofmt o, type_string_for_object quote unquote gofmt o ≠ "" ∧ local_signature quote o ≠ "".
Proof.
  intros quote unquote gofmt [name pkg top kind].
  assert (Hp : ∀ c s t, String c s +:+ t ≠ "") by done.
  split.
  - unfold type_string_for_object. cbn [ho_kind ho_pkg ho_name]. destruct kind as [path|t v|d|[] t|recv sig| | |]; try done.
    destruct d as [tps rhs|u|tps u|b u]; try done. cbn [format_type_declaration]. unfold format_alias_declaration. by destruct rhs.
  - unfold local_signature. cbn [ho_kind ho_name]. destruct kind as [path|t v|d|[] t|recv sig| | |]; try done. by destruct d.
Qed.
Print Assumptions C62_nonempty.

(** A type declaration's own type parameters are not shown: type G[T any] struct{ x T } has the signature
    type G struct{x T}, whatever the type parameters are. *)
Theorem C62_type_parameters_refuted : ∀ quote unquote gofmt name pkg top tps tps' u,
  type_string_for_object quote unquote gofmt (HObj name pkg top (HTypeName (DDefined tps u))) =
  type_string_for_object quote unquote gofmt (HObj name pkg top (HTypeName (DDefined tps' u))).
Proof. done. Qed.

Definition x_quote (s : string) : string := String dquote (s +:+ String dquote "").
Definition x_unquote (s : string) : option string := None.
(** a formatter that leaves declarations as they are *)
Definition x_gofmt (s : string) : option string := Some s.
Definition x_own : hpkg := HPkg "ex.org/p" "p".
Definition x_q : hpkg := HPkg "ex.org/q" "q".
Definition x_r : hpkg := HPkg "ex.org/r" "r".
(** The constraints of a generic alias are written with import paths: type A[P q.C] = []P of package p is shown
    as type A[P ex.org/q.C] = []P. *)
Definition x_alias : hobj := HObj "A" (Some x_own) true
  (HTypeName (DAlias [(["P"], HNamed (HName (Some x_q) "C") [] [])] (HSlice (HTypeParam "P")))).
Theorem C62_alias_constraint_refuted : ∃ ρ, Inj (=) (=) ρ ∧ ρ "unsafe" = "unsafe" ∧
  type_string_for_object x_quote x_unquote x_gofmt x_alias = "type A[P ex.org/q.C] = []P" ∧
  type_string_for_object x_quote x_unquote x_gofmt (rename_obj ρ x_alias) ≠ type_string_for_object x_quote x_unquote x_gofmt x_alias.
Proof.
  exists (λ s, if String.eqb s "ex.org/q" then "ex.org/z" else if String.eqb s "ex.org/z" then "ex.org/q" else s).
  split; [|vm_compute; done].
  intros a b. destruct (String.eqb_spec a "ex.org/q"), (String.eqb_spec a "ex.org/z"), (String.eqb_spec b "ex.org/q"), (String.eqb_spec b "ex.org/z");
    subst; try done; intros E; subst; done.
Qed.
(** The texts of local symbols drop all package names: a local variable of type q.T and one of type r.T look alike. *)
Theorem C62_local_packages_refuted :
  let var q := HObj "x" (Some x_own) false (HVar false (HNamed (HName (Some q) "T") [] [])) in
  local_signature x_quote (var x_q) = "var x T" ∧ local_signature x_quote (var x_r) = "var x T" ∧
  type_string_for_object x_quote x_unquote x_gofmt (var x_q) = "var x q.T".
Proof. vm_compute. done. Qed.

(** func (t *T) M(w io.Writer, n ...int) (err error) and type T struct{ io.Writer; a int } of package p *)
Definition x_io : hpkg := HPkg "io" "io".
Definition x_T : hty := HNamed (HName (Some x_own) "T") [] [].
Definition x_W : hty := HNamed (HName (Some x_io) "Writer") [] [].
Definition x_error : hty := HNamed (HName None "error") [] [].
(** what go/format does with the declaration of T, and with nothing else *)
Definition x_raw : string := "struct{io.Writer; a int}".
Definition x_laid : string := "struct {" +:+ nl +:+ String tab ("io.Writer" +:+ nl +:+ String tab ("a int" +:+ nl +:+ "}")).
Definition x_fmt (s : string) : option string :=
  if String.eqb s ("package p" +:+ nl +:+ nl +:+ "type _ " +:+ x_raw +:+ nl) then Some ("package p" +:+ nl +:+ nl +:+ "type _ " +:+ x_laid +:+ nl) else None.
Lemma x_fmt_ok : gofmt_layout x_fmt.
Proof.
  intros body out. unfold x_fmt. destruct (String.eqb_spec ("package p" +:+ nl +:+ nl +:+ "type _ " +:+ body +:+ nl) ("package p" +:+ nl +:+ nl +:+ "type _ " +:+ x_raw +:+ nl)) as [E|]; [|done].
  intros [= <-]. do 4 apply app_inj_l in E. apply app_inj_r in E as ->. exists x_laid. vm_compute. done.
Qed.
Example C62_example :
  type_string_for_object x_quote x_unquote x_fmt
    (HObj "M" (Some x_own) false (HFunc (Some (HPointer x_T)) (HSig [] [("w", x_W); ("n", HSlice (HBasic "int"))] [("err", x_error)] true))) =
    "func (*T).M(w io.Writer, n ...int) (err error)" ∧
  type_string_for_object x_quote x_unquote x_fmt
    (HObj "T" (Some x_own) true (HTypeName (DDefined [] (HStruct [("Writer", true, "", x_W); ("a", false, "", HBasic "int")])))) =
    "type T struct {" +:+ nl +:+ "    io.Writer" +:+ nl +:+ "    a int" +:+ nl +:+ "}" ∧
  type_string_for_object x_quote x_unquote x_fmt (HObj "C" (Some x_own) true (HConst (HBasic "untyped int") "3")) = "const C untyped int = 3".
Proof. vm_compute. done. Qed.
