(** Model of the functions of Go's [strings], [path] and [fmt] packages that
    scip-go calls.  A Go string is a sequence of bytes, here Coq's [string]. *)
From Coq Require Import Ascii String.
From stdpp Require Import prelude strings pretty.
Open Scope string_scope.
Open Scope list_scope.
Open Scope nat_scope.

(** Go statements that can crash: a panic is an ordinary value of the model. *)
Inductive res (A : Type) : Type :=
| Ok (a : A)
| Panic (msg : string).
Arguments Ok {A} a.
Arguments Panic {A} msg.

Definition res_bind {A B} (r : res A) (f : A → res B) : res B :=
  match r with Ok a => f a | Panic m => Panic m end.
Definition is_ok {A} (r : res A) : bool := match r with Ok _ => true | Panic _ => false end.
Notation "'let!' x ':=' r 'in' b" := (res_bind r (λ x, b))
  (at level 200, x pattern, r at level 100, b at level 200, right associativity).

(** Left fold of a crashing step: stops at the first panic. *)
Fixpoint res_fold {A S} (step : S → A → res S) (s : S) (l : list A) : res S :=
  match l with
  | [] => Ok s
  | a :: l' => let! s' := step s a in res_fold step s' l'
  end.

(** Characters *)
Definition ch_code (c : ascii) : N := N_of_ascii c.
Definition in_range (lo hi c : ascii) : bool :=
  (N.leb (ch_code lo) (ch_code c) && N.leb (ch_code c) (ch_code hi))%bool.
Definition is_digit (c : ascii) : bool := in_range "0" "9" c.
Definition is_lower (c : ascii) : bool := in_range "a" "z" c.
Definition is_upper (c : ascii) : bool := in_range "A" "Z" c.
Definition is_alpha (c : ascii) : bool := (is_lower c || is_upper c)%bool.
Definition is_alnum (c : ascii) : bool := (is_alpha c || is_digit c)%bool.

Definition newline : ascii := "010"%char.
Definition nl : string := String newline "".
Definition dquote : ascii := """"%char.
Definition backtick : ascii := "`"%char.

Fixpoint str_forallb (f : ascii → bool) (s : string) : bool :=
  match s with "" => true | String c r => (f c && str_forallb f r)%bool end.
Fixpoint str_existsb (f : ascii → bool) (s : string) : bool :=
  match s with "" => false | String c r => (f c || str_existsb f r)%bool end.

(** s[n:] and s[:n] (for n <= len(s); Go panics beyond) *)
Fixpoint str_drop (n : nat) (s : string) : string :=
  match n, s with
  | O, _ => s
  | S n', "" => ""
  | S n', String _ r => str_drop n' r
  end.
Fixpoint str_take (n : nat) (s : string) : string :=
  match n, s with
  | O, _ => ""
  | S n', "" => ""
  | S n', String c r => String c (str_take n' r)
  end.

Definition slen (s : string) : nat := String.length s.

(** strings.HasPrefix(s, p) *)
Definition has_prefix (s p : string) : bool := String.prefix p s.
(** strings.TrimPrefix(s, p) *)
Definition trim_prefix (s p : string) : string :=
  if has_prefix s p then str_drop (slen p) s else s.
(** strings.HasSuffix(s, p) *)
Definition has_suffix (s p : string) : bool :=
  ((slen p <=? slen s)%nat && String.eqb (str_drop (slen s - slen p) s) p)%bool.
(** strings.TrimSuffix(s, p) *)
Definition trim_suffix (s p : string) : string :=
  if has_suffix s p then str_take (slen s - slen p) s else s.

(** strings.Split(s, sep) for a one-byte separator: never empty *)
Fixpoint split_on (c : ascii) (s : string) : list string :=
  match s with
  | "" => [""]
  | String a r =>
      if Ascii.eqb a c then "" :: split_on c r
      else match split_on c r with
           | h :: t => String a h :: t
           | [] => [String a ""]
           end
  end.
(** strings.Join(l, sep) *)
Definition join (sep : string) (l : list string) : string := String.concat sep l.

(** strings.Count(s, c) for a one-byte argument *)
Fixpoint count_char (c : ascii) (s : string) : nat :=
  match s with
  | "" => 0
  | String a r => (if Ascii.eqb a c then 1 else 0) + count_char c r
  end.

(** strings.TrimSpace, restricted to the ASCII white space bytes
    '\t' '\n' '\v' '\f' '\r' ' ' (Unicode spaces U+0085, U+00A0 and the
    multi-byte ones are not modelled). *)
Definition is_space (c : ascii) : bool :=
  (Ascii.eqb c " " || in_range "009" "013" c)%bool.
Fixpoint trim_left (s : string) : string :=
  match s with
  | "" => ""
  | String c r => if is_space c then trim_left r else s
  end.
Fixpoint trim_right (s : string) : string :=
  match s with
  | "" => ""
  | String c r =>
      match trim_right r with
      | "" => if is_space c then "" else String c ""
      | r' => String c r'
      end
  end.
Definition trim_space (s : string) : string := trim_right (trim_left s).

(** strings.LastIndex(s, c) for a one-byte argument *)
Fixpoint last_index (c : ascii) (s : string) : option nat :=
  match s with
  | "" => None
  | String a r =>
      match last_index c r with
      | Some i => Some (S i)
      | None => if Ascii.eqb a c then Some 0 else None
      end
  end.

(** fmt %d *)
Definition show_nat (n : nat) : string := pretty n.
Definition show_Z (z : Z) : string := pretty z.

(** path.Base: strip trailing slashes, keep what follows the last slash. *)
Fixpoint strip_trailing_slash (s : string) : string :=
  match s with
  | "" => ""
  | String c r =>
      match strip_trailing_slash r with
      | "" => if Ascii.eqb c "/" then "" else String c ""
      | r' => String c r'
      end
  end.
Definition path_base (p : string) : string :=
  match p with
  | "" => "."
  | _ =>
      let s := strip_trailing_slash p in
      let s := match last_index "/" s with Some i => str_drop (S i) s | None => s end in
      match s with "" => "/" | _ => s end
  end.
(** path.Ext: the suffix starting at the last dot of the last slash-separated element. *)
Definition path_ext (p : string) : string :=
  let last := match last_index "/" p with Some i => str_drop (S i) p | None => p end in
  match last_index "." last with Some i => str_drop i last | None => "" end.

(** ------------------------------------------------------------------ *)
(** Facts about strings *)

Lemma app_nil_l s : "" +:+ s = s.
Proof. done. Qed.
Lemma app_cons c s t : String c s +:+ t = String c (s +:+ t).
Proof. done. Qed.
Lemma app_nil_r s : s +:+ "" = s.
Proof. induction s as [|c s IH]; [done|]. rewrite app_cons. by rewrite IH. Qed.
Lemma app_assoc s t u : s +:+ (t +:+ u) = (s +:+ t) +:+ u.
Proof. induction s as [|c s IH]; [done|]. rewrite !app_cons. by rewrite IH. Qed.
Lemma slen_app s t : slen (s +:+ t) = slen s + slen t.
Proof. induction s as [|c s IH]; [done|]. rewrite app_cons; cbn. unfold slen in *. lia. Qed.
Lemma slen_cons c s : slen (String c s) = S (slen s).
Proof. done. Qed.
Lemma slen_zero s : slen s = 0 → s = "".
Proof. by destruct s. Qed.
Lemma app_inj_l s t u : s +:+ t = s +:+ u → t = u.
Proof. induction s as [|c s IH]; [done|]. rewrite !app_cons. intros [= H]. auto. Qed.
Lemma app_inj_len s s' t t' : slen s = slen s' → s +:+ t = s' +:+ t' → s = s' ∧ t = t'.
Proof.
  revert s'. induction s as [|c s IH]; intros [|c' s'] Hl H; try discriminate; [done|].
  rewrite !app_cons in H. injection H as -> H. rewrite !slen_cons in Hl.
  destruct (IH s') as [-> ->]; [lia | done | done].
Qed.
Lemma app_inj_r s s' t : s +:+ t = s' +:+ t → s = s'.
Proof.
  intros H. assert (slen s = slen s') as Hl.
  { apply (f_equal slen) in H. rewrite !slen_app in H. lia. }
  by destruct (app_inj_len _ _ _ _ Hl H).
Qed.
Lemma app_eq_nil s t : s +:+ t = "" → s = "" ∧ t = "".
Proof. destruct s; [done|]. rewrite app_cons. discriminate. Qed.

Lemma str_drop_app n s t : n = slen s → str_drop n (s +:+ t) = t.
Proof. intros ->. induction s; [by destruct t|done]. Qed.
Lemma str_take_app n s t : n = slen s → str_take n (s +:+ t) = s.
Proof. intros ->. induction s as [|c s IH]; [by destruct t|]. rewrite app_cons, slen_cons. cbn. by rewrite IH. Qed.
Lemma str_take_drop n s : str_take n s +:+ str_drop n s = s.
Proof.
  revert s. induction n as [|n IH]; intros [|c s]; try done.
  cbn [str_take str_drop]. rewrite app_cons. by rewrite IH.
Qed.
Lemma slen_drop n s : slen (str_drop n s) = slen s - n.
Proof.
  revert s. induction n as [|n IH]; intros s; [cbn [str_drop]; lia|].
  destruct s as [|c s]; [done|]. cbn [str_drop]. rewrite IH, slen_cons. lia.
Qed.
Lemma slen_take n s : n <= slen s → slen (str_take n s) = n.
Proof.
  revert s. induction n as [|n IH]; intros s H; [done|].
  destruct s as [|c s]; [unfold slen in H; cbn in H; lia|].
  cbn [str_take]. rewrite slen_cons in *. rewrite IH; lia.
Qed.

Lemma has_prefix_spec s p : has_prefix s p = true ↔ ∃ r, s = p +:+ r.
Proof.
  unfold has_prefix. revert s. induction p as [|c p IH]; intros s.
  - split; [by exists s|]. intros _. by destruct s.
  - destruct s as [|c' s]; cbn.
    + split; [done|]. intros [r H]. rewrite app_cons in H. discriminate.
    + destruct (ascii_dec c c') as [->|Hne].
      * rewrite IH. split; intros [r Hr]; exists r; rewrite ?app_cons in *; congruence.
      * split; [done|]. intros [r Hr]. rewrite app_cons in Hr. congruence.
Qed.
Lemma has_prefix_app p r : has_prefix (p +:+ r) p = true.
Proof. apply has_prefix_spec. by exists r. Qed.
Lemma trim_prefix_app p r : trim_prefix (p +:+ r) p = r.
Proof. unfold trim_prefix. rewrite has_prefix_app. by apply str_drop_app. Qed.
Lemma trim_prefix_id s p : has_prefix s p = false → trim_prefix s p = s.
Proof. unfold trim_prefix. by intros ->. Qed.

Lemma has_suffix_spec s p : has_suffix s p = true ↔ ∃ r, s = r +:+ p.
Proof.
  unfold has_suffix. rewrite andb_true_iff, String.eqb_eq, Nat.leb_le. split.
  - intros [Hl H]. exists (str_take (slen s - slen p) s).
    rewrite <-H at 2. by rewrite str_take_drop.
  - intros [r ->]. rewrite slen_app. split; [lia|]. apply str_drop_app. lia.
Qed.
Lemma has_suffix_app r p : has_suffix (r +:+ p) p = true.
Proof. apply has_suffix_spec. by exists r. Qed.
Lemma trim_suffix_app r p : trim_suffix (r +:+ p) p = r.
Proof. unfold trim_suffix. rewrite has_suffix_app, slen_app. apply str_take_app. lia. Qed.
Lemma trim_suffix_id s p : has_suffix s p = false → trim_suffix s p = s.
Proof. unfold trim_suffix. by intros ->. Qed.

Lemma str_forallb_app f s t : str_forallb f (s +:+ t) = (str_forallb f s && str_forallb f t)%bool.
Proof. induction s as [|c s IH]; [done|]. rewrite app_cons. cbn. rewrite IH. by destruct (f c). Qed.

Lemma split_on_ne c s : split_on c s ≠ [].
Proof. destruct s; cbn; [done|]. destruct (Ascii.eqb _ _); [done|]. by destruct (split_on c s). Qed.
Lemma split_on_app_sep c s t :
  str_forallb (λ a, negb (Ascii.eqb a c)) s = true →
  split_on c (s +:+ String c t) = s :: split_on c t.
Proof.
  induction s as [|a s IH]; intros H.
  - rewrite app_nil_l. cbn. by rewrite Ascii.eqb_refl.
  - cbn in H. apply andb_true_iff in H as [Ha Hs]. rewrite app_cons. cbn.
    destruct (Ascii.eqb a c); [done|]. by rewrite IH.
Qed.
Lemma split_on_nosep c s :
  str_forallb (λ a, negb (Ascii.eqb a c)) s = true → split_on c s = [s].
Proof.
  induction s as [|a s IH]; intros H; [done|].
  cbn in *. apply andb_true_iff in H as [Ha Hs]. destruct (Ascii.eqb a c); [done|]. by rewrite IH.
Qed.
Lemma last_index_app_sep c s t :
  str_forallb (λ a, negb (Ascii.eqb a c)) t = true →
  last_index c (s +:+ String c t) = Some (slen s).
Proof.
  intros Ht. assert (last_index c t = None) as Hn.
  { induction t as [|a t IH]; [done|]. cbn in Ht. apply andb_true_iff in Ht as [Ha Ht].
    cbn. rewrite IH by done. destruct (Ascii.eqb a c); done. }
  induction s as [|a s IH]; rewrite ?app_nil_l, ?app_cons; cbn.
  - by rewrite Hn, Ascii.eqb_refl.
  - by rewrite IH.
Qed.
Lemma last_index_none c t :
  str_forallb (λ a, negb (Ascii.eqb a c)) t = true → last_index c t = None.
Proof.
  induction t as [|a t IH]; [done|]. cbn. intros [Ha Ht]%andb_true_iff.
  rewrite IH by done. by destruct (Ascii.eqb a c).
Qed.
