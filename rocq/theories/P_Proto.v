(** The wire format: reading back what was written. *)
From Coq Require Import Ascii String.
From stdpp Require Import prelude strings.
From Verif Require Import GoStr Scip Pass2 Loader Index Proto.
Open Scope string_scope.
Open Scope list_scope.
Local Open Scope Z_scope.

Lemma byte_val_byte n : 0 <= n < 256 → byte_val (byte n) = n.
Proof.
  intros H. unfold byte_val, byte. rewrite N_ascii_embedding by lia. lia.
Qed.
Lemma byte_val_range c : 0 <= byte_val c < 256.
Proof. unfold byte_val. pose proof (N_ascii_bounded c). lia. Qed.

Lemma get_put_varint k : ∀ n r, 0 <= n < 2 * 128 ^ Z.of_nat k →
  get_varint (S k) (put_varint (S k) n +:+ r) = Some (n, r).
Proof.
  induction k as [|k IH]; intros n r Hn.
  - cbn [put_varint]. change (128 ^ Z.of_nat 0) with 1 in Hn. rewrite (proj2 (Z.ltb_lt n 128)) by lia.
    rewrite app_cons, app_nil_l. cbn [get_varint]. rewrite byte_val_byte by lia.
    rewrite (proj2 (Z.ltb_lt n 128)) by lia. by rewrite (proj2 (Z.ltb_lt n 2)) by lia.
  - cbn [put_varint]. rewrite Nat2Z.inj_succ, Z.pow_succ_r in Hn by lia. destruct (Z.ltb_spec n 128) as [H|H].
    + rewrite app_cons, app_nil_l. cbn [get_varint]. rewrite byte_val_byte by lia.
      by rewrite (proj2 (Z.ltb_lt n 128)) by lia.
    + pose proof (Z.mod_pos_bound n 128 ltac:(lia)). rewrite app_cons.
      assert (IH' := IH (n / 128) r). cbn [put_varint] in IH'.
      change (get_varint (S (S k)) (String ?c ?s)) with
        (if Z.ltb (byte_val c) 128 then Some (byte_val c, s)
         else match get_varint (S k) s with Some (x, r') => Some (byte_val c - 128 + 128 * x, r') | None => None end).
      rewrite byte_val_byte by lia. rewrite (proj2 (Z.ltb_ge (n mod 128 + 128) 128)) by lia.
      rewrite IH'.
      * f_equal. f_equal. pose proof (Z.div_mod n 128). lia.
      * split; [apply Z.div_pos; lia|]. apply Z.div_lt_upper_bound; lia.
Qed.
Lemma read_put_varint n r : 0 <= n < 2 ^ 64 → read_varint (varint n +:+ r) = Some (n, r).
Proof. intros H. apply get_put_varint. change (2 * 128 ^ Z.of_nat 9) with (2 ^ 64). done. Qed.
Lemma put_varint_nonempty k n : (1 <= slen (put_varint (S k) n))%nat.
Proof. cbn [put_varint]. destruct (Z.ltb n 128); rewrite slen_cons; lia. Qed.
Lemma varint_nonempty n : (1 <= slen (varint n))%nat.
Proof. apply put_varint_nonempty. Qed.

Lemma read_bytes_app b r : read_bytes (Z.of_nat (slen b)) (b +:+ r) = Some (b, r).
Proof.
  unfold read_bytes. rewrite slen_app. rewrite (proj2 (Z.leb_le _ _)) by lia. rewrite Nat2Z.id.
  by rewrite (str_take_app _ b), (str_drop_app _ b).
Qed.
Definition field_ok (f : field) : Prop :=
  1 <= f.1 < 2 ^ 29 ∧
  match f.2 with
  | WVarint n => 0 <= n < 2 ^ 64
  | WBytes b => Z.of_nat (slen b) < 2 ^ 63
  | WFixed b => slen b = 4%nat ∨ slen b = 8%nat
  end.
Lemma read_put_field f r : field_ok f → read_field (put_field f +:+ r) = Some (f, r).
Proof.
  destruct f as [num v]. intros [Hn Hv]. cbn [fst snd] in *. unfold read_field, put_field. cbn [fst snd].
  assert (Htag : ∀ w, 0 <= w < 8 → (num * 8 + w) / 8 = num ∧ (num * 8 + w) mod 8 = w).
  { intros w Hw. split; [rewrite Z.add_comm, Z.div_add by lia; rewrite Z.div_small by lia; lia|].
    rewrite Z.add_comm, Z_mod_plus_full. by apply Z.mod_small. }
  assert (Hb : (Z.ltb num 1 || Z.ltb 536870911 num)%bool = false).
  { change 536870911 with (2^29 - 1). apply orb_false_intro; apply Z.ltb_ge; lia. }
  destruct v as [n|b|b].
  - rewrite <- app_assoc, read_put_varint by lia.
    destruct (Htag 0 ltac:(lia)) as [E1 E2]. rewrite Z.add_0_r in E1, E2. rewrite E1, Hb, E2.
    by rewrite read_put_varint by lia.
  - rewrite <- !app_assoc, read_put_varint by lia.
    destruct (Htag 2 ltac:(lia)) as [-> ->]. rewrite Hb. rewrite read_put_varint by lia. by rewrite read_bytes_app.
  - rewrite <- app_assoc. destruct Hv as [E|E]; rewrite E; cbn [Nat.eqb];
      (rewrite read_put_varint by lia).
    + destruct (Htag 5 ltac:(lia)) as [-> ->]. rewrite Hb. pose proof (read_bytes_app b r) as Hr. rewrite E in Hr.
      change (Z.of_nat 4) with 4 in Hr. by rewrite Hr.
    + destruct (Htag 1 ltac:(lia)) as [-> ->]. rewrite Hb. pose proof (read_bytes_app b r) as Hr. rewrite E in Hr.
      change (Z.of_nat 8) with 8 in Hr. by rewrite Hr.
Qed.
Lemma put_field_nonempty f : (1 <= slen (put_field f))%nat.
Proof.
  unfold put_field. destruct f.2; rewrite slen_app; [pose proof (varint_nonempty (f.1 * 8))
   |pose proof (varint_nonempty (f.1 * 8 + 2))|pose proof (varint_nonempty (f.1 * 8 + (if Nat.eqb (slen b) 4 then 5 else 1)))]; lia.
Qed.
Lemma put_fields_app a b : put_fields (a ++ b) = put_fields a +:+ put_fields b.
Proof. induction a as [|f a IH]; [done|]. cbn [put_fields app]. by rewrite IH, app_assoc. Qed.
Lemma read_put_fields_fuel l : ∀ fuel, Forall field_ok l → (slen (put_fields l) <= fuel)%nat →
  read_fields_fuel fuel (put_fields l) = Some l.
Proof.
  induction l as [|f l IH]; intros fuel Hl Hf; [by destruct fuel|].
  apply Forall_cons in Hl as [H1 H2]. cbn [put_fields] in *. rewrite slen_app in Hf.
  pose proof (put_field_nonempty f). destruct fuel as [|fuel]; [lia|].
  destruct (put_field f +:+ put_fields l) as [|c s] eqn:E.
  { exfalso. apply app_eq_nil in E as [E _]. rewrite E in H. cbn in H. lia. }
  cbn [read_fields_fuel]. rewrite <- E, read_put_field by done. rewrite IH; [done|done|lia].
Qed.
Lemma read_put_fields l : Forall field_ok l → read_fields (put_fields l) = Some l.
Proof. intros H. apply read_put_fields_fuel; [done|lia]. Qed.

(** sizes: a field is at least as long as its contents *)
Lemma payload_length n b : (slen b <= slen (put_field (n, WBytes b)))%nat.
Proof. unfold put_field. cbn [fst snd]. rewrite !slen_app. lia. Qed.
Lemma fields_length f l : f ∈ l → (slen (put_field f) <= slen (put_fields l))%nat.
Proof.
  induction l as [|g l IH]; [intros H; by apply elem_of_nil in H|]. cbn [put_fields]. rewrite slen_app.
  intros [->|H]%elem_of_cons; [lia|]. specialize (IH H). lia.
Qed.
Definition small (b : string) : Prop := Z.of_nat (slen b) < 2 ^ 63.
Lemma small_payload n b l : small (put_fields l) → (n, WBytes b) ∈ l → small b.
Proof.
  unfold small. intros Hs Hin. pose proof (fields_length _ _ Hin). pose proof (payload_length n b). lia.
Qed.
(** structural validity: field numbers and varints *)
Definition shape_ok (f : field) : Prop :=
  1 <= f.1 < 2 ^ 29 ∧ match f.2 with WVarint n => 0 <= n < 2 ^ 64 | WBytes _ => True | WFixed _ => False end.
Lemma shape_small l : Forall shape_ok l → small (put_fields l) → read_fields (put_fields l) = Some l.
Proof.
  intros Hl Hs. apply read_put_fields. rewrite Forall_forall in Hl |- *. intros [n v] Hf.
  destruct (Hl _ Hf) as [H1 H2]. split; [done|]. cbn [fst snd] in *. destruct v; [done| |done]. by eapply small_payload.
Qed.

(** *** selecting fields *)
Lemma sel_app n a b : sel n (a ++ b) = sel n a ++ sel n b.
Proof. unfold sel. by rewrite List.filter_app, List.map_app. Qed.
Lemma sel_nil n : sel n [] = [].
Proof. done. Qed.
Lemma sel_str n m s : sel n (f_str m s) = if Z.eqb m n then (if String.eqb s "" then [] else [WBytes s]) else [].
Proof. unfold f_str. destruct (String.eqb s ""); cbn; [by destruct (Z.eqb m n)|]. unfold sel. cbn. by destruct (Z.eqb m n). Qed.
Lemma sel_num n m v : sel n (f_num m v) = if Z.eqb m n then (if Z.eqb v 0 then [] else [WVarint v]) else [].
Proof. unfold f_num. destruct (Z.eqb v 0); cbn; [by destruct (Z.eqb m n)|]. unfold sel. cbn. by destruct (Z.eqb m n). Qed.
Lemma sel_rep n m l : sel n (f_rep m l) = if Z.eqb m n then map WBytes l else [].
Proof.
  unfold f_rep, sel. destruct (Z.eqb m n) eqn:E.
  - induction l as [|s l IH]; [done|]. cbn. rewrite E. cbn. by rewrite <- IH.
  - induction l as [|s l IH]; [done|]. cbn. by rewrite E.
Qed.
Lemma sel_packed n m l : sel n (f_packed m l) =
  if Z.eqb m n then match l with [] => [] | _ => [WBytes (String.concat "" (map (λ z, varint (int32_wire z)) l))] end else [].
Proof. unfold f_packed. destruct l; cbn; [by destruct (Z.eqb m n)|]. unfold sel. cbn. by destruct (Z.eqb m n). Qed.
Lemma bytes_of_map l : bytes_of (map WBytes l) = l.
Proof. induction l as [|s l IH]; [done|]. cbn. by rewrite IH. Qed.
Lemma bytes_of_str s : default "" (last (bytes_of (if String.eqb s "" then [] else [WBytes s]))) = s.
Proof. destruct (String.eqb_spec s "") as [->|]; done. Qed.
Lemma varints_of_num v : default 0 (last (varints_of (if Z.eqb v 0 then [] else [WVarint v]))) = v.
Proof. destruct (Z.eqb_spec v 0) as [->|]; done. Qed.

Lemma mapM_dec {A} (enc : A → string) (dec : string → option A) l :
  (∀ a, a ∈ l → dec (enc a) = Some a) → mapM dec (map enc l) = Some l.
Proof.
  induction l as [|a l IH]; intros H; [done|]. cbn. rewrite H by left. cbn. rewrite IH; [done|].
  intros b Hb. apply H. by right.
Qed.
Lemma mapM_check l : forallb valid_utf8 l = true → mapM check_utf8 l = Some l.
Proof.
  intros H. rewrite <- (map_id l) at 1. apply mapM_dec. intros s Hs. unfold check_utf8.
  rewrite forallb_forall in H. by rewrite H by by apply elem_of_list_In.
Qed.

(** *** packed integers *)
Definition is_int32 (z : Z) : Prop := - 2 ^ 31 <= z < 2 ^ 31.
Lemma int32_roundtrip z : is_int32 z → int32_value (int32_wire z) = z.
Proof.
  intros H. unfold is_int32 in H. unfold int32_value, int32_wire.
  assert ((z mod 2 ^ 64) mod 2 ^ 32 = z mod 2 ^ 32) as ->.
  { pose proof (Z.div_mod z (2 ^ 64) ltac:(lia)) as E.
    replace z with (z mod 2 ^ 64 + (2 ^ 32 * (z / 2 ^ 64)) * 2 ^ 32) at 2 by lia. by rewrite Z_mod_plus_full. }
  destruct (decide (0 <= z)).
  - rewrite Z.mod_small by lia. by rewrite (proj2 (Z.ltb_lt _ _)) by lia.
  - assert (z mod 2 ^ 32 = z + 2 ^ 32) as ->.
    { replace z with ((z + 2 ^ 32) + (-1) * 2 ^ 32) at 1 by lia. rewrite Z_mod_plus_full. apply Z.mod_small. lia. }
    rewrite (proj2 (Z.ltb_ge _ _)) by lia. lia.
Qed.
Lemma int32_wire_range z : 0 <= int32_wire z < 2 ^ 64.
Proof. apply Z.mod_pos_bound. lia. Qed.
Lemma concat_cons s l : String.concat "" (s :: l) = s +:+ String.concat "" l.
Proof. destruct l; cbn; [by rewrite app_nil_r|done]. Qed.
Lemma read_packed_ints l : ∀ fuel, Forall is_int32 l →
  (slen (String.concat "" (map (λ z, varint (int32_wire z)) l)) <= fuel)%nat →
  read_packed fuel (String.concat "" (map (λ z, varint (int32_wire z)) l)) = Some l.
Proof.
  induction l as [|z l IH]; intros fuel Hl Hf; [by destruct fuel|].
  apply Forall_cons in Hl as [H1 H2]. cbn [map] in *. rewrite concat_cons in *. rewrite slen_app in Hf.
  pose proof (varint_nonempty (int32_wire z)). destruct fuel as [|fuel]; [lia|].
  match goal with |- read_packed _ ?b = _ => destruct b as [|c s] eqn:E end.
  { exfalso. apply app_eq_nil in E as [E _]. rewrite E in H. cbn in H. lia. }
  cbn [read_packed]. rewrite <- E, read_put_varint by apply int32_wire_range. rewrite IH; [|done|lia].
  by rewrite int32_roundtrip.
Qed.
Lemma read_ints_packed l : Forall is_int32 l →
  read_ints (match l with [] => [] | _ => [WBytes (String.concat "" (map (λ z, varint (int32_wire z)) l))] end) = Some l.
Proof.
  intros H. destruct l as [|z l]; [done|]. cbn [read_ints]. rewrite read_packed_ints; [|done|lia].
  by rewrite List.app_nil_r.
Qed.
