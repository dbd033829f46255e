(** C39: the concatenated output is one valid index. *)
From Coq Require Import Ascii String.
From stdpp Require Import prelude strings.
From Verif Require Import GoStr Scip Pass2 Loader Index SpecIndex Proto P_Proto.
Open Scope string_scope.
Open Scope list_scope.
Local Open Scope Z_scope.

(** the integers of a message fit in 32 bits *)
Definition occ_ok (o : occurrence) : Prop :=
  Forall is_int32 (oc_range o) ∧ Forall is_int32 (oc_enclosing o) ∧ Z.of_nat (oc_roles o) < 2 ^ 31.
Definition message_ok (m : message) : Prop :=
  match m with MDoc d => Forall occ_ok (d_occs d) | _ => True end.

Lemma shape_str n s : 1 <= n < 2 ^ 29 → Forall shape_ok (f_str n s).
Proof. intros. unfold f_str. destruct (String.eqb s ""); repeat constructor; cbn; lia. Qed.
Lemma shape_num n v : 1 <= n < 2 ^ 29 → 0 <= v < 2 ^ 64 → Forall shape_ok (f_num n v).
Proof. intros. unfold f_num. destruct (Z.eqb v 0); repeat constructor; cbn; lia. Qed.
Lemma shape_bool n b : 1 <= n < 2 ^ 29 → Forall shape_ok (f_bool n b).
Proof. intros. apply shape_num; [done|]. destruct b; lia. Qed.
Lemma shape_rep n l : 1 <= n < 2 ^ 29 → Forall shape_ok (f_rep n l).
Proof. intros. unfold f_rep. induction l; constructor; [done|done]. Qed.
Lemma shape_packed n l : 1 <= n < 2 ^ 29 → Forall shape_ok (f_packed n l).
Proof. intros. unfold f_packed. destruct l; repeat constructor; cbn; lia. Qed.
Ltac shapes := repeat (apply Forall_app; split);
  first [apply shape_str|apply shape_bool|apply shape_rep|apply shape_packed|apply shape_num]; lia.
Ltac sels := rewrite ?sel_app, ?sel_str, ?sel_num, ?sel_rep, ?sel_packed; cbn [Z.eqb Pos.eqb app]; rewrite ?List.app_nil_r.

Lemma get_bool_put b : negb (Z.eqb (if b : bool then 1 else 0) 0) = b.
Proof. by destruct b. Qed.
Lemma read_put_rel r : valid_utf8 (r_symbol r) = true → small (put_fields (put_rel r)) →
  read_rel (put_fields (put_rel r)) = Some r.
Proof.
  intros Hu Hs. unfold read_rel. rewrite shape_small; [|unfold put_rel; shapes|done]. cbn [opt_bind].
  unfold get_str, get_bool, get_num, put_rel, f_bool. sels.
  rewrite bytes_of_str, !varints_of_num, !get_bool_put. unfold check_utf8. rewrite Hu. cbn. by destruct r.
Qed.
Lemma kind_roundtrip k : kind_of_number (kind_number k) = Some k.
Proof. by destruct k. Qed.
Lemma read_put_signature t : valid_utf8 t = true → small (put_fields (put_signature t)) →
  read_signature (put_fields (put_signature t)) = Some t.
Proof.
  intros Hu Hs. unfold read_signature. rewrite shape_small; [|unfold put_signature; shapes|done]. cbn [opt_bind].
  unfold get_str, put_signature. sels. rewrite bytes_of_str. unfold check_utf8. by rewrite Hu.
Qed.
Lemma in_rep n s l : s ∈ l → (n, WBytes s) ∈ f_rep n l.
Proof. intros H. unfold f_rep. apply elem_of_list_fmap. eauto. Qed.

Lemma read_put_info i : info_utf8 i = true → small (put_fields (put_info i)) → read_info (put_fields (put_info i)) = Some i.
Proof.
  unfold info_utf8. rewrite !andb_true_iff. intros (((((H1 & H2) & H3) & H4) & H5) & H6) Hs. unfold read_info.
  rewrite shape_small; [|unfold put_info; repeat (apply Forall_app; split);
    first [apply shape_str; lia|apply shape_rep; lia|apply shape_num; [lia|destruct (i_kind i); cbn; lia]]|done].
  cbn [opt_bind]. pose proof (λ n b, small_payload n b _ Hs) as Hp. unfold put_info in Hp.
  assert (Hrel : ∀ r, r ∈ i_relationships i → small (put_fields (put_rel r))).
  { intros r Hr. apply (Hp 4). rewrite !elem_of_app. right. right. left. apply in_rep. apply elem_of_list_fmap. by exists r. }
  assert (Hsig : ∀ t, i_signature i = Some t → small (put_fields (put_signature t))).
  { intros t Ht. apply (Hp 7). rewrite !elem_of_app. do 5 right. left. rewrite Ht. apply in_rep. left. }
  unfold get_str, get_strs, get_msgs, get_num, put_info. sels.
  rewrite !bytes_of_str, !bytes_of_map, varints_of_num, kind_roundtrip. unfold check_utf8 at 1. rewrite H1. cbn [opt_bind].
  rewrite mapM_check by done. cbn [opt_bind].
  rewrite mapM_dec. 2:{ intros r Hr. apply read_put_rel; [|by apply Hrel]. rewrite forallb_forall in H3. apply H3. by apply elem_of_list_In. }
  cbn [opt_bind]. unfold check_utf8. rewrite H4, H6. cbn [opt_bind].
  assert (mapM read_signature (match i_signature i with Some t => [put_fields (put_signature t)] | None => [] end)
    = Some (match i_signature i with Some t => [t] | None => [] end)) as ->.
  { destruct (i_signature i) as [t|]; [|done]. apply (mapM_dec (λ t, put_fields (put_signature t)) read_signature [t]).
    intros t' Ht'. apply elem_of_list_singleton in Ht' as ->. apply read_put_signature; [done|by apply Hsig]. }
  cbn [opt_bind]. destruct i as [s d r k dn sg en]. cbn. by destruct sg.
Qed.
Lemma read_put_diag d : read_diag (put_fields (put_diag d)) = Some d.
Proof. by destruct d. Qed.
Lemma read_put_occ o : valid_utf8 (oc_symbol o) = true → occ_ok o → small (put_fields (put_occ o)) →
  read_occ (put_fields (put_occ o)) = Some o.
Proof.
  intros Hu (Hr & He & Hro) Hs. unfold read_occ.
  rewrite shape_small; [|unfold put_occ; shapes|done]. cbn [opt_bind].
  unfold get_str, get_ints, get_msgs, get_num, put_occ. sels.
  rewrite !read_ints_packed by done. cbn [opt_bind]. rewrite bytes_of_str. unfold check_utf8. rewrite Hu. cbn [opt_bind].
  rewrite bytes_of_map, mapM_dec by (intros; apply read_put_diag). cbn [opt_bind]. rewrite varints_of_num.
  assert (int32_value (Z.of_nat (oc_roles o)) = Z.of_nat (oc_roles o)) as ->.
  { unfold int32_value. rewrite Z.mod_small by lia. by rewrite (proj2 (Z.ltb_lt _ _)) by lia. }
  rewrite Nat2Z.id. by destruct o.
Qed.
Lemma read_put_doc d : doc_utf8 d = true → Forall occ_ok (d_occs d) → small (put_fields (put_doc d)) →
  read_doc (put_fields (put_doc d)) = Some d.
Proof.
  unfold doc_utf8. rewrite !andb_true_iff, !forallb_forall. intros ((H1 & H2) & H3) Ho Hs. rewrite Forall_forall in Ho. unfold read_doc.
  rewrite shape_small; [|unfold put_doc; shapes|done]. cbn [opt_bind].
  pose proof (λ n b, small_payload n b _ Hs) as Hp. unfold put_doc in Hp.
  unfold get_str, get_msgs, put_doc. sels. rewrite bytes_of_str. unfold check_utf8. rewrite H1. cbn [opt_bind].
  rewrite !bytes_of_map. rewrite mapM_dec.
  2:{ intros o Hin. apply read_put_occ; [apply H2; by apply elem_of_list_In|by apply Ho|].
      apply (Hp 2). rewrite !elem_of_app. right. left. apply in_rep. apply elem_of_list_fmap. by exists o. }
  cbn [opt_bind]. rewrite mapM_dec.
  2:{ intros i Hin. apply read_put_info; [apply H3; by apply elem_of_list_In|].
      apply (Hp 3). rewrite !elem_of_app. right. right. left. apply in_rep. apply elem_of_list_fmap. by exists i. }
  cbn [opt_bind]. by destruct d.
Qed.
Lemma read_put_meta m : meta_utf8 m = true → small (put_fields (put_meta m)) → read_meta (put_fields (put_meta m)) = Some m.
Proof.
  unfold meta_utf8. rewrite !andb_true_iff. intros (((H1 & H2) & H3) & H4) Hs. unfold read_meta.
  rewrite shape_small; [|unfold put_meta; shapes|done]. cbn [opt_bind].
  assert (small (put_fields (put_tool m))) as Ht.
  { apply (small_payload 2 _ _ Hs). unfold put_meta. rewrite elem_of_app. left. apply in_rep. left. }
  unfold get_merged, put_meta. sels. rewrite bytes_of_map. cbn [String.concat].
  rewrite shape_small; [|unfold put_tool; shapes|done]. cbn [opt_bind].
  unfold get_str, get_strs, put_tool. sels. rewrite !bytes_of_str, bytes_of_map.
  unfold check_utf8 at 1 2 3. rewrite H1, H2, H3. cbn [opt_bind]. rewrite mapM_check by done. by destruct m.
Qed.

(** *** The stream *)
Definition message_field (m : message) : field :=
  match m with
  | MMeta x => (1, WBytes (put_fields (put_meta x)))
  | MDoc x => (2, WBytes (put_fields (put_doc x)))
  | MExt x => (3, WBytes (put_fields (put_info x)))
  end.
Definition message_utf8 (m : message) : bool :=
  match m with MMeta x => meta_utf8 x | MDoc x => doc_utf8 x | MExt x => info_utf8 x end.
Lemma marshal_field m b : marshal m = Some b → message_utf8 m = true ∧ b = put_fields [message_field m].
Proof. destruct m; unfold marshal; cbn [message_utf8]; destruct (_ : bool); try done; by intros [= <-]. Qed.
Definition metas (l : list message) : list metadata := omap (λ m, match m with MMeta x => Some x | _ => None end) l.
Definition externals (l : list message) : list syminfo := omap (λ m, match m with MExt x => Some x | _ => None end) l.

Lemma marshal_all l bs : Forall2 (λ m b, marshal m = Some b) l bs →
  String.concat "" bs = put_fields (map message_field l) ∧ Forall (λ m, message_utf8 m = true) l.
Proof.
  induction 1 as [|m b l bs Hm Hl [IH1 IH2]]; [by split|]. apply marshal_field in Hm as [H1 ->].
  rewrite concat_cons, IH1. split; [|by constructor]. cbn [map put_fields]. by rewrite app_nil_r.
Qed.
Lemma sel_messages n l : bytes_of (sel n (map message_field l)) =
  omap (λ m, if Z.eqb (message_field m).1 n then match (message_field m).2 with WBytes b => Some b | _ => None end else None) l.
Proof.
  induction l as [|m l IH]; [done|]. cbn [map]. unfold sel in *. cbn [List.filter].
  destruct (Z.eqb (message_field m).1 n) eqn:E; cbn.
  - rewrite E. destruct m; cbn; by rewrite IH.
  - rewrite E. apply IH.
Qed.
Lemma sel_metas l : bytes_of (sel 1 (map message_field l)) = map (λ m, put_fields (put_meta m)) (metas l).
Proof. rewrite sel_messages. unfold metas. induction l as [|[]]; [done| | |]; cbn; rewrite ?IHl; done. Qed.
Lemma sel_docs l : bytes_of (sel 2 (map message_field l)) = map (λ d, put_fields (put_doc d)) (documents l).
Proof. rewrite sel_messages. unfold documents. induction l as [|[]]; [done| | |]; cbn; rewrite ?IHl; done. Qed.
Lemma sel_exts l : bytes_of (sel 3 (map message_field l)) = map (λ i, put_fields (put_info i)) (externals l).
Proof. rewrite sel_messages. unfold externals. induction l as [|[]]; [done| | |]; cbn; rewrite ?IHl; done. Qed.
Lemma metas_in l x : x ∈ metas l ↔ MMeta x ∈ l.
Proof.
  unfold metas. rewrite elem_of_list_omap. split; [|eauto]. intros (m & Hm & E). destruct m; try done. by injection E as ->.
Qed.
Lemma docs_in l x : x ∈ documents l ↔ MDoc x ∈ l.
Proof.
  unfold documents. rewrite elem_of_list_omap. split; [|eauto]. intros (m & Hm & E). destruct m; try done. by injection E as ->.
Qed.
Lemma exts_in l x : x ∈ externals l ↔ MExt x ∈ l.
Proof.
  unfold externals. rewrite elem_of_list_omap. split; [|eauto]. intros (m & Hm & E). destruct m; try done. by injection E as ->.
Qed.

(** C39: the bytes written for a sequence of messages with one metadata message decode, as
    one Index, to that metadata, all documents in order and all external symbols in order. *)
Theorem C39_concatenation_is_index : ∀ msgs bytes meta,
  Forall2 (λ m b, marshal m = Some b) msgs bytes → Forall message_ok msgs → metas msgs = [meta] →
  Z.of_nat (slen (String.concat "" bytes)) < 2 ^ 63 →
  read_index (String.concat "" bytes) = Some (SIndex meta (documents msgs) (externals msgs)).
Proof.
  intros msgs bytes meta Hm Hok Hmeta Hs. destruct (marshal_all _ _ Hm) as [E Hu]. rewrite E in *.
  rewrite Forall_forall in Hu, Hok. unfold read_index. rewrite shape_small; [| |exact Hs].
  2:{ apply Forall_forall. intros f (m & -> & _)%elem_of_list_fmap. destruct m; split; cbn; lia || done. }
  cbn [opt_bind]. assert (Hp : ∀ m b, m ∈ msgs → (message_field m).2 = WBytes b → small b).
  { intros m b Hin Hb. eapply (small_payload (message_field m).1 b _ Hs). apply elem_of_list_fmap. exists m.
    split; [|done]. rewrite <- Hb. by destruct (message_field m). }
  unfold get_merged, get_msgs. rewrite sel_metas, sel_docs, sel_exts, Hmeta. cbn [map String.concat].
  assert (MMeta meta ∈ msgs) as Hin by (apply metas_in; rewrite Hmeta; left).
  rewrite read_put_meta; [|by apply (Hu _ Hin)|by apply (Hp _ _ Hin)]. cbn [opt_bind].
  rewrite mapM_dec. 2:{ intros d Hd%docs_in. apply read_put_doc; [by apply (Hu _ Hd)|by apply (Hok _ Hd)|by apply (Hp _ _ Hd)]. }
  cbn [opt_bind].
  rewrite mapM_dec. 2:{ intros i Hi%exts_in. apply read_put_info; [by apply (Hu _ Hi)|by apply (Hp _ _ Hi)]. }
  done.
Qed.
Print Assumptions C39_concatenation_is_index.

(** ... marshalling fails exactly when some string is not valid UTF-8 *)
Theorem C39_marshal_fails_iff : ∀ m, marshal m = None ↔ message_utf8 m = false.
Proof. intros []; unfold marshal; cbn [message_utf8]; destruct (_ : bool); split; done. Qed.

(** *** Cut inside a message *)
Lemma get_varint_cut k : ∀ n p r, 0 <= n → put_varint (S k) n = p +:+ r → r ≠ "" → get_varint (S k) p = None.
Proof.
  induction k as [|k IH]; intros n p r Hn E Hr.
  - destruct p as [|c p]; [done|]. exfalso. cbn [put_varint] in E. rewrite app_cons in E.
    destruct (Z.ltb n 128); injection E as _ E; symmetry in E; apply app_eq_nil in E as [_ E]; done.
  - destruct p as [|c p]; [done|]. change (put_varint (S (S k)) n) with
      (if Z.ltb n 128 then String (byte n) "" else String (byte (n mod 128 + 128)) (put_varint (S k) (n / 128))) in E.
    rewrite app_cons in E. destruct (Z.ltb n 128).
    { exfalso. injection E as _ E. symmetry in E. apply app_eq_nil in E as [_ E]. done. }
    injection E as <- E. pose proof (Z.mod_pos_bound n 128 ltac:(lia)).
    change (get_varint (S (S k)) (String ?c ?s)) with
        (if Z.ltb (byte_val c) 128 then Some (byte_val c, s)
         else match get_varint (S k) s with Some (x, r') => Some (byte_val c - 128 + 128 * x, r') | None => None end).
    rewrite byte_val_byte by lia. rewrite (proj2 (Z.ltb_ge (n mod 128 + 128) 128)) by lia.
    rewrite (IH (n / 128) p r); [done|apply Z.div_pos; lia|done|done].
Qed.
Lemma read_varint_cut n p r : 0 <= n → varint n = p +:+ r → r ≠ "" → read_varint p = None.
Proof. apply (get_varint_cut 9). Qed.
(** two ways of splitting a string *)
Lemma split_either (a b p r : string) : a +:+ b = p +:+ r → r ≠ "" →
  (∃ s, a = p +:+ s ∧ s ≠ "") ∨ (∃ s, p = a +:+ s ∧ b = s +:+ r).
Proof.
  revert p. induction a as [|c a IH]; intros p E Hr.
  - right. exists p. split; [done|exact E].
  - destruct p as [|d p]; [left; exists (String c a); done|]. rewrite !app_cons in E. injection E as <- E.
    destruct (IH p E Hr) as [(s & -> & Hs)|(s & -> & Hs)]; [left|right]; exists s; done.
Qed.
Lemma read_field_cut n b p r : 1 <= n < 2 ^ 29 → Z.of_nat (slen b) < 2 ^ 63 →
  put_field (n, WBytes b) = p +:+ r → r ≠ "" → read_field p = None.
Proof.
  intros Hn Hb E Hr. unfold put_field in E. cbn [fst snd] in E. unfold read_field.
  destruct (split_either _ _ _ _ E Hr) as [(s & E1 & Hs)|(s & -> & E1)].
  { rewrite (read_varint_cut (n * 8 + 2) p s); [done|lia|done|done]. }
  rewrite read_put_varint by lia.
  assert ((n * 8 + 2) / 8 = n ∧ (n * 8 + 2) mod 8 = 2) as [-> ->].
  { split; [rewrite Z.add_comm, Z.div_add by lia; rewrite Z.div_small by lia; lia|].
    rewrite Z.add_comm, Z_mod_plus_full. by apply Z.mod_small. }
  destruct (_ || _)%bool; [done|].
  destruct (split_either _ _ _ _ E1 Hr) as [(s' & E2 & Hs)|(s' & -> & E2)].
  { rewrite (read_varint_cut (Z.of_nat (slen b)) s s'); [done|lia|done|done]. }
  rewrite read_put_varint by lia. unfold read_bytes.
  rewrite (proj2 (Z.leb_gt _ _)); [done|]. rewrite E2, slen_app.
  destruct r as [|c r]; [done|]. rewrite slen_cons. lia.
Qed.
Lemma read_fields_cut l p : ∀ fuel, Forall field_ok l → p ≠ "" → read_field p = None →
  read_fields_fuel fuel (put_fields l +:+ p) = None.
Proof.
  induction l as [|f l IH]; intros fuel Hl Hp Hrd.
  - cbn [put_fields]. rewrite app_nil_l. destruct p as [|c p]; [done|]. destruct fuel; cbn [read_fields_fuel]; [done|].
    by rewrite Hrd.
  - apply Forall_cons in Hl as [H1 H2]. cbn [put_fields]. rewrite <- app_assoc.
    destruct (put_field f +:+ (put_fields l +:+ p)) as [|c s] eqn:E.
    { exfalso. apply app_eq_nil in E as [E _]. pose proof (put_field_nonempty f) as H. rewrite E in H. cbn in H. lia. }
    destruct fuel as [|fuel]; [done|]. cbn [read_fields_fuel]. rewrite <- E, read_put_field by done. by rewrite IH.
Qed.

(** C39: output cut inside a message (a crash, a short write) is not accepted as an index *)
Theorem C39_truncated_rejected : ∀ msgs bytes m b cut rest,
  Forall2 (λ m b, marshal m = Some b) msgs bytes → marshal m = Some b → b = cut +:+ rest → cut ≠ "" → rest ≠ "" →
  Z.of_nat (slen (String.concat "" bytes +:+ b)) < 2 ^ 63 →
  read_index (String.concat "" bytes +:+ cut) = None.
Proof.
  intros msgs bytes m b cut rest Hm Hb E Hc Hr Hs. destruct (marshal_all _ _ Hm) as [E' _]. rewrite E' in *.
  apply marshal_field in Hb as [_ Hb]. rewrite slen_app in Hs. unfold read_index, read_fields.
  assert (Hok : Forall field_ok (map message_field msgs)).
  { apply Forall_forall. intros f Hf. pose proof Hf as (m' & -> & _)%elem_of_list_fmap.
    assert (∃ n x, message_field m' = (n, WBytes x) ∧ 1 <= n < 2 ^ 29) as (n & x & E1 & Hn)
      by (destruct m'; do 2 eexists; (split; [reflexivity|lia])).
    rewrite E1 in *. split; [done|]. cbn [fst snd]. eapply small_payload; [|done]. unfold small. lia. }
  assert (∃ n x, message_field m = (n, WBytes x) ∧ 1 <= n < 2 ^ 29) as (n & x & E1 & Hn)
      by (destruct m; do 2 eexists; (split; [reflexivity|lia])).
  rewrite E1 in Hb. cbn [put_fields] in Hb. rewrite app_nil_r in Hb.
  rewrite read_fields_cut; [done|done|done|].
  apply (read_field_cut n x cut rest); [done| |by rewrite <- Hb|done].
  pose proof (payload_length n x) as Hx. rewrite <- Hb in Hx. lia.
Qed.
Print Assumptions C39_truncated_rejected.

(** *** Examples *)
Definition ex_meta : metadata := Meta "file:///src" "scip-go" "v0.1" ["--output"; "-"].
Definition ex_doc : document := Doc "a/b.go"
  [Occ [3; 5; 300] "scip-go gomod m v1 p/F()." 1 [3; 0; 5; 1] []; Occ [4; 1; 2] "local 0" 0 [] [DeprecatedDiag]]
  [Info "scip-go gomod m v1 p/F()." ["doc"] [Rel "x" true true false false] KFunction "F" (Some "func F()") ""].
Definition ex_ext : syminfo := Info "scip-go gomod o v2 q/T#" [] [] KStruct "T" None "".
Definition ex_msgs : list message := [MMeta ex_meta; MDoc ex_doc; MExt ex_ext].
Definition ex_bytes : list string := map (λ m, default "" (marshal m)) ex_msgs.
Lemma ex_marshal : Forall2 (λ m b, marshal m = Some b) ex_msgs ex_bytes.
Proof. repeat constructor; vm_compute; reflexivity. Qed.
Lemma ex_ok : Forall message_ok ex_msgs.
Proof. repeat constructor; cbn; unfold is_int32; lia. Qed.
Example C39_example :
  read_index (String.concat "" ex_bytes) = Some (SIndex ex_meta [ex_doc] [ex_ext]).
Proof. apply (C39_concatenation_is_index _ _ _ ex_marshal ex_ok); [reflexivity|]. vm_compute. reflexivity. Qed.
Example C39_truncated_example : read_index (String.concat "" ex_bytes +:+ str_take 7 (default "" (marshal (MExt ex_ext)))) = None.
Proof.
  eapply (C39_truncated_rejected _ _ (MExt ex_ext) _ _ (str_drop 7 (default "" (marshal (MExt ex_ext)))) ex_marshal);
    [vm_compute; reflexivity|vm_compute; reflexivity|by vm_compute|by vm_compute|vm_compute; reflexivity].
Qed.
(** a file name or comment with an invalid byte makes the whole run fail *)
Example C39_invalid_utf8_example : marshal (MDoc (Doc (String (byte 255) ".go") [] [])) = None.
Proof. reflexivity. Qed.
