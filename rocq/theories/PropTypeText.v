(** C62: the type in a signature text is written by the grammar of the Go language specification. *)
From Coq Require Import Ascii String.
From stdpp Require Import prelude strings.
From Verif Require Import GoStr Document Quote PropQuote Signature PropSig SpecTypeText.
Open Scope string_scope.
Open Scope list_scope.

Lemma separated_concat sep l : separated sep l (String.concat sep l).
Proof.
  induction l as [|a [|b l] IH]; [constructor|constructor|].
  change (String.concat sep (a :: b :: l)) with (a +:+ sep +:+ String.concat sep (b :: l)). by constructor.
Qed.
Lemma type_name_write own n : own ≠ Some unsafe_pkg → type_name own n (write_name (relative_qualifier own) n).
Proof.
  intros Ho. destruct n as [[p|] n]; [|constructor]. unfold write_name, prefix_of, relative_qualifier. cbn [hn_pkg hn_name].
  destruct (decide (own = Some p)) as [E|E]; [by apply tn_own|].
  destruct (String.eqb_spec (hp_name p) "") as [En|En]; [by apply tn_nameless|]. rewrite <- app_assoc. by apply tn_other.
Qed.

Section Proof.
  Context (quote : string → string) (own : option hpkg) (Ho : own ≠ Some unsafe_pkg).
  Notation wr := (write quote (relative_qualifier own)).
  Notation gt := (go_type quote own).
  Definition good (t : hty) : Prop := writable t → gt t (wr false t) ∧
    (∀ tps ps rs v, t = HSig tps ps rs v → go_signature quote own t (wr true t)).

  Lemma all_good l : Forall good l →
    (fix all (l : list hty) : Prop := match l with [] => True | t :: l => writable t ∧ all l end) l →
    Forall2 gt l (map (wr false) l).
  Proof.
    induction 1 as [|t l Ht Hl IH]; intros H; [constructor|]. destruct H as [H1 H2]. constructor; [by apply Ht|by apply IH].
  Qed.
  Lemma allp_good {A} (l : list (A * hty)) : Forall (λ x, good x.2) l →
    (fix allp {A} (l : list (A * hty)) : Prop := match l with [] => True | (_, t) :: l => writable t ∧ allp l end) A l →
    Forall (λ x, gt x.2 (wr false x.2) ∧ (∀ tps ps rs v, x.2 = HSig tps ps rs v → go_signature quote own x.2 (wr true x.2))) l.
  Proof.
    induction 1 as [|[a t] l Ht Hl IH]; intros H; [constructor|]. destruct H as [H1 H2]. constructor; [by apply Ht|by apply IH].
  Qed.
  Lemma Forall2_map_l {A} (R : A → string → Prop) (f : A → string) l : Forall (λ x, R x (f x)) l → Forall2 R l (map f l).
  Proof. induction 1; constructor; done. Qed.

  Lemma param_ok n t : gt t (wr false t) → go_param quote own (n, t) (label n +:+ wr false t).
  Proof. intros H. unfold label. destruct (String.eqb_spec n "") as [->|Hn]; [by constructor|]. rewrite <- app_assoc. by constructor. Qed.
  Lemma params_ok (l : list (string * hty)) : Forall (λ x, gt x.2 (wr false x.2)) l →
    Forall2 (go_param quote own) l (map (λ p : string * hty, label p.1 +:+ wr false p.2) l).
  Proof. intros H. apply Forall2_map_l. eapply Forall_impl; [exact H|]. intros [n t] Ht. by apply param_ok. Qed.

  (** the parameters as the printer goes through them *)
  Notation params v := (fix params (l : list (string * hty)) : list string :=
            match l with
            | [] => []
            | p :: l' =>
                (label p.1 +:+
                 (if (v && match l' with [] => true | _ => false end)%bool
                  then match p.2 with
                       | HSlice e => "..." +:+ wr false e
                       | _ => wr false p.2 +:+ "..."
                       end
                  else wr false p.2)) :: params l'
            end).
  Lemma params_plain l : params false l = map (λ p : string * hty, label p.1 +:+ wr false p.2) l.
  Proof. induction l as [|p l IH]; [done|]. cbn [map]. rewrite <- IH. done. Qed.
  Lemma params_last l n e : params true (l ++ [(n, HSlice e)]) =
    map (λ p : string * hty, label p.1 +:+ wr false p.2) l ++ [label n +:+ "..." +:+ wr false e].
  Proof.
    induction l as [|p l IH]; [done|]. cbn [map app]. rewrite <- IH. destruct l; done.
  Qed.
  Lemma gt_slice_inv e : gt (HSlice e) (wr false (HSlice e)) → gt e (wr false e).
  Proof. intros H. inversion H; by subst. Qed.

  Lemma go_params_ok ps v : Forall (λ x, gt x.2 (wr false x.2)) ps → (v = true → ∃ l n e, ps = l ++ [(n, HSlice e)]) →
    go_params quote own ps v ("(" +:+ String.concat ", " (params v ps) +:+ ")").
  Proof.
    intros H Hv. destruct v.
    - destruct (Hv eq_refl) as (l & n & e & ->). apply Forall_app in H as [H1 H2]. inversion H2 as [|x y Hx _]; subst. cbn in Hx.
      rewrite params_last. eapply gps_variadic; [by apply params_ok| |apply separated_concat].
      unfold label. destruct (String.eqb_spec n "") as [->|Hn]; [constructor; by apply gt_slice_inv|].
      rewrite <- app_assoc. apply (gv_named quote own n e); [by apply gt_slice_inv|done].
    - rewrite params_plain. econstructor; [by apply params_ok|apply separated_concat].
  Qed.

  Lemma type_params_ok tps : Forall (λ x : list string * hty, gt x.2 (wr false x.2)) tps →
    Forall2 (go_type_params quote own) tps (map (λ p : list string * hty, String.concat ", " p.1 +:+ " " +:+ wr false p.2) tps).
  Proof. intros H. apply Forall2_map_l. eapply Forall_impl; [exact H|]. intros [n t] Ht. constructor; [apply separated_concat|done]. Qed.

  Lemma results_ok rs : Forall (λ x, gt x.2 (wr false x.2)) rs →
    go_results quote own rs (match rs with
         | [] => ""
         | r :: rs' =>
             if (String.eqb r.1 "" && match rs' with [] => true | _ => false end)%bool
             then " " +:+ wr false r.2
             else " (" +:+ String.concat ", " (map (λ p : string * hty, label p.1 +:+ wr false p.2) rs) +:+ ")"
         end).
  Proof.
    intros H. destruct rs as [|[n t] rs]; [constructor|]. cbn [fst snd].
    destruct (String.eqb_spec n "") as [->|Hn], rs as [|r rs]; cbn [andb].
    - inversion H; subst. by constructor.
    - change (" (" +:+ ?x) with (" " +:+ "(" +:+ x). apply grs; [done|done|]. econstructor; [by apply params_ok|apply separated_concat].
    - change (" (" +:+ ?x) with (" " +:+ "(" +:+ x). apply grs; [done|intros t' [= E]; done|]. econstructor; [by apply params_ok|apply separated_concat].
    - change (" (" +:+ ?x) with (" " +:+ "(" +:+ x). apply grs; [done|done|]. econstructor; [by apply params_ok|apply separated_concat].
  Qed.

  Lemma write_good t : good t.
  Proof.
    induction t using hty_ind'; intros Hw.
    - split; [|done]. cbn [write]. destruct (String.eqb_spec n "Pointer") as [->|Hn]; [|by constructor].
      unfold write_name, prefix_of, relative_qualifier. cbn [hn_pkg hn_name]. rewrite decide_False by done. apply gt_unsafe_pointer.
    - split; [|done]. cbn [writable] in Hw. destruct Hw as [-> Hw]. cbn [write]. destruct l as [|a l].
      + rewrite app_nil_r. constructor. by apply type_name_write.
      + eapply gt_instance; [by apply type_name_write|done|by apply all_good|apply separated_concat].
    - split; [|done]. constructor. by apply IHt.
    - split; [|done]. constructor. by apply IHt.
    - split; [|done]. constructor. by apply IHt.
    - split; [|done]. destruct Hw. constructor; [by apply IHt1|by apply IHt2].
    - split; [|done]. destruct Hw as [Hd Hw]. destruct (IHt Hw) as [H _]. destruct d as [|[|[|]]]; [| | |lia]; cbn [write].
      + destruct (is_recv_chan t) eqn:E.
        * apply gt_chan_of_receive; [done|]. destruct t as [| | | | | |[|[|[|]]] e| | | | | | |]; try done. by eexists.
        * apply gt_chan; [done|]. intros [e ->]. done.
      + by constructor.
      + by constructor.
    - split; [|done]. cbn [writable] in Hw. cbn [write]. eapply gt_struct; [|apply separated_concat]. apply Forall2_map_l.
      pose proof (allp_good _ H Hw) as G. eapply Forall_impl; [exact G|]. intros [[[n b] tag] t] [Ht _]. cbn [fst snd] in *.
      destruct b, (String.eqb_spec tag "") as [->|Htag]; rewrite ?app_nil_r, ?app_nil_l.
      + by constructor.
      + by apply gf_embedded_tag.
      + rewrite <- app_assoc. by constructor.
      + rewrite <- app_assoc. by apply gf_named_tag.
    - cbn [writable] in Hw. destruct Hw as (W1 & W2 & W3 & Wv).
      pose proof (allp_good _ H W1) as G1. pose proof (allp_good _ H0 W2) as G2. pose proof (allp_good _ H1 W3) as G3.
      assert (G : go_signature quote own (HSig tps ps rs v) (wr true (HSig tps ps rs v))).
      { cbn [write]. rewrite app_nil_l. 
        match goal with |- go_signature _ _ _ (_ +:+ ?a) => idtac end.
        assert (Gp : go_params quote own ps v ("(" +:+ String.concat ", " (params v ps) +:+ ")")).
        { apply go_params_ok; [|done]. eapply Forall_impl; [exact G2|]. by intros ? [? _]. }
        pose proof (results_ok rs) as Gr. feed specialize Gr; [eapply Forall_impl; [exact G3|]; by intros ? [? _]|].
        destruct tps as [|tp tps].
        - rewrite app_nil_l. pose proof (gs quote own _ _ _ _ _ Gp Gr) as K. rewrite <- !app_assoc in K. exact K.
        - pose proof (gs_generic quote own (tp :: tps) ps rs v _ _ _ _ ltac:(done) (type_params_ok (tp :: tps) ltac:(eapply Forall_impl; [exact G1|]; by intros ? [? _])) (separated_concat _ _) Gp Gr) as K.
          rewrite <- !app_assoc in K. rewrite <- !app_assoc. exact K. }
      split; [|by intros]. change (wr false (HSig tps ps rs v)) with ("func" +:+ wr true (HSig tps ps rs v)). by constructor.
    - split; [|done]. cbn [writable] in Hw. destruct Hw as (Hb & Hm & W1 & W2). pose proof (allp_good _ H W1) as G1. pose proof (all_good _ H0 W2) as G2.
      cbn [write]. destruct b.
      + destruct (Hb eq_refl) as [-> (e & ->)]. constructor. by inversion G2.
      + eapply gt_interface; [|exact G2|apply separated_concat]. apply Forall2_map_l.
        apply Forall_forall. intros [n t] Hin. pose proof (proj1 (Forall_forall _ _) G1 _ Hin) as [_ G]. cbn [fst snd] in *.
        destruct (Hm _ Hin) as (? & ? & ? & ? & E). cbn in E. constructor. by eapply G.
    - split; [|done]. constructor.
    - split; [|done]. constructor.
    - split; [|done]. constructor.
    - split; [|done]. cbn [writable] in Hw. cbn [write]. eapply gt_union; [|apply separated_concat]. apply Forall2_map_l.
      pose proof (allp_good _ H Hw) as G. eapply Forall_impl; [exact G|]. intros [b t] [Ht _]. cbn [fst snd] in *. destruct b; [by constructor|].
      rewrite app_nil_l. by constructor.
  Qed.
End Proof.

(** C62: in the signatures of C62_values and C62_types, types are written by the Go grammar, own types bare and the
    others behind their package's name. *)
Theorem C62_type_texts : ∀ quote own t, own ≠ Some unsafe_pkg → writable t →
  go_type quote own t (written quote own t) ∧
  (∀ tps ps rs v, t = HSig tps ps rs v → go_signature quote own t (written_sig quote own t)).
Proof.
  intros quote own t Ho Hw. destruct (write_good quote own Ho t Hw) as [H1 H2].
  assert (Ht : type_string quote (relative_qualifier own) t = written quote own t) by by apply write_written.
  assert (Hs : write quote (relative_qualifier own) true t = written_sig quote own t) by by apply write_written.
  rewrite <- Ht, <- Hs. done.
Qed.
Print Assumptions C62_type_texts.

(** chan<- map[string]*q.T[int] in a method's parameters, in package p *)
Example C62_type_texts_ex : let t := HInterface false [("M", HSig [] [("", HChan 1 (HMap (HBasic "string") (HPointer (HNamed (HName (Some x_q) "T") [HBasic "int"] []))))] [] false)] [x_T] in
  writable t ∧ Some x_own ≠ Some unsafe_pkg ∧ written x_quote (Some x_own) t = "interface{M(chan<- map[string]*q.T[int]); T}".
Proof.
  split; [|split; [done|vm_compute; reflexivity]]. cbn. split_and!; try done; try lia.
  intros m Hm. apply elem_of_list_singleton in Hm as ->. by eexists _, _, _, _.
Qed.
