(** C85 on the run of ExEnd.v: the project at /src, and at /dst. *)
From Coq Require Import Ascii String.
From stdpp Require Import prelude strings gmap relations sorting.
From Verif Require Import GoStr Scip GoTypes Ast Packages Symbols Document Lookup Pass1 Pass2 Paths Env Loader Index
  SpecSymbol SpecDecl SpecLookup SpecOcc SpecIndex P_Symbols P_Pass1 P_Lookup P_Pass2 P_Occ P_Index PropIndex P_Loader PropLoader
  Output Proto Cli PropCli Options PropPaths PropOptions Url PropUrl
  Quote Fingerprint SpecTypes P_Finger PropFinger Impls P_Rel P_Ident SpecImpl P_Filter P_Mem P_Extract P_Impl PropImpl PropDet PropCross PropPrecise PropFind
  PropModule ExDecl ExOcc ExIndex ExImpl ExDet ExFind Program PropEnd ExEnd P_Once PropOnce ExOnce SpecMove P_Move P_Move2 P_Move3 PropMove SpecElsewhere P_Elsewhere PropElsewhere.
Open Scope string_scope.
Open Scope list_scope.

(** what is below /src is below /dst *)
Definition w_el (s : string) : string :=
  match s with
  | String a (String b (String c (String d r))) =>
      if bool_decide ([a; b; c; d] = ["/"; "s"; "r"; "c"]%char) then "/dst" +:+ r
      else if bool_decide ([a; b; c; d] = ["/"; "d"; "s"; "t"]%char) then "/src" +:+ r else s
  | _ => s
  end.
Lemma w_el_twice s : w_el (w_el s) = s.
Proof.
  destruct s as [|a [|b [|c [|d r]]]]; try done. cbn [w_el]. destruct (bool_decide_reflect ([a; b; c; d] = ["/"; "s"; "r"; "c"]%char)) as [[= -> -> -> ->]|H1]; [done|].
  destruct (bool_decide_reflect ([a; b; c; d] = ["/"; "d"; "s"; "t"]%char)) as [[= -> -> -> ->]|H2]; [done|]. cbn [w_el]. by rewrite !bool_decide_eq_false_2.
Qed.
Lemma w_el_inj a b : w_el a = w_el b → a = b.
Proof. intros E. rewrite <-(w_el_twice a), <-(w_el_twice b). by rewrite E. Qed.
Definition w_fs : fset := FSet (λ z, let p := fs_position x_fs z in Position (w_el (pos_file p)) (pos_line p) (pos_col p)) (λ z, w_el <$> fs_file x_fs z).
Definition w_machine : machine := Machine (Some "/dst") (CmdResult ("/dst" +:+ text_nl) true)
  (λ p, if String.eqb p "/dst/go.mod" then StatFound else StatNotExist) (λ d, CmdResult "" false)
  (λ d, CmdResult ("v1.0.0" +:+ text_nl) true) (λ d, CmdResult "" false) (λ d, CmdResult "{json}" true)
  (λ s, if String.eqb s "{json}" then Some (Some "1.22") else None)
  (λ p, if String.eqb p "/dst/go.mod" then Parsed (Some "ex.org") else NoFile) (λ p, Some p) None ["index"].
Definition w_surroundings : surroundings := Surroundings w_machine e_world (λ _, inr (el_heap w_el e_h0, [1])) 9 w_fs y_env y_mset w_cok w_level y_scope
  (λ o, o_name o) x_u w_crc p_digest e_it' no_errors (λ _, "...") "v0.1.26".
Definition w_o : index_opts := IOpts "/dst" "v1.0.0" "ex.org" "go1.22" false false false ["index"].
Definition w_ro : run_opts := ROpts w_o false ["./..."].
Lemma w_options o : make_options w_machine no_flags = Ok (Some o) → o = w_ro.
Proof. intros E. vm_compute in E. by injection E as <-. Qed.
Lemma w_file q p f : e_h0 !! q = Some p → f ∈ p_syntax p → f = y_file.
Proof. intros Hq Hf. destruct (e_heap0 _ _ Hq) as [[-> ->]|[-> ->]]; [by apply elem_of_list_singleton in Hf|by apply elem_of_nil in Hf]. Qed.
Lemma w_same : same_elsewhere w_el e_surroundings w_surroundings no_flags no_flags.
Proof.
  assert (Hr : ∀ o, make_options e_machine no_flags = Ok (Some o) → ro_index o = e_o) by exact e_options.
  split; try reflexivity.
  - intros o o' Ho Ho'. rewrite (Hr o Ho), (w_options o' Ho'). repeat split.
  - intros o o' h0 roots Ho Ho' [= <- <-]. rewrite (Hr o Ho), (w_options o' Ho'). split; [split|].
    + apply w_el_inj.
    + reflexivity.
    + intros q p f n Hq Hf. rewrite (w_file q p f Hq Hf). vm_compute. by intros [= <-].
    + intros q p f Hq Hf. rewrite (w_file q p f Hq Hf). vm_compute. done.
    + intros q p m Hq Hm. destruct (e_heap0 _ _ Hq) as [[-> ->]|[-> ->]]; [|done]. injection Hm as <-. vm_compute. done.
  - by split.
Qed.
Lemma w_load : load_packages w_o e_world 9 (el_heap w_el e_h0) [1] (el_heap w_el e_h) e_all e_proj.
Proof.
  apply (here_load w_el e_surroundings w_surroundings no_flags no_flags w_same e_ro w_ro e_h0 [1] e_h e_all e_proj); [vm_compute; reflexivity|vm_compute; reflexivity|reflexivity|apply e_load].
Qed.
Lemma w_maps : maps_iterate w_surroundings no_flags.
Proof.
  intros o h0 roots h all proj Eo [= <- <-] Hl. pose proof (w_options _ Eo) as ->.
  apply (here_load_back w_el e_surroundings w_surroundings no_flags no_flags w_same e_ro w_ro e_h0 [1]) in Hl as (h1 & -> & Hl); [|vm_compute; reflexivity|vm_compute; reflexivity|reflexivity].
  destruct (e_loads _ _ _ Hl) as (-> & -> & ->).
  destruct e_iteration' as (I1 & [I2 I2'] & I3). split; [exact I1|]. split; [|exact I3]. split; [exact I2|].
  intros q p ti ob Hq Hp. rewrite el_hl in Hq. destruct (e_h !! q) as [p0|] eqn:Eq; [|done]. injection Hq as <-.
  assert (Ep : p_info p0 = Some ti) by exact Hp. cbn [w_surroundings su_iteration e_it' it_search].
  assert (Eor : or_defs y_o' (el_pkg w_el p0) = or_defs y_o' p0) by (cbn; by rewrite Ep). rewrite Eor. by apply (I2' q p0 ti).
Qed.
Definition w_result : ftree * string * cli_end :=
  index_cmd no_errors (λ _, "...") None (program_run w_surroundings w_ro (el_heap w_el e_h) (LoadOk e_all e_proj)) "index.scip" x_tree.
Lemma w_go : scip_go w_surroundings no_flags "index.scip" x_tree w_result.
Proof.
  apply (sg_index w_surroundings no_flags "index.scip" x_tree w_ro (el_heap w_el e_h) (LoadOk e_all e_proj)); [vm_compute; reflexivity|].
  eapply loads_ok; [reflexivity|]. apply w_load.
Qed.
Lemma w_size c : w_result.1.1 !! "index.scip" = Some (FReg c) → (Z.of_nat (slen c) < 2 ^ 63)%Z.
Proof.
  assert (H : match w_result.1.1 !! "index.scip" with Some (FReg c) => Z.ltb (Z.of_nat (slen c)) (2 ^ 63) | _ => false end = true) by (vm_compute; reflexivity).
  intros E. rewrite E in H. by apply Z.ltb_lt.
Qed.
Lemma w_exit : w_result.2 = Exit 0 None.
Proof. vm_compute. reflexivity. Qed.
(** the files and the project roots in the metadata differ *)
Example C85_files_differ : e_result.1.1 !! "index.scip" ≠ w_result.1.1 !! "index.scip" ∧
  (md_root (index_metadata "v" e_o), md_root (index_metadata "v" w_o)) = ("file:///src", "file:///dst").
Proof.
  split; [|vm_compute; reflexivity].
  assert (H : match w_result.1.1 !! "index.scip" with Some (FReg c') => match e_result.1.1 !! "index.scip" with Some (FReg c) => String.eqb c c' | _ => true end | _ => true end = false)
    by (vm_compute; reflexivity).
  intros E. rewrite E in H. revert H. generalize (w_result.1.1 !! "index.scip"). intros [[c| | |]|] H; try discriminate H. rewrite String.eqb_refl in H. discriminate H.
Qed.
Example C85_example : ∃ c c' ix ix', e_result.1.1 !! "index.scip" = Some (FReg c) ∧ w_result.1.1 !! "index.scip" = Some (FReg c') ∧
  read_index c = Some ix ∧ read_index c' = Some ix' ∧ Forall2 same_document (si_docs ix) (si_docs ix') ∧ si_exts ix ≡ₚ si_exts ix'.
Proof.
  refine (C85_same_documents w_el e_surroundings w_surroundings no_flags no_flags "index.scip" "index.scip" x_tree x_tree "index.scip" "index.scip" e_result.1.1 w_result.1.1 e_result.1.2 w_result.1.2
    w_same e_works e_builds w_maps _ _ _ _ e_size w_size).
  - apply plain_regular. split; [done|]. right. by eexists.
  - apply plain_regular. split; [done|]. right. by eexists.
  - pose proof e_scip_go as H. rewrite <- e_exit. by destruct e_result as [[]].
  - pose proof w_go as H. rewrite <- w_exit. by destruct w_result as [[]].
Qed.
(** each has a document, of p.go *)
Definition w_read (f : option fnode) : option (list string * string) :=
  match f with Some (FReg c) => match read_index c with Some ix => Some (map d_path (si_docs ix), md_root (si_meta ix)) | None => None end | _ => None end.
Example C85_not_empty : w_read (w_result.1.1 !! "index.scip") = Some (["p.go"], "file:///dst") ∧ w_read (e_result.1.1 !! "index.scip") = Some (["p.go"], "file:///src").
Proof. split; vm_compute; reflexivity. Qed.
