(** * Proofs: comments in whole runs *)
From Verif Require Import Base PyNum PyStr Ast Size Processor Bundle Sorter CCommon GenCfs GenC GenBinary GenCosmos Main
  Lib_proofs Str_proofs Spec_Enum Spec_Check Spec_Header Enum_proofs Check_proofs Bundle_proofs
  Spec_Plain Plain_proofs Plain_files_proofs.
Open Scope string_scope.
Open Scope list_scope.

(** ** The modules of a bundle show no other comments than the input *)

Lemma enumerated_shown : forall l l', check_enumerated l = Ok l' ->
  incl (flat_map (fun e => opt_list (e_comment e)) l') (flat_map (fun e => opt_list (e_comment e)) l).
Proof.
  intros l l' H x X. apply enum_accepted, renumbered_labels in H. apply in_flat_map in X. destruct X as (e & E & X).
  assert (L : In (label e) (map label l)) by (apply (Permutation_in _ (Permutation_sym H)); apply in_map; exact E).
  apply in_map_iff in L. destruct L as (e0 & Q & L). apply in_flat_map. exists e0. split; [exact L|].
  unfold label in Q. injection Q as _ Q. rewrite Q. exact X.
Qed.

Lemma definition_shown : forall d d', process_definition d = Ok d' -> incl (shown_in d') (shown_in d).
Proof.
  intros [n c l|n c l|n c l|n t c] d' H; cbn [process_definition] in H.
  - apply bind_ok in H. destruct H as (_ & _ & H). apply bind_ok in H. destruct H as (_ & _ & H). injection H as <-. apply incl_refl.
  - apply bind_ok in H. destruct H as (_ & _ & H). apply bind_ok in H. destruct H as (_ & _ & H). injection H as <-. apply incl_refl.
  - apply bind_ok in H. destruct H as (_ & _ & H). apply bind_ok in H. destruct H as (_ & _ & H). apply bind_ok in H. destruct H as (l' & E & H).
    injection H as <-. cbn [shown_in]. apply incl_app; [apply incl_appl; apply incl_refl|]. apply incl_appr. apply enumerated_shown. exact E.
  - apply bind_ok in H. destruct H as (_ & _ & H). apply bind_ok in H. destruct H as (_ & _ & H). apply bind_ok in H. destruct H as (_ & _ & H).
    apply bind_ok in H. destruct H as (_ & _ & H). injection H as <-. apply incl_refl.
Qed.

Lemma parsed_shown : forall m p, parse_module m = Ok p -> mod_name p = mod_name m /\ incl (shown p) (shown m).
Proof.
  intros m p H. unfold parse_module in H.
  apply bind_ok in H. destruct H as (_ & _ & H). apply bind_ok in H. destruct H as (_ & _ & H).
  apply bind_ok in H. destruct H as (_ & _ & H). apply bind_ok in H. destruct H as (defs & D & H). cbv zeta in H.
  apply bind_ok in H. destruct H as (_ & _ & H). injection H as <-. split; [reflexivity|]. unfold shown. simpl.
  apply incl_app; [apply incl_appl; apply incl_refl|]. apply incl_appr. apply incl_app; [apply incl_appl; apply incl_refl|]. apply incl_appr.
  intros x X. apply in_flat_map in X. destruct X as (d' & I & X). apply map_result_ok in D.
  destruct (Forall2_in_r _ _ _ _ _ _ D I) as (d & I' & P). apply in_flat_map. exists d. split; [exact I'|]. exact (definition_shown _ _ P x X).
Qed.

Definition from_input (input : list module) (b : bundle) : Prop :=
  forall bm, In bm (b_modules b) -> exists m, In m input /\ mod_name m = bm_name bm /\ incl (shown (bm_mod bm)) (shown m).

Lemma built_from_input : forall input ms b, parse_modules input = Ok ms -> build ms = Ok b -> from_input input b.
Proof.
  intros input ms b P B bm I. apply build_modules in B. unfold all_modules in B.
  assert (I' : In (bm_mod bm) ms) by (rewrite <- B; apply in_map; exact I).
  apply map_result_ok in P. destruct (Forall2_in_r _ _ _ _ _ _ P I') as (m & M & Q). apply parsed_shown in Q. destruct Q as (N & S).
  exists m. split; [exact M|]. split; [symmetry; exact N|exact S].
Qed.

Lemma config_from_input : forall names input b, build_from_config names input = Ok b -> from_input input b.
Proof.
  intros names input b H. unfold build_from_config in H. apply bind_ok in H. destruct H as (ms & P & H). apply bind_ok in H. destruct H as (_ & _ & H).
  apply bind_ok in H. destruct H as (b0 & B & H). apply bind_ok in H. destruct H as (_ & _ & H). apply bind_ok in H. destruct H as (_ & _ & H).
  injection H as <-. exact (built_from_input _ _ _ P B).
Qed.
Lemma cosmos_from_input : forall input b, build_from_cosmos_config input = Ok b -> from_input input b.
Proof.
  intros input b H. unfold build_from_cosmos_config in H. apply bind_ok in H. destruct H as (ms & P & H).
  apply bind_ok in H. destruct H as (b0 & B & H). apply bind_ok in H. destruct H as (_ & _ & H). injection H as <-.
  exact (built_from_input _ _ _ P B).
Qed.

Lemma built_clean : forall input ms, parse_modules input = Ok ms -> Forall (fun m => Forall clean (module_comments m)) input.
Proof.
  intros input ms P. apply map_result_ok in P. apply Forall_forall. intros m I. destruct (Forall2_in_l _ _ _ _ _ _ P I) as (p & _ & Q).
  exact (parsed_clean _ _ Q).
Qed.

(** ** Ordered modules are modules of the bundle *)

Lemma remove_nth_incl : forall A (l : list A) n, incl (remove_nth n l) l.
Proof.
  intros A. induction l as [|a l IH]; intros [|n] x X; simpl in *; auto. destruct X as [->|X]; auto. right. exact (IH n x X).
Qed.
Lemma order_pass_in : forall n i st st', order_pass n i st = Ok st' ->
  incl (os_list st' ++ os_order st') (os_list st ++ os_order st).
Proof.
  induction n as [|n IH]; intros i st st' H; cbn [order_pass] in H; [injection H as <-; apply incl_refl|].
  destruct (nth_error (os_names st) i) as [name|]; [|injection H as <-; apply incl_refl]. destruct (mem name (os_imports st)); [exact (IH _ _ _ H)|].
  destruct (nth_error (os_list st) i) as [m|] eqn:E; [|discriminate H]. cbv zeta in H. apply IH in H. intros x X. apply H in X. cbn [os_list os_order] in X.
  apply in_app_or in X. apply in_or_app. destruct X as [X|X]; [left; exact (remove_nth_incl _ _ _ x X)|]. apply in_app_or in X.
  destruct X as [X|[<-|[]]]; [right; exact X|left; exact (nth_error_In _ _ E)].
Qed.
Lemma order_loop_in : forall fuel st l, order_loop fuel st = Ok l -> incl l (os_list st ++ os_order st).
Proof.
  induction fuel as [|fuel IH]; intros st l H; cbn [order_loop] in H; destruct (os_list st) as [|m r] eqn:E; try discriminate H;
    try (injection H as <-; apply incl_refl).
  apply bind_ok in H. destruct H as (st' & P & H). apply order_pass_in in P. rewrite E in P. intros x X. apply P. exact (IH _ _ H x X).
Qed.
Lemma ordered_modules_in : forall fuel b l, get_modules_ordered fuel b = Ok l -> incl l (b_modules b).
Proof. intros fuel b l H x X. apply order_loop_in in H. apply H in X. simpl in X. rewrite app_nil_r in X. exact X. Qed.

(** ** cfs, c and binary *)

Definition rrel {A B} (R : A -> B -> Prop) (r : result A) (s : result B) : Prop :=
  match r, s with
  | Ok a, Ok b => R a b
  | Err e, Err e' => e = e'
  | OutOfFuel, OutOfFuel => True
  | _, _ => False
  end.

Lemma for_modules_rel : forall R (f f' : bmodule -> result (list file)) l w w',
  (forall bm, In bm l -> rrel (Forall2 R) (f' (plain_bm bm)) (f bm)) -> Forall2 R w' w ->
  Forall2 R (fst (for_modules f' (map plain_bm l) w')) (fst (for_modules f l w))
  /\ snd (for_modules f' (map plain_bm l) w') = snd (for_modules f l w).
Proof.
  intros R f f'. induction l as [|bm l IH]; intros w w' H W; [simpl; auto|]. cbn [map for_modules].
  pose proof (H bm (or_introl eq_refl)) as E. unfold rrel in E.
  destruct (f' (plain_bm bm)) as [fs'|e'|], (f bm) as [fs|e|]; try contradiction E; [|subst e'; simpl; auto|simpl; auto].
  apply IH; [intros x X; apply H; right; exact X|]. apply Forall2_app; [exact W|exact E].
Qed.

Lemma dict_set_rel : forall (R : string * string -> string * string -> Prop), (forall f f', R f f' -> fst f = fst f') ->
  forall f f' fs fs', R f f' -> Forall2 R fs fs' -> Forall2 R (folder_write f fs) (folder_write f' fs').
Proof.
  intros R N f f' fs fs' H F. unfold folder_write. rewrite <- (N _ _ H).
  assert (E : forall g : string * string, (fst g, snd g) = g) by (intros [? ?]; reflexivity).
  induction F as [|[k v] [k' v'] fs fs' Q F IH]; cbn [dict_set].
  - constructor; [|constructor]. rewrite (N _ _ H) at 2. rewrite !E. exact H.
  - pose proof (N _ _ Q) as Q'. cbn [fst] in Q'. subst k'. destruct (String.eqb (fst f) k).
    + constructor; [|exact F]. rewrite (N _ _ H) at 2. rewrite !E. exact H.
    + constructor; [exact Q|exact IH].
Qed.
Lemma write_all_rel : forall (R : string * string -> string * string -> Prop), (forall f f', R f f' -> fst f = fst f') ->
  forall l l', Forall2 R l l' -> forall fs fs', Forall2 R fs fs' -> Forall2 R (folder_write_all l fs) (folder_write_all l' fs').
Proof.
  intros R N l l' H. induction H as [|f f' l l' Q H IH]; intros fs fs' F; [exact F|]. cbn. apply IH. apply dict_set_rel; assumption.
Qed.

Lemma same_name : forall cmd input f f', same_but_comments cmd input f f' -> fst f = fst f'.
Proof. intros cmd input f f' H. exact (proj1 H). Qed.
Lemma same_refl : forall cmd input f, same_but_comments cmd input f f.
Proof. intros cmd input f. split; [reflexivity|left; reflexivity]. Qed.
Lemma same_folder_refl : forall cmd input fs, Forall2 (same_but_comments cmd input) fs fs.
Proof. intros cmd input. induction fs as [|f fs IH]; constructor; [apply same_refl|exact IH]. Qed.

Lemma cfs_silent : forall n m c, cfs_with_components n m = Ok c -> silent c.
Proof.
  intros n m c H. unfold cfs_with_components in H. destruct (m_with m) as [w|]; [|injection H as <-; split; reflexivity].
  apply bind_ok in H. destruct H as (ds & _ & H). injection H as <-. split; reflexivity.
Qed.
Lemma c_silent : forall mn n m c, c_with_components mn n m = Ok c -> silent c.
Proof. intros mn n m c H. unfold c_with_components in H. destruct (m_with m) as [w|]; injection H as <-; split; reflexivity. Qed.
Lemma bin_silent : forall fuel e defs p n m c, bin_with_components fuel e defs p n m = Ok c -> silent c.
Proof.
  intros fuel e defs p n m c H. unfold bin_with_components in H. destruct (m_with m) as [w|]; [|injection H as <-; split; reflexivity].
  apply bind_ok in H. destruct H as (s & _ & H). apply bind_ok in H. destruct H as (bs & _ & H). injection H as <-. split; reflexivity.
Qed.

Definition no_cosmos (cmd : command) : Prop := match cmd with GenerateCosmos _ _ _ => False | _ => True end.

Lemma same_shown : forall cmd input m f t t', no_cosmos cmd -> In m input -> shows cmd (mod_name m) f -> commented (shown m) t t' ->
  same_but_comments cmd input (f, t) (f, t').
Proof. intros cmd input m f t t' N I S C. split; [reflexivity|]. right. destruct cmd; [destruct N|..]; exists m; auto. Qed.

Section Modules.
Variables (fuel : nat) (input : list module) (b : bundle).
Hypothesis FROM : from_input input b.

Lemma rrel_bind : forall (R : list file -> list file -> Prop) (r : result cdata) (p : cdata -> list file),
  (forall c, r = Ok c -> R (p (plain_cdata c)) (p c)) -> rrel R (let* c := rmap plain_cdata r in Ok (p c)) (let* c := r in Ok (p c)).
Proof. intros R [c|e|] p H; simpl; auto. Qed.

Lemma cfs_modules : forall names bm, In bm (b_modules b) ->
  rrel (Forall2 (same_but_comments (GenerateCfs names) input)) (cfs_module fuel (plain_bundle b) (plain_bm bm)) (cfs_module fuel b bm).
Proof.
  intros names bm I. unfold cfs_module, cfs_cdata. change (cfs_note (plain_bundle b)) with (cfs_note b).
  rewrite (plain_module_cdata (cfs_note b) cfs_with_components cfs_with_components plain_cfs_with).
  change (bm_name (plain_bm bm)) with (bm_name bm). refine (rrel_bind _ _ (fun c => _) _). intros c H.
  destruct (FROM bm I) as (m & M & N & S). pose proof (module_said (shown m) _ cfs_silent _ _ _ _ _ _ S H) as D.
  unfold print_to_file. simpl. constructor; [|constructor; [|constructor]].
  - apply (same_shown _ _ m); [exact Logic.I|exact M| |apply commented_header; exact D]. left. rewrite N. unfold msg_filename. simpl. 
    rewrite <- string_app_assoc. reflexivity.
  - apply same_refl.
Qed.

Lemma c_modules : forall names bm, In bm (b_modules b) ->
  rrel (Forall2 (same_but_comments (GenerateC names) input)) (c_module fuel (plain_bundle b) (plain_bm bm)) (c_module fuel b bm).
Proof.
  intros names bm I. unfold c_module, c_cdata. change (bm_name (plain_bm bm)) with (bm_name bm).
  rewrite (plain_module_cdata c_note (c_with_components (bm_name bm)) (c_with_components (bm_name bm)) (plain_c_with (bm_name bm))).
  refine (rrel_bind _ _ (fun c => _) _). intros c H.
  destruct (FROM bm I) as (m & M & N & S). pose proof (module_said (shown m) _ (c_silent (bm_name bm)) _ _ _ _ _ _ S H) as D.
  unfold print_to_file. simpl. constructor; [|constructor; [|constructor]].
  - apply (same_shown _ _ m); [exact Logic.I|exact M| |apply commented_header; exact D]. left. rewrite N. reflexivity.
  - apply (same_shown _ _ m); [exact Logic.I|exact M| |apply commented_source; exact D]. right. exists names. rewrite N. split; reflexivity.
Qed.

Lemma binary_modules : forall names e bm, In bm (b_modules b) ->
  rrel (Forall2 (same_but_comments (GenerateBinary names e) input)) (bin_module fuel e (plain_bundle b) (plain_bm bm)) (bin_module fuel e b bm).
Proof.
  intros names e bm I. unfold bin_module, bin_cdata. change (bm_name (plain_bm bm)) with (bm_name bm).
  rewrite plain_all_defs. change (bm_mod (plain_bm bm)) with (plain (bm_mod bm)).
  rewrite (plain_module_cdata bin_note (bin_with_components fuel e (all_defs b) (bm_mod bm)) _ (plain_bin_with fuel e (all_defs b) (bm_mod bm))).
  refine (rrel_bind _ _ (fun c => _) _). intros c H.
  destruct (FROM bm I) as (m & M & N & S). pose proof (module_said (shown m) _ (bin_silent fuel e (all_defs b) (bm_mod bm)) _ _ _ _ _ _ S H) as D.
  unfold print_to_file. simpl. constructor; [|apply same_folder_refl].
  apply (same_shown _ _ m); [exact Logic.I|exact M| |apply commented_header; exact D]. left. rewrite N. reflexivity.
Qed.

Lemma generated : forall cmd f f', (forall bm, In bm (b_modules b) -> rrel (Forall2 (same_but_comments cmd input)) (f' (plain_bm bm)) (f bm)) ->
  Forall2 (same_but_comments cmd input) (fst (generate_modules fuel (plain_bundle b) f')) (fst (generate_modules fuel b f))
  /\ snd (generate_modules fuel (plain_bundle b) f') = snd (generate_modules fuel b f).
Proof.
  intros cmd f f' H. unfold generate_modules. rewrite plain_ordered. destruct (get_modules_ordered fuel b) as [l|e|] eqn:E; simpl; auto.
  apply for_modules_rel; [|constructor]. intros bm I. apply H. exact (ordered_modules_in _ _ _ E bm I).
Qed.
End Modules.

Lemma with_bundle_rel : forall R r fs f f', Forall2 R fs fs ->
  (forall b, r = Ok b -> Forall2 R (fst (f' (plain_bundle b))) (fst (f b)) /\ snd (f' (plain_bundle b)) = snd (f b)) ->
  Forall2 R (fst (with_bundle (rmap plain_bundle r) fs f')) (fst (with_bundle r fs f))
  /\ snd (with_bundle (rmap plain_bundle r) fs f') = snd (with_bundle r fs f).
Proof. intros R [b|e|] fs f f' F H; simpl; auto. Qed.

Lemma config_plain : forall fuel cmd input fs, no_cosmos cmd -> Forall (fun m => Forall clean (module_comments m)) input ->
  Forall2 (same_but_comments cmd input) (fst (run fuel cmd (map plain input) fs)) (fst (run fuel cmd input fs))
  /\ snd (run fuel cmd (map plain input) fs) = snd (run fuel cmd input fs).
Proof.
  intros fuel cmd input fs N C. pose proof (same_name cmd input) as NM. destruct cmd as [mn msgs out|names|names|names e]; [destruct N|..]; cbn [run];
    rewrite (build_config_plain _ _ C); (apply with_bundle_rel; [apply same_folder_refl|]); intros b B; apply config_from_input in B; unfold write_outcome; cbn [fst snd].
  - destruct (generated fuel input b (GenerateCfs names) _ _ (cfs_modules fuel input b B names)) as (G1 & G2).
    split; [|exact G2]. apply write_all_rel; [exact NM|exact G1|apply same_folder_refl].
  - destruct (generated fuel input b (GenerateC names) _ _ (c_modules fuel input b B names)) as (G1 & G2).
    split; [|exact G2]. apply write_all_rel; [exact NM|exact G1|apply same_folder_refl].
  - destruct (generated fuel input b (GenerateBinary names e) _ _ (binary_modules fuel input b B names e)) as (G1 & G2).
    split; [|exact G2]. apply write_all_rel; [exact NM|exact G1|apply same_folder_refl].
Qed.
