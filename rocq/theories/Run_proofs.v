(** * Proofs: runs of the cfs, c and binary commands *)
From Coq Require Import Permutation Lia.
From Verif Require Import Base PyNum PyStr Ast Bundle Sorter CCommon GenCfs GenC GenBinary GenCosmos Main
  Spec_Grammar Spec_Check Spec_Bundle Spec_Gen Spec_Order Lib_proofs Gen_proofs Field_proofs Order_proofs.
Open Scope string_scope.
Open Scope list_scope.

(** The files of one module, the same for the three generators. *)
Definition module_files (fuel : nat) (c : command) (b : bundle) (bm : bmodule) : result (list file) :=
  match c with
  | GenerateCosmos _ _ _ => Ok []
  | GenerateCfs _ => cfs_module fuel b bm
  | GenerateC _ => c_module fuel b bm
  | GenerateBinary _ e => bin_module fuel e b bm
  end.

Lemma run_config : forall names cmd fuel input fs, config_command names cmd ->
  run fuel cmd input fs
  = match build_from_config names input with
    | Ok b => write_outcome fs (generate_modules fuel b (module_files fuel cmd b))
    | Err e => (fs, Err e)
    | OutOfFuel => (fs, OutOfFuel)
    end.
Proof. intros names cmd fuel input fs [->|[->|(e & ->)]]; reflexivity. Qed.

(** The loop over the modules. *)
Lemma for_modules_ok : forall f l w files, for_modules f l w = (files, Ok tt) <->
  exists fss, map_result f l = Ok fss /\ files = w ++ concat fss.
Proof.
  intros f. induction l as [|m l IH]; intros w files; simpl.
  - split.
    + intros H. injection H as <-. exists []. rewrite app_nil_r. auto.
    + intros (fss & H & ->). injection H as <-. simpl. rewrite app_nil_r. reflexivity.
  - destruct (f m) as [fs|e|]; simpl.
    + rewrite IH. split.
      * intros (fss & H & ->). rewrite H. simpl. exists (fs :: fss). split; [reflexivity|].
        simpl. rewrite app_assoc. reflexivity.
      * intros (fss & H & ->). destruct (map_result f l) as [r| |]; simpl in H; try discriminate.
        injection H as <-. exists r. split; [reflexivity|]. simpl. rewrite app_assoc. reflexivity.
    + split; [discriminate|]. intros (fss & H & _). discriminate.
    + split; [discriminate|]. intros (fss & H & _). discriminate.
Qed.

Lemma for_modules_all : forall f l w files, for_modules f l w = (files, Ok tt) ->
  forall m, In m l -> exists fs, f m = Ok fs.
Proof.
  intros f. induction l as [|m l IH]; intros w files H x Hx; [destruct Hx|]. simpl in H.
  destruct (f m) as [fs| |] eqn:E; try discriminate. destruct Hx as [<-|Hx]; [eauto|eapply IH; eassumption].
Qed.

Lemma write_outcome_ok : forall fs o fs', write_outcome fs o = (fs', Ok tt) ->
  exists files, o = (files, Ok tt) /\ fs' = folder_write_all files fs.
Proof. intros fs [files r] fs' H. unfold write_outcome in H. injection H as <- E. simpl in E. subst r. eauto. Qed.

(** A command that ends without error has converted every module. *)
Lemma module_files_sorted : forall names cmd fuel b bm fl, config_command names cmd ->
  module_files fuel cmd b bm = Ok fl -> exists c, generated fuel b bm c.
Proof.
  intros names cmd fuel b bm fl [->|[->|(e & ->)]] H; apply bind_ok in H; destruct H as (c & H & _);
    exists c; unfold generated; eauto.
Qed.

Lemma run_ok_modules : forall names cmd fuel input fs fs', config_command names cmd ->
  run fuel cmd input fs = (fs', Ok tt) ->
  exists b l fss, build_from_config names input = Ok b /\ get_modules_ordered fuel b = Ok l
    /\ map_result (module_files fuel cmd b) l = Ok fss /\ fs' = folder_write_all (concat fss) fs.
Proof.
  intros names cmd fuel input fs fs' Hc H. rewrite (run_config names) in H by exact Hc.
  destruct (build_from_config names input) as [b| |]; try discriminate.
  apply write_outcome_ok in H. destruct H as (files & H & ->).
  unfold generate_modules in H. destruct (get_modules_ordered fuel b) as [l| |] eqn:El; try discriminate.
  apply for_modules_ok in H. destruct H as (fss & H & ->). exists b, l, fss. auto.
Qed.

Lemma run_ok_generated : forall names cmd fuel input fs fs' b bm, config_command names cmd ->
  run fuel cmd input fs = (fs', Ok tt) -> build_from_config names input = Ok b -> In bm (b_modules b) ->
  exists c, generated fuel b bm c.
Proof.
  intros names cmd fuel input fs fs' b bm Hc H Hb Hbm.
  destruct (run_ok_modules _ _ _ _ _ _ Hc H) as (b' & l & fss & Hb' & Hl & Hm & _).
  rewrite Hb in Hb'. injection Hb' as <-.
  destruct (order_sound _ _ _ _ _ Hb Hl) as (P & _).
  apply (Permutation_in _ (Permutation_sym P)) in Hbm.
  apply map_result_ok in Hm. destruct (Forall2_in_l _ _ _ _ _ _ Hm Hbm) as (fl & _ & E).
  eapply module_files_sorted; eassumption.
Qed.

(** C12, C14 *)
Lemma run_cyclic : forall names cmd fuel input fs b, config_command names cmd ->
  build_from_config names input = Ok b -> cyclic (imports_from input) ->
  run fuel cmd input fs = (fs, OutOfFuel).
Proof.
  intros names cmd fuel input fs b Hc Hb C. rewrite (run_config names) by exact Hc. rewrite Hb.
  unfold generate_modules. rewrite (cyclic_imports_hang _ _ _ fuel Hb C). reflexivity.
Qed.

Lemma self_import_cyclic : forall names input b bm, build_from_config names input = Ok b ->
  In bm (b_modules b) -> In (bm_name bm) (map imp_module (mod_imports (bm_mod bm))) ->
  cyclic (imports_from input).
Proof.
  intros names input b bm Hb Hbm Hs. apply (config_cyclic names input b Hb). exists (bm_name bm).
  apply Relation_Operators.t_step. apply in_map_iff in Hs. destruct Hs as (it & E & Hit).
  exists (bm_mod bm), it. split; [apply in_map; exact Hbm|]. auto.
Qed.

Lemma run_recursive : forall names cmd fuel input fs b bm, config_command names cmd ->
  Forall (fun m => grammatical m = true) input -> build_from_config names input = Ok b ->
  In bm (b_modules b) -> cyclic (uses_local (bm_mod bm)) ->
  snd (run fuel cmd input fs) <> Ok tt.
Proof.
  intros names cmd fuel input fs b bm Hc Hg Hb Hbm C H.
  destruct (run fuel cmd input fs) as [fs' r] eqn:E. simpl in H. subst r.
  destruct (run_ok_generated _ _ _ _ _ _ _ _ Hc E Hb Hbm) as (c & G).
  destruct (generated_data _ _ _ _ G) as (sorted & dss & S & _).
  destruct (in_dec string_dec (bm_name bm) (map imp_module (mod_imports (bm_mod bm)))) as [Hs|Hs].
  - rewrite (run_cyclic names cmd fuel input fs b Hc Hb) in E; [discriminate|].
    eapply self_import_cyclic; eassumption.
  - rewrite (recursive_types_hang names input b bm fuel) in S; try assumption. discriminate.
Qed.

(** The first module in order is converted first: with one module the run
    hangs. *)
Lemma run_recursive_single : forall names cmd fuel input fs b bm, config_command names cmd ->
  Forall (fun m => grammatical m = true) input -> build_from_config names input = Ok b ->
  b_modules b = [bm] -> cyclic (uses_local (bm_mod bm)) ->
  run fuel cmd input fs = (fs, OutOfFuel).
Proof.
  intros names cmd fuel input fs b bm Hc Hg Hb E C.
  assert (Hbm : In bm (b_modules b)) by (rewrite E; left; reflexivity).
  destruct (in_dec string_dec (bm_name bm) (map imp_module (mod_imports (bm_mod bm)))) as [Hs|Hs].
  { apply (run_cyclic names cmd fuel input fs b Hc Hb). eapply self_import_cyclic; eassumption. }
  rewrite (run_config names) by exact Hc. rewrite Hb. unfold generate_modules.
  destruct (ordered_spec fuel b) as [G|(l & G & P & _)].
  - apply (config_module_names _ _ _ Hb).
  - rewrite G. reflexivity.
  - rewrite G. rewrite E in P. apply Permutation_sym, Permutation_length_1_inv in P. subst l. simpl.
    assert (R := recursive_types_hang names input b bm fuel Hg Hb Hbm Hs C).
    assert (M : module_files fuel cmd b bm = OutOfFuel).
    { destruct Hc as [->|[->|(e & ->)]]; simpl; unfold cfs_module, c_module, bin_module, cfs_cdata, c_cdata,
        bin_cdata, module_cdata; rewrite R; reflexivity. }
    rewrite M. reflexivity.
Qed.
