(** * Proofs: from the modules read to the files in the output folder *)
From Coq Require Import Permutation.
From Verif Require Import Base PyNum PyStr Ast Processor Bundle Sorter CCommon GenCfs GenC GenBinary Main
  Spec_Grammar Spec_Bundle Spec_Gen Spec_Files
  Lib_proofs Bundle_proofs Accept_proofs Field_proofs Order_proofs Run_proofs Files_proofs.
Open Scope string_scope.
Open Scope list_scope.

Lemma in_input : forall names input b m, config names input b -> In m input ->
  exists bm, In bm (b_modules b) /\ same_module m (bm_mod bm).
Proof.
  intros names input b m C Hm. apply config_accepted in C. destruct (accepted_same _ _ C) as (S & _).
  destruct (Forall2_in_l _ _ _ _ _ _ S Hm) as (m' & Hm' & E). apply in_map_iff in Hm'. destruct Hm' as (bm & <- & Hbm). eauto.
Qed.

Lemma of_input : forall names input b bm, config names input b -> In bm (b_modules b) ->
  exists m, In m input /\ same_module m (bm_mod bm).
Proof.
  intros names input b bm C Hbm. apply config_accepted in C. destruct (accepted_same _ _ C) as (S & _).
  destruct (Forall2_in_r _ _ _ _ _ (bm_mod bm) S) as (m & Hm & E); [apply in_map; exact Hbm|]. eauto.
Qed.

Lemma run_written : forall names cmd fuel input fs fs', config_command names cmd ->
  Forall (fun m => grammatical m = true) input -> run fuel cmd input fs = (fs', Ok tt) ->
  exists b, config names input b
    /\ forall bm, In bm (b_modules b) -> exists fl, module_files fuel cmd b bm = Ok fl
        /\ forall x, In x fl -> folder_get fs' (fst x) = Some (snd x).
Proof.
  intros names cmd fuel input fs fs' Hc Hg H.
  destruct (run_ok_modules _ _ _ _ _ _ Hc H) as (b & l & fss & Hb & Hl & Hm & ->).
  exists b. split; [split; assumption|]. intros bm Hbm.
  assert (G : generation fuel b (concat fss, Ok tt)).
  { assert (E : (concat fss, Ok tt) = generate_modules fuel b (module_files fuel cmd b)).
    { unfold generate_modules. rewrite Hl. symmetry. apply for_modules_ok. exists fss. auto. }
    rewrite E. destruct Hc as [->|[->|(e & ->)]]; [left|right; left|right; right; exists e]; reflexivity. }
  assert (N := files_nodup _ _ _ _ _ _ Hg Hb G).
  destruct (order_sound _ _ _ _ _ Hb Hl) as (P & _).
  assert (Hin : In bm l) by (apply (Permutation_in _ (Permutation_sym P)); exact Hbm).
  apply map_result_ok in Hm. destruct (Forall2_in_l _ _ _ _ _ _ Hm Hin) as (fl & Hfl & E).
  exists fl. split; [exact E|]. intros [n s] Hx. rewrite folder_get_all. cbn [fst snd].
  rewrite (dict_get_NoDup _ n s (concat fss)); [reflexivity|exact N|]. apply in_concat. eauto.
Qed.

(** The same for a module of the input. *)
Lemma run_input_written : forall names cmd fuel input fs fs' m, config_command names cmd ->
  Forall (fun m => grammatical m = true) input -> run fuel cmd input fs = (fs', Ok tt) -> In m input ->
  exists b bm fl, config names input b /\ In bm (b_modules b) /\ same_module m (bm_mod bm)
    /\ module_files fuel cmd b bm = Ok fl
    /\ forall n s, In (n, s) fl -> folder_get fs' n = Some s.
Proof.
  intros names cmd fuel input fs fs' m Hc Hg H Hm. destruct (run_written _ _ _ _ _ _ Hc Hg H) as (b & C & W).
  destruct (in_input _ _ _ _ C Hm) as (bm & Hbm & S). destruct (W bm Hbm) as (fl & Hfl & R).
  exists b, bm, fl. split; [exact C|]. split; [exact Hbm|]. split; [exact S|]. split; [exact Hfl|].
  intros n s Hx. exact (R _ Hx).
Qed.
