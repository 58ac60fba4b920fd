(** * Property C96: other names for the types *)
From Verif Require Import Base PyNum PyStr Ast Bundle CCommon GenBinary GenCosmos Main Spec_Grammar Spec_Bundle Spec_Gen Spec_Text Spec_Cfs
  Spec_Rename Rename_proofs Rename_cosmos_proofs Rename_files_proofs Samples Props_Binary.
Open Scope string_scope.
Open Scope list_scope.

(** C96.  The names of types mean nothing, except for those of built-in and of
    POSIX types: giving all types other names in all modules changes nothing
    but these names.  A successful run of cosmos on the renamed modules and
    messages appends the same text, with the new names of the packets. *)
Theorem C96_cosmos : forall r s mn msgs out input fuel fs fs1, renaming r s ->
  run fuel (GenerateCosmos mn msgs out) input fs = (fs1, Ok tt) ->
  exists ps, map fst ps = msgs
    /\ fs1 = folder_append (out ++ ".txt", telemetry_text out ps)%string fs
    /\ run fuel (GenerateCosmos mn (map r msgs) out) (map (rename r) input) fs
       = (folder_append (out ++ ".txt", telemetry_text out (map (fun p => (r (fst p), snd p)) ps))%string fs, Ok tt).
Proof. intros r s mn msgs out input fuel fs fs1 RN. exact (cosmos_renamed r s RN mn msgs out input fuel fs fs1). Qed.
Print Assumptions C96_cosmos.

(** Otherwise it fails with the same error. *)
Theorem C96_cosmos_fails : forall r s mn msgs out input fuel fs, renaming r s ->
  snd (run fuel (GenerateCosmos mn msgs out) input fs) <> Ok tt ->
  run fuel (GenerateCosmos mn (map r msgs) out) (map (rename r) input) fs = run fuel (GenerateCosmos mn msgs out) input fs.
Proof. intros r s mn msgs out input fuel fs RN. exact (cosmos_renamed_fails r s RN mn msgs out input fuel fs). Qed.
Print Assumptions C96_cosmos_fails.

(** Names to exchange. *)
Definition swappable (a b : string) : Prop :=
  ~ In a RESERVED /\ ~ In b RESERVED /\ is_name_capital a = true /\ is_name_capital b = true.
Lemma swap_twice : forall a b n, swap a b (swap a b n) = n.
Proof.
  intros a b n. unfold swap. destruct (String.eqb_spec n a) as [->|A].
  - destruct (String.eqb_spec b a) as [->|B]; [reflexivity|]. rewrite String.eqb_refl. reflexivity.
  - destruct (String.eqb_spec n b) as [->|B].
    + rewrite String.eqb_refl. reflexivity.
    + rewrite (proj2 (String.eqb_neq n a) A), (proj2 (String.eqb_neq n b) B). reflexivity.
Qed.
Lemma swap_renaming : forall a b, swappable a b -> renaming (swap a b) (swap a b).
Proof.
  intros a b (A & B & CA & CB). split; [apply swap_twice|apply swap_twice|..]; intros n; unfold swap;
    destruct (String.eqb_spec n a) as [->|NA]; try (destruct (String.eqb_spec n b) as [->|NB]); try reflexivity; try congruence; try (intros H; contradiction).
Qed.
Ltac not_reserved := let H := fresh in intros H; cbn in H; repeat (destruct H as [H|H]; [discriminate H|]); destruct H.

(** Sandbox-hk-pc becomes Zebra, and the other way round. *)
Example C96_cosmos_sample :
  renaming (swap "Sandbox-hk-pc" "Zebra") (swap "Sandbox-hk-pc" "Zebra")
  /\ snd (run 9 (GenerateCosmos "sandbox-hk-pc" ["Sandbox-hk-pc"] "hk") sample_modules []) = Ok tt
  /\ map (rename (swap "Sandbox-hk-pc" "Zebra")) sample_modules <> sample_modules
  /\ snd (run 9 (GenerateCosmos "sandbox-hk-pc" ["Zebra"] "hk") sample_modules []) <> Ok tt.
Proof.
  split; [apply swap_renaming; split; [not_reserved|split; [not_reserved|split; reflexivity]]|].
  split; [vm_compute; reflexivity|]. split; [discriminate|]. vm_compute. discriminate.
Qed.

(** cfs, c and binary succeed on the renamed modules if and only if they
    succeed on the given ones. *)
Theorem C96_success : forall r s names cmd input fs, renaming r s -> config_command names cmd ->
  Forall (fun m => grammatical m = true) input ->
  (exists fuel, snd (run fuel cmd input fs) = Ok tt) <-> (exists fuel, snd (run fuel cmd (map (rename r) input) fs) = Ok tt).
Proof. exact success_renamed. Qed.
Print Assumptions C96_success.

(** The images are the same, byte for byte, in files of the new names. *)
Theorem C96_images : forall r s names e input fuel fs fs1 fuel' fs' fs2 m n c l k w, renaming r s ->
  Forall (fun m => grammatical m = true) input -> run fuel (GenerateBinary names e) input fs = (fs1, Ok tt) ->
  run fuel' (GenerateBinary names e) (map (rename r) input) fs' = (fs2, Ok tt) ->
  In m input -> In (DSequence n c l) (mod_defs m) -> In k l -> m_with k = Some w ->
  exists t, folder_get fs1 (lowerize (c_name n) ++ ".bin")%string = Some t
    /\ folder_get fs2 (lowerize (c_name (r n)) ++ ".bin")%string = Some t.
Proof. intros r s names e input fuel fs fs1 fuel' fs' fs2 m n c l k w RN. exact (images_renamed r s RN names e input fuel fs fs1 fuel' fs' fs2 m n c l k w). Qed.
Print Assumptions C96_images.

Example C96_images_sample :
  renaming (swap "Cmd" "Zebra") (swap "Cmd" "Zebra")
  /\ Forall (fun m => grammatical m = true) [image_module]
  /\ snd (run 9 (GenerateBinary ["m"] (Some LittleEndian)) [image_module] []) = Ok tt
  /\ snd (run 9 (GenerateBinary ["m"] (Some LittleEndian)) (map (rename (swap "Cmd" "Zebra")) [image_module]) []) = Ok tt
  /\ (exists c l k w, In (DSequence "Cmd" c l) (mod_defs image_module) /\ In k l /\ m_with k = Some w)
  /\ swap "Cmd" "Zebra" "Cmd" = "Zebra".
Proof.
  split; [apply swap_renaming; split; [not_reserved|split; [not_reserved|split; reflexivity]]|]. split; [exact image_grammatical|].
  split; [vm_compute; reflexivity|]. split; [vm_compute; reflexivity|]. split; [|reflexivity].
  do 4 eexists. split; [right; right; left; reflexivity|]. split; [left; reflexivity|reflexivity].
Qed.

(** The message IDs are the same, under the new names. *)
Theorem C96_message_ids : forall r s names input fuel fs fs1 fuel' fs' fs2 m n c l k w h items, renaming r s ->
  Forall (fun m => grammatical m = true) input -> run fuel (GenerateCfs names) input fs = (fs1, Ok tt) ->
  run fuel' (GenerateCfs names) (map (rename r) input) fs' = (fs2, Ok tt) ->
  In m input -> In (DSequence n c l) (mod_defs m) -> In k l -> m_with k = Some w -> In (EHeader h) (clause_entries w) ->
  header_of h items -> NoDup (map wi_key items) -> fits (identification items) ->
  exists p q d p' q' d',
    folder_get fs1 (c_name (mod_name m) ++ "_msgids.h") = Some (p ++ "#define " ++ upper (c_name n) ++ "_MID (0x" ++ d ++ ")" ++ NL ++ q)%string
    /\ folder_get fs2 (c_name (mod_name m) ++ "_msgids.h")
       = Some (p' ++ "#define " ++ upper (c_name (r n)) ++ "_MID (0x" ++ d' ++ ")" ++ NL ++ q')%string
    /\ String.length d = 4%nat /\ String.length d' = 4%nat /\ read_hex d = read_hex d' /\ read_hex d <> None.
Proof. exact message_ids_renamed. Qed.
Print Assumptions C96_message_ids.

Example C96_message_ids_sample : exists m n c l k w h items,
  snd (run 9 (GenerateCfs sample_names) sample_modules []) = Ok tt
  /\ snd (run 9 (GenerateCfs sample_names) (map (rename (swap "Sandbox-hk-pc" "Zebra")) sample_modules) []) = Ok tt
  /\ In m sample_modules /\ In (DSequence n c l) (mod_defs m) /\ In k l /\ m_with k = Some w /\ In (EHeader h) (clause_entries w)
  /\ header_of h items /\ NoDup (map wi_key items) /\ fits (identification items)
  /\ swap "Sandbox-hk-pc" "Zebra" n <> n.
Proof.
  exists (nth 2 sample_modules integer_module). do 2 eexists.
  exists (seq_children (nth 2 (mod_defs (nth 2 sample_modules integer_module)) (DSimple "" TNull None))). do 4 eexists.
  split; [vm_compute; reflexivity|]. split; [vm_compute; reflexivity|].
  split; [do 2 right; left; reflexivity|]. split; [do 2 right; left; reflexivity|]. split; [left; reflexivity|].
  split; [reflexivity|]. split; [left; reflexivity|]. split; [do 3 eexists; reflexivity|].
  split; [repeat constructor; cbn [In map wi_key]; intuition discriminate|].
  split; [vm_compute; intuition discriminate|]. discriminate.
Qed.

(** The names of POSIX types do mean something: INTEGER (0..255) may be called
    Uint8-t, but not Uint16-t. *)
Theorem C96_posix_refuted : exists r s names cmd input fuel fuel' fs, (forall n, s (r n) = n) /\ (forall n, r (s n) = n)
  /\ (forall n, is_name_capital (r n) = is_name_capital n) /\ config_command names cmd
  /\ Forall (fun m => grammatical m = true) input
  /\ snd (run fuel cmd input fs) = Ok tt /\ snd (run fuel' cmd (map (rename r) input) fs) = Err ConsistencyError.
Proof.
  exists (swap "Uint8-t" "Uint16-t"), (swap "Uint8-t" "Uint16-t"), ["m"], (GenerateC ["m"]),
    [mkmodule "m" None [] None [DSimple "Uint8-t" (TInteger (Some (0, 255)%Z)) None]], 9%nat, 9%nat, [].
  split; [apply swap_twice|]. split; [apply swap_twice|].
  split; [intros n; unfold swap; destruct (String.eqb_spec n "Uint8-t") as [->|]; [reflexivity|]; destruct (String.eqb_spec n "Uint16-t") as [->|]; reflexivity|].
  split; [right; left; reflexivity|]. split; [repeat constructor|]. split; vm_compute; reflexivity.
Qed.
Print Assumptions C96_posix_refuted.
