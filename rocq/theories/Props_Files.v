(** * Properties C31, C32, C34, C43, C46: files, names and runs *)
From Verif Require Import Base PyNum PyStr Ast Bundle CCommon GenCfs GenC GenBinary GenCosmos Main Spec_Grammar
  Spec_Bundle Spec_Gen Spec_Files Name_proofs Field_proofs Files_proofs Samples.
Open Scope string_scope.

(** C31: the files one command writes are pairwise distinct, *)
Theorem C31_files_distinct : forall names input b fuel files r,
  Forall (fun m => grammatical m = true) input -> build_from_config names input = Ok b ->
  generation fuel b (files, r) -> NoDup (map fst files).
Proof. exact files_nodup. Qed.
Print Assumptions C31_files_distinct.

(** lie directly in the output folder (no "/" in a name), *)
Theorem C31_files_in_folder : forall names input b fuel files r n,
  Forall (fun m => grammatical m = true) input -> build_from_config names input = Ok b ->
  generation fuel b (files, r) -> In n (map fst files) -> plain_name n.
Proof. exact files_plain. Qed.
Print Assumptions C31_files_in_folder.

(** and every header has an include guard of its own. *)
Theorem C31_guards_distinct : forall names input b fuel files r,
  Forall (fun m => grammatical m = true) input -> build_from_config names input = Ok b ->
  generation fuel b (files, r) ->
  (forall x, In x files -> header x -> exists g, guarded g (snd x))
  /\ (forall x y g, In x files -> In y files -> header x -> header y ->
        guarded g (snd x) -> guarded g (snd y) -> x = y).
Proof. exact files_guards. Qed.
Print Assumptions C31_guards_distinct.

Example C31_sample : exists b files, build_from_config sample_names sample_modules = Ok b
  /\ generation 9 b (files, Ok tt)
  /\ map fst files = ["sandbox_hk_pc_msg.h"; "sandbox_hk_pc_msgids.h"; "cfe_headers_msg.h"; "cfe_headers_msgids.h";
                      "ccsds_headers_msg.h"; "ccsds_headers_msgids.h"; "simple_types_msg.h"; "simple_types_msgids.h"].
Proof.
  do 2 eexists. split; [vm_compute; reflexivity|]. split; [left; vm_compute; reflexivity|]. vm_compute. reflexivity.
Qed.

(** C32.  Full statement: every quoted include of a generated header names a
    file written by the same run.  It holds of the cfs command: *)
Theorem C32_includes_exist_partial : forall names input b fuel files bm c f,
  Forall (fun m => grammatical m = true) input -> build_from_config names input = Ok b ->
  generate_cfs fuel b = (files, Ok tt) -> In bm (b_modules b) -> cfs_cdata fuel b bm = Ok c ->
  In (IncFile f) (cd_includes c) -> In f (map fst files).
Proof. exact cfs_includes. Qed.
Print Assumptions C32_includes_exist_partial.

Example C32_sample : exists b files bm c, build_from_config sample_names sample_modules = Ok b
  /\ generate_cfs 9 b = (files, Ok tt) /\ In bm (b_modules b) /\ cfs_cdata 9 b bm = Ok c
  /\ In (IncFile "cfe_headers_msg.h") (cd_includes c).
Proof.
  do 2 eexists. exists (nth 2 (match build_from_config sample_names sample_modules with Ok b => b_modules b | _ => [] end)
    (mkbmodule integer_module [])).
  eexists. split; [vm_compute; reflexivity|]. split; [vm_compute; reflexivity|].
  split; [do 2 right; left; vm_compute; reflexivity|]. split; [vm_compute; reflexivity|]. left. vm_compute. reflexivity.
Qed.

(** It is false of the c and binary commands, for every include: the extension
    ".h" is missing. *)
Theorem C32_c_includes_dangling : forall names input b fuel o files r bm c f,
  Forall (fun m => grammatical m = true) input -> build_from_config names input = Ok b ->
  (o = generate_c fuel b /\ c_cdata fuel b bm = Ok c
   \/ exists e, o = generate_binary fuel e b /\ bin_cdata fuel e b bm = Ok c) ->
  o = (files, r) -> In bm (b_modules b) ->
  In (IncFile f) (cd_includes c) -> ~ In f (map fst files).
Proof. exact c_includes_dangling. Qed.
Print Assumptions C32_c_includes_dangling.

Definition two_modules : list module :=
  [mkmodule "a" None [mkimport ["T"] "b" None] None [DSequence "S" None [mkmember "x" (TName "T") None None]];
   mkmodule "b" None [] None [DSequence "T" None [mkmember "x" TBoolean None None]]].

Theorem C32_includes_exist_refuted : exists names input b files bm c f,
  Forall (fun m => grammatical m = true) input /\ build_from_config names input = Ok b
  /\ generate_c 2 b = (files, Ok tt) /\ In bm (b_modules b) /\ c_cdata 2 b bm = Ok c
  /\ In (IncFile f) (cd_includes c) /\ ~ In f (map fst files)
  /\ forall e, exists files', generate_binary 2 e b = (files', Ok tt) /\ ~ In f (map fst files').
Proof.
  exists ["a"; "b"], two_modules. do 2 eexists.
  exists (nth 0 (match build_from_config ["a"; "b"] two_modules with Ok b => b_modules b | _ => [] end)
    (mkbmodule integer_module [])). eexists. exists "b".
  split; [repeat constructor|]. split; [vm_compute; reflexivity|]. split; [vm_compute; reflexivity|].
  split; [left; vm_compute; reflexivity|]. split; [vm_compute; reflexivity|]. split; [left; vm_compute; reflexivity|].
  assert (forall l, mem "b" l = false -> ~ In "b" l).
  { intros l H G. apply Lib_proofs.mem_In in G. congruence. }
  split; [apply H; vm_compute; reflexivity|]. intros [[]|]; eexists; (split; [vm_compute; reflexivity|]);
    apply H; vm_compute; reflexivity.
Qed.
Print Assumptions C32_includes_exist_refuted.

(** C34: names of types, members and modules become C identifiers, *)
Theorem C34_identifiers : forall n, is_name_capital n = true \/ is_name_lower n = true -> identifier (c_name n).
Proof. exact c_name_identifier. Qed.
Print Assumptions C34_identifiers.

(** distinct names become distinct identifiers, *)
Theorem C34_names_distinct : forall a b, is_name_capital a = true \/ is_name_lower a = true ->
  is_name_capital b = true \/ is_name_lower b = true -> c_name a = c_name b -> a = b.
Proof. exact names_distinct. Qed.
Print Assumptions C34_names_distinct.

(** the instances of types have distinct names, none of them a type's name, *)
Theorem C34_instances_distinct : forall a b, is_name_capital a = true -> is_name_capital b = true ->
  lowerize (c_name a) = lowerize (c_name b) -> a = b.
Proof. exact lower_c_name_inj. Qed.
Print Assumptions C34_instances_distinct.

Theorem C34_instance_not_type : forall a b, is_name_capital a = true -> is_name_capital b = true ->
  lowerize (c_name a) <> c_name b.
Proof. exact instance_name_neq. Qed.
Print Assumptions C34_instance_not_type.

(** and so have the upper-case prefixes used in #defines. *)
Theorem C34_prefixes_distinct : forall a b, is_name_capital a = true -> is_name_capital b = true ->
  upper (c_name a) = upper (c_name b) -> a = b.
Proof. exact upper_c_name_inj. Qed.
Print Assumptions C34_prefixes_distinct.

Example C34_sample :
  is_name_capital "Sandbox-hk-pc" = true /\ c_name "Sandbox-hk-pc" = "Sandbox_hk_pc"
  /\ lowerize (c_name "Sandbox-hk-pc") = "sandbox_hk_pc" /\ upper (c_name "Sandbox-hk-pc") = "SANDBOX_HK_PC"
  /\ is_name_lower "sandbox-hk-pc" = true /\ is_name_capital "Sandbox_hk" = false.
Proof. repeat split. Qed.

(** C43.  Full statement: running a command again leaves the same files.  It
    holds of cfs, c and binary: *)
Theorem C43_regenerate_partial : forall names cmd fuel input fs fs1 r1 fs2 r2, config_command names cmd ->
  run fuel cmd input fs = (fs1, r1) -> run fuel cmd input fs1 = (fs2, r2) -> r2 = r1 /\ same_files fs1 fs2.
Proof. exact run_again. Qed.
Print Assumptions C43_regenerate_partial.

Example C43_sample : exists fs1,
  config_command ["m"] (GenerateC ["m"])
  /\ run 3 (GenerateC ["m"]) [integer_module] [("m.c", "old"); ("notes", "kept")] = (fs1, Ok tt)
  /\ folder_get fs1 "notes" = Some "kept" /\ folder_get fs1 "m.c" <> Some "old"
  /\ folder_get fs1 "m.h" <> None.
Proof.
  eexists. split; [right; left; reflexivity|]. split; [vm_compute; reflexivity|].
  split; [vm_compute; reflexivity|]. split; vm_compute; discriminate.
Qed.

(** It is false of cosmos: every successful run appends its text to the file. *)
Theorem C43_cosmos_appends : forall fuel m msgs t input fs fs1 r,
  run fuel (GenerateCosmos m msgs t) input fs = (fs1, r) -> r = Ok tt ->
  exists text, text <> "" /\
    let old := match folder_get fs (t ++ ".txt") with Some o => o | None => "" end in
    folder_get fs1 (t ++ ".txt") = Some (old ++ text)
    /\ exists fs2, run fuel (GenerateCosmos m msgs t) input fs1 = (fs2, Ok tt)
       /\ folder_get fs2 (t ++ ".txt") = Some (old ++ text ++ text).
Proof. exact cosmos_appends. Qed.
Print Assumptions C43_cosmos_appends.

Theorem C43_regenerate_refuted : exists fuel cmd input fs1 fs2,
  run fuel cmd input [] = (fs1, Ok tt) /\ run fuel cmd input fs1 = (fs2, Ok tt) /\ ~ same_files fs1 fs2.
Proof.
  exists 3%nat, (GenerateCosmos "m" ["S"] "out"), [integer_module]. do 2 eexists.
  split; [vm_compute; reflexivity|]. split; [vm_compute; reflexivity|].
  intros H. specialize (H "out.txt"). vm_compute in H. discriminate.
Qed.
Print Assumptions C43_regenerate_refuted.

(** C46: invalid input is rejected with an error and nothing is written, *)
Theorem C46_invalid_untouched : forall names cmd fuel input fs, config_command names cmd ->
  Forall (fun m => grammatical m = true) input -> ~ bundle_valid names input ->
  exists e, run fuel cmd input fs = (fs, Err e).
Proof. exact run_invalid. Qed.
Print Assumptions C46_invalid_untouched.

(** and what is written depends only on the command and the modules, not on
    what is in the folder. *)
Theorem C46_output_independent : forall names cmd fuel input, config_command names cmd ->
  exists files r, forall fs, run fuel cmd input fs = (folder_write_all files fs, r).
Proof. exact run_files. Qed.
Print Assumptions C46_output_independent.

Example C46_sample : ~ bundle_valid ["cfe-headers"] sample_modules
  /\ run 9 (GenerateC ["cfe-headers"]) sample_modules [("a", "b")] = ([("a", "b")], Err ConsistencyError).
Proof.
  split; [|vm_compute; reflexivity]. intros V. destruct (Spec_Bundle.bv_same _ _ V) as (_ & I).
  assert (G := I "simple-types" ltac:(do 3 right; left; reflexivity)). destruct G as [G|[]]. discriminate.
Qed.
