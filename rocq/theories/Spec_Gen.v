(** * Specification: what the C-like generators produce for a module *)
From Verif Require Import Base PyNum PyStr Ast Bundle CCommon GenCfs GenC GenBinary Main.
Open Scope string_scope.

(** [c] is what the cfs, c or binary command prints for module [bm] of bundle
    [b]: the contents of the module's header. *)
Definition generated (fuel : nat) (b : bundle) (bm : bmodule) (c : cdata) : Prop :=
  cfs_cdata fuel b bm = Ok c
  \/ c_cdata fuel b bm = Ok c
  \/ exists e, bin_cdata fuel e b bm = Ok c.

(** A cfs, c or binary command with --asn1-modules [names]. *)
Definition config_command (names : list string) (c : command) : Prop :=
  c = GenerateCfs names \/ c = GenerateC names \/ exists e, c = GenerateBinary names e.

(** What the cfs, c or binary generator does for a bundle: the files it
    writes, in order, and how it ends. *)
Definition generation (fuel : nat) (b : bundle) (o : outcome) : Prop :=
  o = generate_cfs fuel b \/ o = generate_c fuel b \/ exists e, o = generate_binary fuel e b.
