(** * Specification: further definitions in the modules (C94) *)
From Coq Require Import Permutation.
From Verif Require Import Base PyStr Ast CCommon Main Spec_Check Spec_Bundle Spec_Reorder.
Open Scope string_scope.

(** The second list has all elements of the first one, in the same order, and
    maybe further ones between them. *)
Inductive inserted {A : Type} : list A -> list A -> Prop :=
| ins_nil : inserted [] []
| ins_keep : forall x l l', inserted l l' -> inserted (x :: l) (x :: l')
| ins_new : forall x l l', inserted l l' -> inserted l (x :: l').

(** The same module with further definitions. *)
Record grown (m m' : module) : Prop :=
  { gr_name : mod_name m' = mod_name m;
    gr_comment : mod_comment m' = mod_comment m;
    gr_imports : mod_imports m' = mod_imports m;
    gr_comment_import : mod_comment_import m' = mod_comment_import m;
    gr_defs : inserted (mod_defs m) (mod_defs m') }.

(** The definitions of the two modules, each in some order, such that the
    definitions both have stand in the same order. *)
Definition listed_alike (m m' : module) (l l' : list definition) : Prop :=
  Permutation (mod_defs m) l /\ Permutation (mod_defs m') l' /\ inserted l l'.

(** The include lines for the standard headers. *)
Definition standard_lines (x y : bool) : string :=
  (if x then "#include <stdbool.h>" ++ NL else "") ++ (if y then "#include <stdint.h>" ++ NL else "").

(** In the files of command [cmd] the note of a definition stays as it was: for
    cfs the note of a simple type names the modules that use it. *)
Definition note_stays (cmd : command) (input input' : list module) (d : definition) : Prop :=
  match cmd, d with
  | GenerateCfs _, DSimple n _ _ =>
      forall i u u', nth_error input i = Some u -> nth_error input' i = Some u' -> uses_type u' n -> uses_type u n
  | _, _ => True
  end.

(** Two .h files: the second one has the parts of the further definitions in
    addition, and maybe further lines for standard headers and an empty line.
    The three parts of every other definition are the same, except for notes. *)
Definition extended_header (stays : definition -> Prop) (m m' : module) (t t' : string) : Prop :=
  exists (a b c z e e' : string) (x y x' y' : bool) (f f' g h : definition -> string) (l l' : list definition),
    listed_alike m m' l l'
    /\ (x = true -> x' = true) /\ (y = true -> y' = true)
    /\ (e' = e \/ e = "" /\ e' = NL)
    /\ (forall d, In d l -> stays d -> f' d = f d)
    /\ t = a ++ standard_lines x y ++ b ++ parts f l ++ c ++ parts g l ++ parts h l ++ e ++ z
    /\ t' = a ++ standard_lines x' y' ++ b ++ parts f' l' ++ c ++ parts g l' ++ parts h l' ++ e' ++ z.

(** Two .c files: likewise, with one part for each definition and one include
    line that either may lack. *)
Definition extended_source (m m' : module) (t t' : string) : Prop :=
  exists (a i i' : string) (f : definition -> string) (l l' : list definition),
    listed_alike m m' l l' /\ maybe_include i /\ maybe_include i'
    /\ t = a ++ i ++ parts f l /\ t' = a ++ i' ++ parts f l'.

(** File [f] with the two contents [t] and [t']; images are the same. *)
Inductive extended_contents (stays : definition -> Prop) (m m' : module) : string -> string -> string -> Prop :=
| extended_h : forall x t t', extended_header stays m m' t t' -> extended_contents stays m m' (x ++ ".h") t t'
| extended_c : forall x t t', extended_source m m' t t' -> extended_contents stays m m' (x ++ ".c") t t'
| extended_bin : forall x t, extended_contents stays m m' (x ++ ".bin") t t.
