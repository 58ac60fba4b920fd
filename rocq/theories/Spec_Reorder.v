(** * Specification: definitions in another order (C92) *)
From Coq Require Import Permutation.
From Verif Require Import Base PyStr Ast CCommon Main.
Open Scope string_scope.

(** The same module with its definitions in another order. *)
Record reordered (m m' : module) : Prop :=
  { re_name : mod_name m' = mod_name m;
    re_comment : mod_comment m' = mod_comment m;
    re_imports : mod_imports m' = mod_imports m;
    re_comment_import : mod_comment_import m' = mod_comment_import m;
    re_defs : Permutation (mod_defs m) (mod_defs m') }.

(** The parts of a file that belong to definitions, one after the other. *)
Definition parts (f : definition -> string) (l : list definition) : string := String.concat "" (map f l).

(** Two files that differ only in the order of the parts of the definitions:
    every definition has a part at each of three places (it may be empty), the
    same ones in both files, and the text around the three places is the
    same. *)
Definition rearranged (m m' : module) (t t' : string) : Prop :=
  exists (a b c d : string) (f g h : definition -> string) (l l' : list definition),
    Permutation (mod_defs m) l /\ Permutation (mod_defs m') l'
    /\ t = a ++ parts f l ++ b ++ parts g l ++ c ++ parts h l ++ d
    /\ t' = a ++ parts f l' ++ b ++ parts g l' ++ c ++ parts h l' ++ d.

(** An include line with an empty line behind it, or nothing. *)
Definition maybe_include (i : string) : Prop :=
  i = "" \/ exists n, i = "#include " ++ DQUOTE ++ n ++ DQUOTE ++ NL ++ NL.

(** Likewise, but for one include line that either file may lack. *)
Definition rearranged_but_include (m m' : module) (t t' : string) : Prop :=
  exists (a i i' : string) (f : definition -> string) (l l' : list definition),
    Permutation (mod_defs m) l /\ Permutation (mod_defs m') l'
    /\ maybe_include i /\ maybe_include i'
    /\ t = a ++ i ++ parts f l /\ t' = a ++ i' ++ parts f l'.

(** File [f] with the two contents [t] and [t']. *)
Inductive same_contents (m m' : module) : string -> string -> string -> Prop :=
| same_header : forall x t t', rearranged m m' t t' -> same_contents m m' (x ++ ".h") t t'
| same_source : forall x t t', rearranged_but_include m m' t t' -> same_contents m m' (x ++ ".c") t t'
| same_image : forall x t, same_contents m m' (x ++ ".bin") t t.
