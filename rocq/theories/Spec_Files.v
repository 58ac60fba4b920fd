(** * Specification: files and names *)
From Verif Require Import Base PyStr CCommon Main.
Open Scope string_scope.

(** Letters, digits, underscore and dot: no "/". *)
Definition plain_char (c : ascii) : Prop :=
  is_lower c = true \/ is_upper c = true \/ is_digit c = true \/ c = "_"%char \/ c = "."%char.
Definition plain_name (s : string) : Prop := forall c, In c (list_ascii_of_string s) -> plain_char c.

(** A C identifier. *)
Definition identifier (s : string) : Prop :=
  (exists c r, s = String c r /\ (is_lower c = true \/ is_upper c = true))
  /\ forall c, In c (list_ascii_of_string s) ->
       is_lower c = true \/ is_upper c = true \/ is_digit c = true \/ c = "_"%char.

Definition header (f : file) : Prop := exists n, fst f = n ++ ".h".

(** The contents start with an include guard for symbol [g]. *)
Definition guarded (g : string) (contents : string) : Prop :=
  ~ In LF (list_ascii_of_string g)
  /\ exists r, contents = "#ifndef " ++ g ++ NL ++ "#define " ++ g ++ NL ++ r.

(** Two folders with the same files. *)
Definition same_files (a b : folder) : Prop := forall n, folder_get a n = folder_get b n.
