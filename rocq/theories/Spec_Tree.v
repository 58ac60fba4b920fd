(** * Specification of runs on a directory tree *)
From Verif Require Import Base PyStr Ast Source Spec_Grammar Spec_Syntax Spec_Source Spec_Cli Tree.
Open Scope string_scope.

Definition is_folder (t : node) (l : place_t) : Prop := exists es, lookup t l = Some (Dir es).
Definition file_at (t : node) (l : place_t) (c : string) : Prop := lookup t l = Some (File c).
Definition is_file (t : node) (l : place_t) : Prop := exists c, file_at t l c.

(** The names in a path. *)
Definition no_slash (s : string) : Prop := all_chars (fun c => negb (Ascii.eqb c "/")) s = true.
Definition names_in (path : string) (ps : list string) : Prop :=
  ps <> [] /\ Forall no_slash ps /\ String.concat "/" ps = path.

(** From the place [l], the names [ps] lead over the places [vs] to [e]. *)
Inductive passes : place_t -> list string -> list place_t -> place_t -> Prop :=
| passes_end : forall l, passes l [] [] l
| passes_same : forall l p ps vs e, p = "" \/ p = "." -> passes l ps vs e -> passes l (p :: ps) (l :: vs) e
| passes_up : forall l ps vs e, passes (removelast l) ps vs e -> passes l (".." :: ps) (removelast l :: vs) e
| passes_down : forall l p ps vs e, p <> "" -> p <> "." -> p <> ".." ->
    passes (l ++ [p])%list ps vs e -> passes l (p :: ps) ((l ++ [p])%list :: vs) e.

(** Absolute paths start at the root, the others at the current folder. *)
Definition starts (cwd : place_t) (path : string) (l : place_t) : Prop :=
  prefix_of "/" path /\ l = [] \/ ~ prefix_of "/" path /\ l = cwd.
Definition leads (cwd : place_t) (path : string) (vs : list place_t) (e : place_t) : Prop :=
  exists l ps, starts cwd path l /\ names_in path ps /\ passes l ps vs e.
(** The last name of [path] is [n], the others lead over [vs] to [e]. *)
Definition leads_in (cwd : place_t) (path : string) (vs : list place_t) (e : place_t) (n : string) : Prop :=
  exists l ps, starts cwd path l /\ names_in path (ps ++ [n])%list /\ passes l ps vs e.

(** The file at [path] has the contents [c]: all names before the last are
    names of folders. *)
Definition path_file (t : node) (cwd : place_t) (path c : string) : Prop :=
  path <> "" /\ exists l ps n vs e, starts cwd path l /\ names_in path (ps ++ [n])%list /\ passes l ps vs e
    /\ is_folder t l /\ Forall (is_folder t) vs /\ n <> "" /\ n <> "." /\ n <> ".." /\ file_at t (e ++ [n])%list c.
Definition path_spells (t : node) (cwd : place_t) (path : string) (m : module) : Prop :=
  exists f s, path_file t cwd path f /\ text_of_file f s /\ spells s m.

(** The trees [t] and [t'] have the same files, and [t'] has the folders of
    [t] and those of [vs]. *)
Definition only_folders (t t' : node) (vs : list place_t) : Prop :=
  (forall l c, file_at t' l c <-> file_at t l c)
  /\ (forall l, is_folder t' l -> is_folder t l \/ In l vs) /\ (forall l, is_folder t l -> is_folder t' l).

(** The same files except those called [ns] in the folder [e]. *)
Definition same_but (t t' : node) (e : place_t) (ns : list string) : Prop :=
  forall l c, (forall n, In n ns -> l <> (e ++ [n])%list) -> (file_at t' l c <-> file_at t l c).
(** The folders [vs] are added. *)
Definition adds_folders (t t' : node) (vs : list place_t) : Prop :=
  forall l, is_folder t' l <-> is_folder t l \/ In l vs.
(** The name [n] is taken by a folder in [e], also if one of the folders [vs]
    to be made. *)
Definition taken (t : node) (vs : list place_t) (e : place_t) (n : string) : Prop :=
  is_folder t (e ++ [n])%list \/ In (e ++ [n])%list vs.
(** How the run of a command shows. *)
Definition shows (r : result unit) (x : ending) : Prop :=
  match r with Ok _ => x = Finished | Err e => x = Raised e | OutOfFuel => x = Hangs end.
Definition os_error (x : ending) : Prop := exists e, x = OsRaised e.
