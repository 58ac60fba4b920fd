(** * Specification: what the loggers print (C109) *)
From Coq Require Import ZArith.
From Verif Require Import Base PyStr Spec_Cosmos Log.
Open Scope string_scope.
Open Scope list_scope.

(** Names have parts. *)
Definition named (h : list log_op) : Prop := forall n, In (Create n) h -> n <> [].

(** The level of the class after [h]. *)
Definition class_level (h : list log_op) (z : Z) : Prop :=
  (exists h1 h2, h = h1 ++ SetLevel z :: h2 /\ forall z', ~ In (SetLevel z') h2)
  \/ z = 30%Z /\ forall z', ~ In (SetLevel z') h.

(** The logger [n] was last made when the level of the class was [z]. *)
Definition made_at (h : list log_op) (n : log_name) (z : Z) : Prop :=
  exists h1 h2, h = h1 ++ Create n :: h2 /\ ~ In (Create n) h2 /\ class_level h1 z.

(** The least level of the messages printed for [n]: 0 stands for that of the
    name above, at the top 30. *)
Inductive threshold (h : list log_op) : log_name -> Z -> Prop :=
| threshold_top : threshold h [] 30
| threshold_own : forall n z, made_at h n z -> z <> 0%Z -> threshold h n z
| threshold_above : forall n x z, (forall z', made_at h (n ++ [x]) z' -> z' = 0%Z) -> threshold h n z -> threshold h (n ++ [x]) z.

(** [n] begins with the parts [k]. *)
Fixpoint begins (k n : log_name) : bool :=
  match k, n with
  | [], _ => true
  | x :: k', y :: n' => String.eqb x y && begins k' n'
  | _ :: _, [] => false
  end.
(** How often loggers with the name [n] or one above it were made. *)
Definition makes (n : log_name) (o : log_op) : bool := match o with Create k => begins k n | _ => false end.
Definition times_made (h : list log_op) (n : log_name) : nat := length (filter (makes n) h).

(** The levels. *)
Definition number_of (s : severity) : Z :=
  match s with Debug => 10 | Info => 20 | Warning => 30 | Error => 40 | Critical => 50 end%Z.

(** The line of a message. *)
Definition head_of (s : severity) : string :=
  let esc := String (ascii_of_N 27) "" in
  match s with
  | Debug => esc ++ "[1;30m[DEBUG   ]" ++ esc ++ "[0m "
  | Info => esc ++ "[0;37m[INFO    ]" ++ esc ++ "[0m "
  | Warning => esc ++ "[0;33m[WARNING ]" ++ esc ++ "[0m "
  | Error => esc ++ "[0;31m[ERROR   ]" ++ esc ++ "[0m "
  | Critical => esc ++ "[1;31m[CRITICAL]" ++ esc ++ "[0m "
  end%string.
Definition is_log_line (s : severity) (time : string) (n : log_name) (msg line : string) : Prop :=
  exists column, at_left 20 (String.concat "." n) column
  /\ line = (head_of s ++ time ++ " " ++ column ++ " " ++ msg ++ NL)%string.
