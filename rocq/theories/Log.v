(** * The loggers: log/logger.py and log/colored_formatter.py *)
From Verif Require Import Base PyStr.
From Coq Require Import ZArith.
Open Scope string_scope.
Open Scope list_scope.

(** The methods of Logger (logger.py:25-38) and the levels of the logging
    library they stand for. *)
Inductive severity : Set := Debug | Info | Warning | Error | Critical.
Definition level_of (s : severity) : Z :=
  match s with Debug => 10 | Info => 20 | Warning => 30 | Error => 40 | Critical => 50 end%Z.
Definition level_name (s : severity) : string :=
  match s with Debug => "DEBUG" | Info => "INFO" | Warning => "WARNING" | Error => "ERROR" | Critical => "CRITICAL" end.

(** The name of a logger is the dotted name of a module (the code passes
    __name__ only); [a.b.c] is the list of its parts.  So no logger is the root
    logger, which has no handler and the level WARNING. *)
Definition log_name := list string.
Definition name_eq (a b : log_name) : bool := if list_eq_dec string_dec a b then true else false.

(** colored_formatter.py:8-28: the colours and FORMATS. *)
Definition ESC : string := String (ascii_of_N 27) "".
Definition colour (s : severity) : string :=
  match s with
  | Debug => ESC ++ "[1;30m" | Info => ESC ++ "[0;37m" | Warning => ESC ++ "[0;33m"
  | Error => ESC ++ "[0;31m" | Critical => ESC ++ "[1;31m"
  end%string.
Definition reset : string := (ESC ++ "[0m")%string.
(** colored_formatter.py:30-33: format; [time] is the time of the call as
    written by datefmt.  The call passes no arguments, so a percent sign in
    [msg] is kept.  StreamHandler ends the line. *)
Definition log_line (s : severity) (time : string) (name : log_name) (msg : string) : string :=
  (colour s ++ "[" ++ ljust 8 (level_name s) ++ "]" ++ reset ++ " " ++ time ++ " " ++ ljust 20 (join "." name) ++ " " ++ msg ++ NL)%string.

(** What the logging library keeps under a name: the level set last and the
    number of handlers, which are all alike. *)
Record logger := mklogger { lg_level : Z; lg_handlers : nat }.
Record log_state := mklog { lg_class : Z; lg_known : list (log_name * logger) }.

Fixpoint lg_get (n : log_name) (l : list (log_name * logger)) : option logger :=
  match l with
  | [] => None
  | (k, g) :: r => if name_eq k n then Some g else lg_get n r
  end.

(** logger.py:9: at first the level of the class is WARNING. *)
Definition log_start : log_state := mklog 30 [].

Inductive log_op : Set :=
| SetLevel (z : Z)
| Create (n : log_name)
| Log (n : log_name) (s : severity) (time msg : string).

(** logger.py:12-14, set_log_level. *)
Definition set_log_level (z : Z) (st : log_state) : log_state := mklog z (lg_known st).

(** logger.py:16-23, __init__: getLogger gives the same object for the same
    name; the level is set and one more handler added. *)
Definition create_logger (n : log_name) (st : log_state) : log_state :=
  let k := match lg_get n (lg_known st) with Some g => lg_handlers g | None => 0%nat end in
  mklog (lg_class st) ((n, mklogger (lg_class st) (S k)) :: lg_known st).

(** The name and those above it, the longest first. *)
Fixpoint above_from (pre rest : log_name) : list log_name :=
  match rest with
  | [] => []
  | x :: r => above_from (pre ++ [x]) r ++ [pre ++ [x]]
  end.
Definition names_above (n : log_name) : list log_name := above_from [] n.

(** logging's getEffectiveLevel: the first level that is not NOTSET. *)
Fixpoint effective (st : log_state) (l : list log_name) : Z :=
  match l with
  | [] => 30%Z
  | n :: r => match lg_get n (lg_known st) with
              | Some g => if (lg_level g =? 0)%Z then effective st r else lg_level g
              | None => effective st r
              end
  end.

(** logger.py:25-38; logging's isEnabledFor and callHandlers: the handlers of
    the logger and of all loggers above it write the line. *)
Definition log_call (st : log_state) (n : log_name) (s : severity) (time msg : string) : list string :=
  if (effective st (names_above n) <=? level_of s)%Z
  then flat_map (fun k => match lg_get k (lg_known st) with
                          | Some g => repeat (log_line s time n msg) (lg_handlers g)
                          | None => []
                          end) (names_above n)
  else [].

(** One step; a call needs an object, which needs its [Create] before. *)
Definition log_step (st : log_state) (o : log_op) : log_state * list string :=
  match o with
  | SetLevel z => (set_log_level z st, [])
  | Create n => (create_logger n st, [])
  | Log n s time msg => (st, match lg_get n (lg_known st) with Some _ => log_call st n s time msg | None => [] end)
  end.

(** All lines of a history, in order. *)
Fixpoint log_run (st : log_state) (h : list log_op) : log_state * list string :=
  match h with
  | [] => (st, [])
  | o :: r => let (st1, out) := log_step st o in let (st2, out') := log_run st1 r in (st2, out ++ out')
  end.
