(** * Property C109: what the loggers print *)
From Coq Require Import ZArith List.
From Verif Require Import Base PyStr Spec_Cosmos Log Spec_Log Log_proofs.
Open Scope string_scope.
Open Scope list_scope.

(** C109.  After any history of loggers made, levels set and messages logged, a
    message of a logger that was made adds its line (Spec_Log) as often as
    loggers of this name or of one above it were made, if its level reaches the
    threshold; otherwise it adds nothing. *)
Theorem C109_lines : forall h n s time msg z, named h -> In (Create n) h -> threshold h n z ->
  exists line, is_log_line s time n msg line
  /\ snd (log_run log_start (h ++ [Log n s time msg]))
     = snd (log_run log_start h) ++ (if (z <=? number_of s)%Z then repeat line (times_made h n) else []).
Proof. exact log_lines. Qed.
Print Assumptions C109_lines.

Theorem C109_threshold : forall h n, named h -> exists z, threshold h n z /\ forall z', threshold h n z' -> z' = z.
Proof. exact log_threshold. Qed.
Print Assumptions C109_threshold.

(** The code logs with debug and info only and sets no level: nothing is
    printed. *)
Theorem C109_silent : forall h, named h -> (forall z, ~ In (SetLevel z) h) ->
  (forall n s time msg, In (Log n s time msg) h -> s = Debug \/ s = Info) -> snd (log_run log_start h) = [].
Proof. exact log_silent. Qed.
Print Assumptions C109_silent.

(** A level set when all loggers are made changes nothing. *)
Theorem C109_late : forall h z rest, (forall n, ~ In (Create n) rest) ->
  snd (log_run log_start (h ++ SetLevel z :: rest)) = snd (log_run log_start (h ++ rest)).
Proof. exact log_late. Qed.
Print Assumptions C109_late.

(** A line shows level, time, name and message: times have one length and names
    of modules no blank. *)
Theorem C109_read : forall s t n m s' t' n' m' line, String.length t = String.length t' ->
  ~ has_char " " (String.concat "." n) -> ~ has_char " " (String.concat "." n') ->
  is_log_line s t n m line -> is_log_line s' t' n' m' line -> s = s' /\ t = t' /\ String.concat "." n = String.concat "." n' /\ m = m'.
Proof. exact log_read. Qed.
Print Assumptions C109_read.

(** Not every message is printed once. *)
Theorem C109_once_refuted : exists h n s time msg, named h /\ In (Create n) h
  /\ length (snd (log_run log_start (h ++ [Log n s time msg]))) = 2%nat.
Proof.
  exists [Create ["a"]; Create ["a"; "b"]], ["a"; "b"], Error, "t", "m". split; [|split; [right; left; reflexivity|reflexivity]].
  intros n [E|[E|[]]]; injection E as <-; discriminate.
Qed.
Print Assumptions C109_once_refuted.

(** A logger made while the level is NOTSET asks the one above. *)
Example C109_sample : let h := [SetLevel 20; Create ["a"]; Log ["a"] Debug "t" "x"; SetLevel 0; Create ["a"; "b"; "c"]; SetLevel 50] in
  named h /\ In (Create ["a"; "b"; "c"]) h /\ threshold h ["a"; "b"; "c"] 20 /\ times_made h ["a"; "b"; "c"] = 2%nat
  /\ snd (log_run log_start (h ++ [Log ["a"; "b"; "c"] Info "2020-01-01 10:00:00" "50%"]))
     = repeat (String (ascii_of_N 27) "[0;37m[INFO    ]" ++ String (ascii_of_N 27) "[0m 2020-01-01 10:00:00 a.b.c                50%" ++ NL)%string 2
  /\ ~ has_char " " (String.concat "." ["a"; "b"; "c"]).
Proof.
  intros h. assert (Nm : named h) by (intros n [H|[H|[H|[H|[H|[H|[]]]]]]]; try discriminate H; injection H as <-; discriminate).
  split; [exact Nm|]. split; [do 4 right; left; reflexivity|]. split; [apply threshold_effective; [exact Nm|reflexivity]|].
  split; [reflexivity|]. split; [vm_compute; reflexivity|]. cbn. intuition discriminate.
Qed.

Example C109_silent_sample : let h := [Create ["a"; "b"]; Log ["a"; "b"] Info "t" "x"] in
  named h /\ (forall z, ~ In (SetLevel z) h) /\ forall n s time msg, In (Log n s time msg) h -> s = Debug \/ s = Info.
Proof.
  split; [intros n [E|[E|[]]]; [injection E as <-; discriminate|discriminate E]|].
  split; [intros z [E|[E|[]]]; discriminate E|]. intros n s t m [E|[E|[]]]; [discriminate E|]. injection E as _ <- _ _. right. reflexivity.
Qed.
