(** * Proofs about the loggers *)
From Coq Require Import ZArith Lia List.
From Verif Require Import Base PyStr Spec_Cosmos Log Spec_Log Str_proofs Cosmos_text_proofs.
Open Scope string_scope.
Open Scope list_scope.

Notation after h := (fst (log_run log_start h)).
Notation printed h := (snd (log_run log_start h)).

Lemma run_app : forall h1 h2 st, log_run st (h1 ++ h2)
  = (fst (log_run (fst (log_run st h1)) h2), snd (log_run st h1) ++ snd (log_run (fst (log_run st h1)) h2)).
Proof.
  induction h1 as [|o h1 IH]; intros h2 st; cbn [log_run app fst snd].
  - destruct (log_run st h2); reflexivity.
  - destruct (log_step st o) as [st1 out]. rewrite IH. destruct (log_run st1 h1) as [st2 out2]. cbn [fst snd].
    destruct (log_run st2 h2) as [st3 out3]. cbn [fst snd]. rewrite app_assoc. reflexivity.
Qed.

Lemma name_eq_iff : forall a b, name_eq a b = true <-> a = b.
Proof. intros a b. unfold name_eq. destruct (list_eq_dec string_dec a b); split; congruence. Qed.

Lemma op_dec : forall n o, {o = Create n} + {o <> Create n}.
Proof.
  intros n [z|k|k s t m]; try (right; discriminate). destruct (list_eq_dec string_dec k n) as [->|N]; [left; reflexivity|right; congruence].
Qed.

(** ** The state after a history *)
Definition makes_it (n : log_name) (o : log_op) : bool := match o with Create k => name_eq k n | _ => false end.

Lemma class_app : forall h o z, class_level (h ++ [o]) z <-> match o with SetLevel y => z = y | _ => class_level h z end.
Proof.
  intros h o z. split.
  - intros [(h1 & h2 & E & N)|(-> & N)].
    + destruct h2 as [|y h2] using rev_ind.
      * apply app_inj_tail in E as (_ & ->). reflexivity.
      * clear IHh2. rewrite app_comm_cons, app_assoc in E. apply app_inj_tail in E as (-> & ->).
        assert (M : class_level (h1 ++ SetLevel z :: h2) z).
        { left. exists h1, h2. split; [reflexivity|]. intros z' H. apply (N z'). apply in_or_app. auto. }
        destruct y as [y|k|k s t m]; [|exact M..]. destruct (N y). apply in_or_app. right. left. reflexivity.
    + destruct o as [y|k|k s t m]; [destruct (N y); apply in_or_app; right; left; reflexivity|right..]; (split; [reflexivity|]);
        intros z' H; apply (N z'); apply in_or_app; auto.
  - destruct o as [y|k|k s t m].
    + intros ->. left. exists h, []. split; [reflexivity|]. intros z' [].
    + intros [(h1 & h2 & -> & N)|(-> & N)]; [left; exists h1, (h2 ++ [Create k]); split; [rewrite <- app_assoc; reflexivity|]|right; split; [reflexivity|]];
        intros z' H; apply in_app_iff in H as [H|[H|[]]]; try discriminate H; exact (N z' H).
    + intros [(h1 & h2 & -> & N)|(-> & N)]; [left; exists h1, (h2 ++ [Log k s t m]); split; [rewrite <- app_assoc; reflexivity|]|right; split; [reflexivity|]];
        intros z' H; apply in_app_iff in H as [H|[H|[]]]; try discriminate H; exact (N z' H).
Qed.

Lemma made_app : forall h o n z, made_at (h ++ [o]) n z <-> (o = Create n /\ class_level h z) \/ (o <> Create n /\ made_at h n z).
Proof.
  intros h o n z. split.
  - intros (h1 & h2 & E & N & C). destruct h2 as [|y h2] using rev_ind.
    + apply app_inj_tail in E as (-> & ->). left. auto.
    + clear IHh2. rewrite app_comm_cons, app_assoc in E. apply app_inj_tail in E as (-> & ->). right. split.
      * intros ->. apply N. apply in_or_app. right. left. reflexivity.
      * exists h1, h2. split; [reflexivity|]. split; [|exact C]. intros H. apply N. apply in_or_app. auto.
  - intros [(-> & C)|(N & h1 & h2 & -> & N2 & C)].
    + exists h, []. split; [reflexivity|]. split; [intros []|exact C].
    + exists h1, (h2 ++ [o]). split; [rewrite <- app_assoc; reflexivity|]. split; [|exact C].
      intros H. apply in_app_iff in H as [H|[H|[]]]; auto.
Qed.

Lemma state_after : forall h, (forall z, class_level h z <-> z = lg_class (after h))
  /\ forall n, match lg_get n (lg_known (after h)) with
               | Some g => (forall z, made_at h n z <-> z = lg_level g) /\ lg_handlers g = length (filter (makes_it n) h)
               | None => (forall z, ~ made_at h n z) /\ ~ In (Create n) h /\ length (filter (makes_it n) h) = 0%nat
               end.
Proof.
  induction h as [|o h IH] using rev_ind.
  - split.
    + intros z. split; [intros [(h1 & h2 & E & _)|(-> & _)]; [destruct h1; discriminate E|reflexivity]|intros ->; right; split; [reflexivity|intros z' []]].
    + intros n. cbn. split; [intros z (h1 & h2 & E & _); destruct h1; discriminate E|auto].
  - rewrite run_app. cbn [fst snd]. destruct IH as (C & K). set (st := after h) in *. clearbody st.
    assert (X : forall n, length (filter (makes_it n) (h ++ [o])) = (length (filter (makes_it n) h) + if makes_it n o then 1 else 0)%nat).
    { intros n. rewrite filter_app, app_length. cbn [filter]. destruct (makes_it n o); reflexivity. }
    destruct o as [y|k|k s t m]; cbn [log_run log_step fst].
    + split; [intros z; rewrite class_app; reflexivity|]. intros n. cbn [set_log_level lg_known]. specialize (K n). rewrite X. cbn [makes_it]. rewrite Nat.add_0_r.
      destruct (lg_get n (lg_known st)) as [g|].
      * destruct K as (K1 & K2). split; [|exact K2]. intros z. rewrite made_app, <- K1. split; [intros [(E & _)|(_ & H)]; [discriminate E|exact H]|]. intros H. right. split; [discriminate|exact H].
      * destruct K as (K1 & K2 & K3). split; [intros z H; apply made_app in H as [(E & _)|(_ & H)]; [discriminate E|exact (K1 z H)]|]. split; [|exact K3].
        intros H. apply in_app_iff in H as [H|[H|[]]]; [auto|discriminate H].
    + split; [intros z; rewrite class_app; apply C|]. intros n. cbn [create_logger lg_known lg_get]. rewrite X. cbn [makes_it].
      destruct (name_eq k n) eqn:E.
      * apply name_eq_iff in E as ->. cbn [lg_level lg_handlers]. split.
        { intros z. rewrite made_app, C. split; [intros [(_ & H)|(N & _)]; [exact H|congruence]|auto]. }
        specialize (K n). destruct (lg_get n (lg_known st)) as [g|]; [destruct K as (_ & ->)|destruct K as (_ & _ & ->)]; lia.
      * assert (N : Create k <> Create n) by (intros Y; injection Y as ->; assert (name_eq n n = true) by (apply name_eq_iff; reflexivity); congruence).
        rewrite Nat.add_0_r. specialize (K n). destruct (lg_get n (lg_known st)) as [g|].
        { destruct K as (K1 & K2). split; [|exact K2]. intros z. rewrite made_app, <- K1. split; [intros [(Y & _)|(_ & H)]; [contradiction|exact H]|auto]. }
        { destruct K as (K1 & K2 & K3). split; [intros z H; apply made_app in H as [(Y & _)|(_ & H)]; [contradiction|exact (K1 z H)]|]. split; [|exact K3].
          intros H. apply in_app_iff in H as [H|[H|[]]]; auto. }
    + split; [intros z; rewrite class_app; apply C|]. intros n. specialize (K n). rewrite X. cbn [makes_it]. rewrite Nat.add_0_r.
      destruct (lg_get n (lg_known st)) as [g|].
      * destruct K as (K1 & K2). split; [|exact K2]. intros z. rewrite made_app, <- K1. split; [intros [(E & _)|(_ & H)]; [discriminate E|exact H]|]. intros H. right. split; [discriminate|exact H].
      * destruct K as (K1 & K2 & K3). split; [intros z H; apply made_app in H as [(E & _)|(_ & H)]; [discriminate E|exact (K1 z H)]|]. split; [|exact K3].
        intros H. apply in_app_iff in H as [H|[H|[]]]; [auto|discriminate H].
Qed.

(** ** Names above *)
Lemma above_snoc : forall r pre x, above_from pre (r ++ [x]) = (pre ++ r ++ [x]) :: above_from pre r.
Proof.
  induction r as [|y r IH]; intros pre x; cbn [above_from app]; [reflexivity|]. rewrite IH, <- app_assoc. reflexivity.
Qed.
Lemma names_snoc : forall n x, names_above (n ++ [x]) = (n ++ [x]) :: names_above n.
Proof. intros. unfold names_above. rewrite above_snoc. reflexivity. Qed.

Lemma begins_iff : forall k n, begins k n = true <-> exists r, n = k ++ r.
Proof.
  induction k as [|x k IH]; intros n; cbn [begins].
  - split; [intros _; exists n; reflexivity|reflexivity].
  - destruct n as [|y n].
    + split; [discriminate|intros (r & E); discriminate E].
    + rewrite andb_true_iff, String.eqb_eq, IH. split; [intros (-> & r & ->); exists r; reflexivity|intros (r & E); injection E as -> ->; split; [reflexivity|eauto]].
Qed.

Lemma names_in_above : forall n k, In k (names_above n) <-> k <> [] /\ begins k n = true.
Proof.
  induction n as [|x n IH] using rev_ind; intros k.
  - split; [intros []|]. intros (N & B). apply begins_iff in B as (r & E). destruct k; [congruence|discriminate E].
  - rewrite names_snoc. cbn [In]. rewrite IH, !begins_iff. split.
    + intros [<-|(N & r & ->)]; [split; [destruct n; discriminate|exists []; rewrite app_nil_r; reflexivity]|].
      split; [exact N|]. exists (r ++ [x]). rewrite app_assoc. reflexivity.
    + intros (N & r & E). destruct r as [|y r] using rev_ind; [left; rewrite app_nil_r in E; exact E|].
      clear IHr. rewrite app_assoc in E. apply app_inj_tail in E as (-> & _). right. split; [exact N|eauto].
Qed.

Lemma names_length : forall n k, In k (names_above n) -> (length k <= length n)%nat.
Proof. intros n k H. apply names_in_above in H as (_ & B). apply begins_iff in B as (r & ->). rewrite app_length. lia. Qed.

Lemma names_nodup : forall n, NoDup (names_above n).
Proof.
  induction n as [|x n IH] using rev_ind; [constructor|]. rewrite names_snoc. constructor; [|exact IH].
  intros H. apply names_length in H. rewrite app_length in H. cbn in H. lia.
Qed.

Fixpoint total (f : log_name -> nat) (l : list log_name) : nat := match l with [] => 0%nat | n :: r => (f n + total f r)%nat end.

Lemma total_ext : forall f g l, (forall n, In n l -> f n = g n) -> total f l = total g l.
Proof. intros f g l. induction l as [|n l IH]; intros H; cbn [total]; [reflexivity|]. rewrite (H n), IH; [reflexivity| |left; reflexivity]. intros k Hk. apply H. right. exact Hk. Qed.
Lemma total_add : forall f g l, total (fun n => f n + g n)%nat l = (total f l + total g l)%nat.
Proof. intros f g l. induction l as [|n l IH]; cbn [total]; lia. Qed.
Lemma total_one : forall k l, NoDup l -> total (fun n => if name_eq k n then 1 else 0)%nat l = if in_dec (list_eq_dec string_dec) k l then 1%nat else 0%nat.
Proof.
  intros k l. induction 1 as [|n l N D IH]; [reflexivity|]. cbn [total]. rewrite IH. clear IH. unfold name_eq.
  destruct (list_eq_dec string_dec k n) as [->|E].
  - destruct (in_dec (list_eq_dec string_dec) n l); [contradiction|]. destruct (in_dec (list_eq_dec string_dec) n (n :: l)) as [|X]; [reflexivity|]. destruct X. left. reflexivity.
  - destruct (in_dec (list_eq_dec string_dec) k l) as [H|H], (in_dec (list_eq_dec string_dec) k (n :: l)) as [H'|H']; try reflexivity; exfalso.
    + apply H'. right. exact H.
    + destruct H' as [H'|H']; [congruence|auto].
Qed.

Lemma total_made : forall h n, named h -> total (fun k => length (filter (makes_it k) h)) (names_above n) = times_made h n.
Proof.
  intros h n. unfold times_made. induction h as [|o h IH]; intros Nm.
  - cbn. induction (names_above n) as [|k l IHl]; [reflexivity|exact IHl].
  - assert (Nm' : named h) by (intros k Hk; apply Nm; right; exact Hk). specialize (IH Nm').
    rewrite (total_ext _ (fun k => (if makes_it k o then 1 else 0) + length (filter (makes_it k) h))%nat).
    2:{ intros k _. cbn [filter]. destruct (makes_it k o); reflexivity. }
    rewrite total_add, IH. cbn [filter]. destruct o as [z|k|k s t m].
    + cbn [makes_it makes]. rewrite (total_ext _ (fun k => (if name_eq [] k then 1 else 0))%nat).
      * rewrite total_one by apply names_nodup. destruct (in_dec (list_eq_dec string_dec) [] (names_above n)) as [H|H]; [|reflexivity].
        apply names_in_above in H as (H & _). congruence.
      * intros k Hk. apply names_in_above in Hk as (Hk & _). unfold name_eq. destruct (list_eq_dec string_dec [] k); congruence.
    + cbn [makes_it makes]. rewrite total_one by apply names_nodup. destruct (in_dec (list_eq_dec string_dec) k (names_above n)) as [H|H].
      * apply names_in_above in H as (_ & ->). reflexivity.
      * destruct (begins k n) eqn:B; [|reflexivity]. destruct H. apply names_in_above. split; [|exact B]. apply Nm. left. reflexivity.
    + cbn [makes_it makes]. rewrite (total_ext _ (fun k => (if name_eq [] k then 1 else 0))%nat).
      * rewrite total_one by apply names_nodup. destruct (in_dec (list_eq_dec string_dec) [] (names_above n)) as [H|H]; [|reflexivity].
        apply names_in_above in H as (H & _). congruence.
      * intros k' Hk. apply names_in_above in Hk as (Hk & _). unfold name_eq. destruct (list_eq_dec string_dec [] k'); congruence.
Qed.

(** ** The threshold *)
Lemma threshold_effective : forall h n z, named h -> (threshold h n z <-> z = effective (after h) (names_above n)).
Proof.
  intros h n z Nm. destruct (state_after h) as (_ & K). set (st := after h) in *. clearbody st. revert z.
  assert (Top : forall z, ~ made_at h [] z) by (intros z (h1 & h2 & E & _); apply (Nm []); [rewrite E; apply in_or_app; right; left; reflexivity|reflexivity]).
  induction n as [|x n IH] using rev_ind; intros z.
  - cbn. split; [|intros ->; constructor]. intros T. inversion T as [|k z' M|k y z' _ _ E]; subst; [reflexivity|destruct (Top _ M)|destruct k; discriminate E].
  - rewrite names_snoc. cbn [effective]. specialize (K (n ++ [x])). destruct (lg_get (n ++ [x]) (lg_known st)) as [g|].
    + destruct K as (K & _). destruct (lg_level g =? 0)%Z eqn:E.
      * apply Z.eqb_eq in E. rewrite <- IH. split.
        { intros T. inversion T as [E'|k z' M N|k y z' M T' E']; subst; [destruct n; discriminate|apply K in M; congruence|].
          apply app_inj_tail in E' as (-> & ->). exact T'. }
        { intros T. apply threshold_above; [|exact T]. intros z' M. apply K in M. congruence. }
      * apply Z.eqb_neq in E. split.
        { intros T. inversion T as [E'|k z' M N|k y z' M T' E']; subst; [destruct n; discriminate|apply K; exact M|].
          destruct E. apply app_inj_tail in E' as (-> & ->). apply M. apply K. reflexivity. }
        { intros ->. apply threshold_own; [apply K; reflexivity|exact E]. }
    + destruct K as (K & _). rewrite <- IH. split.
      * intros T. inversion T as [E'|k z' M N|k y z' M T' E']; subst; [destruct n; discriminate|destruct (K _ M)|].
        apply app_inj_tail in E' as (-> & ->). exact T'.
      * intros T. apply threshold_above; [|exact T]. intros z' M. destruct (K _ M).
Qed.

Theorem log_threshold : forall h n, named h -> exists z, threshold h n z /\ forall z', threshold h n z' -> z' = z.
Proof.
  intros h n Nm. exists (effective (after h) (names_above n)). split; [apply threshold_effective; auto|].
  intros z'. apply threshold_effective. exact Nm.
Qed.

(** ** The lines of a call *)
Lemma line_spec : forall s t n m, is_log_line s t n m (log_line s t n m).
Proof.
  intros s t n m. exists (ljust 20 (join "." n)). split; [apply ljust_left|]. unfold log_line.
  destruct s; reflexivity.
Qed.

Lemma flat_repeat : forall (x : string) f l, flat_map (fun k => repeat x (f k)) l = repeat x (total f l).
Proof. intros x f l. induction l as [|k l IH]; cbn [flat_map total]; [reflexivity|]. rewrite IH, <- repeat_app. reflexivity. Qed.

Theorem log_lines : forall h n s time msg z, named h -> In (Create n) h -> threshold h n z ->
  exists line, is_log_line s time n msg line
  /\ printed (h ++ [Log n s time msg]) = printed h ++ (if (z <=? number_of s)%Z then repeat line (times_made h n) else []).
Proof.
  intros h n s time msg z Nm Hin T. exists (log_line s time n msg). split; [apply line_spec|].
  rewrite run_app. cbn [snd log_run log_step]. rewrite app_nil_r. f_equal.
  apply threshold_effective in T; [|exact Nm]. rewrite <- (total_made h n Nm).
  destruct (state_after h) as (_ & K). set (st := after h) in *. clearbody st.
  assert (Kn := K n). destruct (lg_get n (lg_known st)) as [g|]; [|destruct Kn as (_ & X & _); contradiction]. clear Kn g.
  unfold log_call. rewrite <- T. change (number_of s) with (level_of s). destruct (z <=? level_of s)%Z; [|reflexivity].
  rewrite <- flat_repeat. clear T Hin. induction (names_above n) as [|k l IH]; [reflexivity|]. cbn [flat_map]. rewrite IH. f_equal.
  specialize (K k). destruct (lg_get k (lg_known st)) as [g|]; [destruct K as (_ & ->); reflexivity|destruct K as (_ & _ & ->); reflexivity].
Qed.

(** ** Nothing is printed by default *)
Theorem log_silent : forall h, named h -> (forall z, ~ In (SetLevel z) h) ->
  (forall n s time msg, In (Log n s time msg) h -> s = Debug \/ s = Info) -> printed h = [].
Proof.
  induction h as [|o h IH] using rev_ind; intros Nm Ns Nl; [reflexivity|].
  assert (Nm' : named h) by (intros k Hk; apply Nm; apply in_or_app; auto).
  assert (P : printed h = []).
  { apply IH; [exact Nm'|intros z H; apply (Ns z); apply in_or_app; auto|intros n s t m H; apply (Nl n s t m); apply in_or_app; auto]. }
  destruct o as [z|k|n s t m]; [rewrite run_app; cbn [snd log_run log_step]; rewrite P; reflexivity..|].
  assert (D : {In (Create n) h} + {~ In (Create n) h}).
  { clear. induction h as [|o h IH]; [right; intros []|]. destruct (op_dec n o) as [->|N]; [left; left; reflexivity|].
    destruct IH as [H|H]; [left; right; exact H|right; intros [X|X]; auto]. }
  destruct D as [H|H].
  - assert (T : threshold h n 30).
    { clear H. assert (M : forall k z, made_at h k z -> z = 30%Z).
      { intros k z (h1 & h2 & E & _ & [(h3 & h4 & E' & _)|(-> & _)]); [|reflexivity]. exfalso. apply (Ns z). apply in_or_app. left.
        rewrite E, E'. apply in_or_app. left. apply in_or_app. right. left. reflexivity. }
      clear Nl Ns Nm IH P. destruct (log_threshold h n Nm') as (z & T & _). replace 30%Z with z; [exact T|].
      induction T as [|k z M'|k x z _ _ IH]; [reflexivity|eapply M; eassumption|exact IH]. }
    destruct (log_lines h n s t m 30 Nm' H T) as (line & _ & ->). rewrite P.
    destruct (Nl n s t m) as [->| ->]; [apply in_or_app; right; left; reflexivity|reflexivity..].
  - rewrite run_app. cbn [snd log_run log_step]. rewrite P. destruct (state_after h) as (_ & K). specialize (K n).
    destruct (lg_get n (lg_known (after h))) as [g|]; [|reflexivity]. exfalso. destruct K as (K & _).
    destruct (proj2 (K (lg_level g)) eq_refl) as (h1 & h2 & E & _). apply H. rewrite E. apply in_or_app. right. left. reflexivity.
Qed.

(** ** A level set late *)
Theorem log_late : forall h z rest, (forall n, ~ In (Create n) rest) -> printed (h ++ SetLevel z :: rest) = printed (h ++ rest).
Proof.
  intros h z rest N. rewrite !run_app. cbn [snd log_run log_step]. f_equal.
  assert (X : forall st1 st2, lg_known st1 = lg_known st2 -> snd (log_run st1 rest) = snd (log_run st2 rest)).
  { induction rest as [|o rest IH]; intros st1 st2 E; [reflexivity|].
    assert (N' : forall n, ~ In (Create n) rest) by (intros n H; apply (N n); right; exact H). cbn [log_run].
    assert (Ef : forall l, effective st1 l = effective st2 l) by (induction l as [|k l IHl]; cbn [effective]; [reflexivity|rewrite E, IHl; reflexivity]).
    destruct o as [y|k|n s t m]; cbn [log_step].
    - specialize (IH N' (set_log_level y st1) (set_log_level y st2) E).
      destruct (log_run (set_log_level y st1) rest), (log_run (set_log_level y st2) rest). cbn [snd] in *. rewrite IH. reflexivity.
    - destruct (N k). left. reflexivity.
    - specialize (IH N' st1 st2 E). destruct (log_run st1 rest), (log_run st2 rest). cbn [snd] in *. rewrite IH. unfold log_call. rewrite E, Ef. reflexivity. }
  specialize (X (set_log_level z (after h)) (after h) eq_refl). destruct (log_run (set_log_level z (after h)) rest). cbn [snd] in *. exact X.
Qed.

(** ** Lines can be read back *)
Lemma word_inv : forall a b x y, ~ has_char " " a -> ~ has_char " " b -> (a ++ " " ++ x = b ++ " " ++ y)%string -> a = b /\ x = y.
Proof.
  induction a as [|c a IH]; intros b x y Na Nb E; destruct b as [|d b]; cbn [append] in E.
  - injection E as <-. auto.
  - injection E as E1 _. destruct Nb. left. auto.
  - injection E as E1 _. destruct Na. left. auto.
  - injection E as -> E. destruct (IH b x y) as (-> & ->); auto.
    + intros H. apply Na. right. exact H.
    + intros H. apply Nb. right. exact H.
Qed.

Lemma spaces_unique : forall n s a b, at_left n s a -> at_left n s b -> a = b.
Proof.
  intros n s a b (x & -> & X & L) (y & -> & Y & L'). rewrite <- L' in L. clear L' n. f_equal.
  rewrite !string_length_app in L. assert (E : String.length x = String.length y) by lia. clear L.
  revert y Y E. induction x as [|c x IH]; intros [|d y] Y E; try discriminate E; [reflexivity|]. f_equal.
  - rewrite (X c), (Y d); [reflexivity|left; reflexivity..].
  - apply IH; [intros e H; apply X; right; exact H|intros e H; apply Y; right; exact H|]. cbn in E. lia.
Qed.

Theorem log_read : forall s t n m s' t' n' m' line, String.length t = String.length t' ->
  ~ has_char " " (String.concat "." n) -> ~ has_char " " (String.concat "." n') ->
  is_log_line s t n m line -> is_log_line s' t' n' m' line -> s = s' /\ t = t' /\ String.concat "." n = String.concat "." n' /\ m = m'.
Proof.
  intros s t n m s' t' n' m' line Lt Nn Nn' (c & C & ->) (c' & C' & E).
  set (a := String.concat "." n) in *. set (a' := String.concat "." n') in *. clearbody a a'.
  assert (S : s = s') by (destruct s, s'; try reflexivity; discriminate E). subst s'. apply string_app_inv_l in E.
  destruct (string_app_inv_len t t' _ _ Lt E) as (-> & E'). clear E. injection E' as E.
  assert (A : a = a').
  { destruct C as (x & -> & X & _), C' as (y & -> & Y & _).
    assert (H : forall u x r, (forall c, has_char c x -> c = " "%char) -> exists r', ((u ++ x) ++ " " ++ r = u ++ " " ++ r')%string).
    { intros u [|d w] r W; [exists r; rewrite string_app_nil; reflexivity|]. rewrite (W d) by (left; reflexivity).
      exists (w ++ " " ++ r)%string. rewrite <- string_app_assoc. reflexivity. }
    destruct (H a x (m ++ NL)%string X) as (r & R), (H a' y (m' ++ NL)%string Y) as (r' & R').
    assert (E2 : (a ++ " " ++ r = a' ++ " " ++ r')%string) by (rewrite <- R, <- R'; exact E). apply word_inv in E2 as (-> & _); auto. }
  subst a'. rewrite (spaces_unique _ _ _ _ C C') in E. apply string_app_inv_l in E. injection E as E. apply string_app_inv_r in E. auto.
Qed.
