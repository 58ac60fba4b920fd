(** * General lemmas *)
From Verif Require Import Base.
From Coq Require Import ZifyBool ZifyNat ZifyN.

Lemma bind_ok : forall A B (r : result A) (f : A -> result B) b,
  bind r f = Ok b <-> exists a, r = Ok a /\ f a = Ok b.
Proof.
  intros A B [a|e|] f b; simpl; split; intros H.
  - exists a. auto.
  - destruct H as (a' & H & H'). injection H as ->. exact H'.
  - discriminate.
  - destruct H as (a' & H & _). discriminate.
  - discriminate.
  - destruct H as (a' & H & _). discriminate.
Qed.

Lemma bind_err : forall A B (r : result A) (f : A -> result B) e,
  bind r f = Err e <-> r = Err e \/ exists a, r = Ok a /\ f a = Err e.
Proof.
  intros A B [a|e'|] f e; simpl; split; intros H.
  - right. exists a. auto.
  - destruct H as [H|(a' & H & H')]; [discriminate|]. injection H as ->. exact H'.
  - left. congruence.
  - destruct H as [H|(a' & H & _)]; [congruence | discriminate].
  - discriminate.
  - destruct H as [H|(a' & H & _)]; discriminate.
Qed.

Lemma assert_ok : forall b e, assert b e = Ok tt <-> b = true.
Proof. intros [] e; simpl; split; intros H; congruence. Qed.

Lemma assert_ok' : forall b e u, assert b e = Ok u -> b = true.
Proof. intros [] e u; simpl; intros H; congruence. Qed.

(** Take apart a hypothesis [bind ... = Ok _]. *)
Ltac inv_ok :=
  repeat match goal with
  | H : bind _ _ = Ok _ |- _ =>
      let a := fresh "a" in let H1 := fresh "H" in
      apply bind_ok in H; destruct H as (a & H1 & H)
  | H : assert _ _ = Ok _ |- _ => apply assert_ok' in H
  | H : Ok _ = Ok _ |- _ => injection H as H; try subst
  | H : Err _ = Ok _ |- _ => discriminate H
  | H : OutOfFuel = Ok _ |- _ => discriminate H
  | x : unit |- _ => destruct x
  end.

Lemma for_each_ok : forall A (f : A -> result unit) l,
  for_each f l = Ok tt <-> Forall (fun x => f x = Ok tt) l.
Proof.
  intros A f l. induction l as [|x r IH]; simpl.
  - split; auto.
  - split; intros H.
    + inv_ok. constructor; [exact H0|]. apply IH. exact H.
    + inversion H as [|? ? H1 H2]; subst. rewrite H1. simpl. apply IH. exact H2.
Qed.

Lemma for_each_ok_in : forall A (f : A -> result unit) l,
  for_each f l = Ok tt <-> (forall x, In x l -> f x = Ok tt).
Proof. intros. rewrite for_each_ok, Forall_forall. reflexivity. Qed.

(** The outcome of a loop whose body can only fail with one error. *)
Lemma for_each_dec : forall A (f : A -> result unit) l e,
  (forall x, In x l -> f x = Ok tt \/ f x = Err e) ->
  for_each f l = Ok tt \/ (for_each f l = Err e /\ exists x, In x l /\ f x = Err e).
Proof.
  intros A f l e. induction l as [|x r IH]; simpl; intros H.
  - auto.
  - destruct (H x (or_introl eq_refl)) as [Hx|Hx]; rewrite Hx; simpl.
    + destruct IH as [IH|(IH & y & Hy & Hf)].
      * intros y Hy. apply H. auto.
      * left. exact IH.
      * right. split; [exact IH|]. exists y. auto.
    + right. split; [reflexivity|]. exists x. auto.
Qed.

Lemma map_result_ok : forall A B (f : A -> result B) l l',
  map_result f l = Ok l' <-> Forall2 (fun x y => f x = Ok y) l l'.
Proof.
  intros A B f l. induction l as [|x r IH]; simpl; intros l'.
  - split; intros H; [injection H as <-; constructor | inversion H; reflexivity].
  - split; intros H.
    + inv_ok. constructor; [exact H0|]. apply IH. exact H1.
    + inversion H as [|? y ? ys H1 H2]; subst. rewrite H1. simpl.
      apply IH in H2. rewrite H2. reflexivity.
Qed.

Lemma mem_In : forall s l, mem s l = true <-> In s l.
Proof.
  intros s l. unfold mem. rewrite existsb_exists. split.
  - intros (x & Hx & He). apply String.eqb_eq in He. subst. exact Hx.
  - intros H. exists s. split; [exact H | apply String.eqb_refl].
Qed.

Lemma mem_not_In : forall s l, mem s l = false <-> ~ In s l.
Proof.
  intros s l. rewrite <- mem_In. destruct (mem s l); split; intros; congruence.
Qed.

Lemma is_nil_true : forall A (l : list A), is_nil l = true <-> l = [].
Proof. intros A [|x l]; simpl; split; congruence. Qed.

Lemma set_diff_nil : forall a b, is_nil (set_diff a b) = true <-> incl a b.
Proof.
  intros a b. rewrite is_nil_true. unfold set_diff, incl. split; intros H.
  - intros x Hx. apply mem_In. destruct (mem x b) eqn:E; [reflexivity|].
    assert (Hin : In x (filter (fun x => negb (mem x b)) a)).
    { apply filter_In. rewrite E. auto. }
    rewrite H in Hin. destruct Hin.
  - destruct (filter (fun x => negb (mem x b)) a) as [|x l] eqn:E; [reflexivity|].
    assert (Hin : In x (filter (fun x => negb (mem x b)) a)) by (rewrite E; left; reflexivity).
    apply filter_In in Hin. destruct Hin as [Hin Hn]. apply H in Hin.
    apply mem_In in Hin. rewrite Hin in Hn. discriminate.
Qed.

Lemma dict_get_In : forall A k (l : list (string * A)) v,
  dict_get k l = Some v -> In (k, v) l.
Proof.
  intros A k l v. induction l as [|[k' v'] r IH]; simpl; intros H; [discriminate|].
  destruct (dict_get k r) as [w|] eqn:E.
  - right. apply IH. exact H.
  - destruct (String.eqb k k') eqn:Ek; [|discriminate].
    apply String.eqb_eq in Ek. injection H as ->. subst. left. reflexivity.
Qed.

Lemma dict_get_None : forall A k (l : list (string * A)),
  dict_get k l = None <-> ~ In k (map fst l).
Proof.
  intros A k l. induction l as [|[k' v'] r IH]; simpl.
  - split; auto.
  - destruct (dict_get k r) as [w|] eqn:E.
    + split; [discriminate|]. intros H. exfalso. apply H. right.
      apply dict_get_In in E. apply in_map with (f := fst) in E. exact E.
    + destruct (String.eqb k k') eqn:Ek.
      * apply String.eqb_eq in Ek. subst. split; [discriminate|]. intros H.
        exfalso. apply H. auto.
      * apply String.eqb_neq in Ek. split; [|reflexivity]. intros _ [H|H].
        -- congruence.
        -- apply IH in H; auto.
Qed.

Lemma dict_get_NoDup : forall A k v (l : list (string * A)),
  NoDup (map fst l) -> In (k, v) l -> dict_get k l = Some v.
Proof.
  intros A k v l. induction l as [|[k' v'] r IH]; simpl; intros Hn Hi; [destruct Hi|].
  inversion Hn as [|? ? Hk Hr]; subst.
  destruct Hi as [Hi|Hi].
  - injection Hi as -> ->. apply dict_get_None in Hk. rewrite Hk.
    rewrite String.eqb_refl. reflexivity.
  - rewrite (IH Hr Hi). reflexivity.
Qed.

Lemma dedup_In : forall x l, In x (dedup l) <-> In x l.
Proof.
  intros x l. induction l as [|y r IH]; simpl; [tauto|].
  rewrite filter_In, IH. destruct (String.eqb y x) eqn:E; simpl.
  - apply String.eqb_eq in E. subst. tauto.
  - apply String.eqb_neq in E. intuition congruence.
Qed.

Lemma Forall2_length : forall A B (R : A -> B -> Prop) l l',
  Forall2 R l l' -> length l = length l'.
Proof. intros A B R l l' H. induction H; simpl; congruence. Qed.

Lemma Forall2_impl : forall A B (R S : A -> B -> Prop) l l',
  (forall x y, R x y -> S x y) -> Forall2 R l l' -> Forall2 S l l'.
Proof. intros A B R S l l' H HF. induction HF; constructor; auto. Qed.

Lemma Forall2_in_l : forall A B (R : A -> B -> Prop) l l' x,
  Forall2 R l l' -> In x l -> exists y, In y l' /\ R x y.
Proof.
  intros A B R l l' x H. induction H; simpl; intros Hx; [destruct Hx|].
  destruct Hx as [->|Hx].
  - exists y. auto.
  - destruct (IHForall2 Hx) as (z & Hz & Hr). exists z. auto.
Qed.

Lemma Forall2_in_r : forall A B (R : A -> B -> Prop) l l' y,
  Forall2 R l l' -> In y l' -> exists x, In x l /\ R x y.
Proof.
  intros A B R l l' y H. induction H; simpl; intros Hy; [destruct Hy|].
  destruct Hy as [->|Hy].
  - exists x. auto.
  - destruct (IHForall2 Hy) as (z & Hz & Hr). exists z. auto.
Qed.

Lemma nth_error_list_set : forall A n (x : A) l i,
  nth_error (list_set n x l) i =
  if Nat.eqb i n then (if Nat.ltb n (length l) then Some x else None) else nth_error l i.
Proof.
  intros A n x l. revert n. induction l as [|y r IH]; intros n i; simpl.
  - destruct n; destruct i; simpl; try reflexivity.
    destruct (Nat.eqb i n); reflexivity.
  - destruct n; destruct i; simpl; try reflexivity. apply IH.
Qed.

Lemma list_set_length : forall A n (x : A) l, length (list_set n x l) = length l.
Proof.
  intros A n x l. revert n. induction l as [|y r IH]; intros [|n]; simpl; congruence.
Qed.

Lemma NoDup_app_iff : forall A (a b : list A),
  NoDup (a ++ b) <-> NoDup a /\ NoDup b /\ (forall x, In x a -> ~ In x b).
Proof.
  intros A a b. induction a as [|x r IH]; simpl.
  - split; [intros H; repeat split; auto; constructor | tauto].
  - split.
    + intros H. inversion H as [|? ? Hx Hr]; subst. apply IH in Hr.
      destruct Hr as (Ha & Hb & Hd). rewrite in_app_iff in Hx. repeat split.
      * constructor; tauto.
      * exact Hb.
      * intros y [->|Hy]; [tauto | apply Hd; exact Hy].
    + intros (Ha & Hb & Hd). inversion Ha as [|? ? Hx Hr]; subst. constructor.
      * rewrite in_app_iff. intros [H|H]; [tauto|]. apply (Hd x); auto.
      * apply IH. repeat split; auto.
Qed.

Lemma filter_false_nil : forall A (f : A -> bool) l,
  (forall x, In x l -> f x = false) -> filter f l = [].
Proof.
  intros A f l. induction l as [|x r IH]; simpl; intros H; [reflexivity|].
  rewrite (H x (or_introl eq_refl)). apply IH. intros y Hy. apply H. auto.
Qed.

Lemma find_some_iff_In : forall A (f : A -> bool) l,
  (exists x, find f l = Some x) <-> exists x, In x l /\ f x = true.
Proof.
  intros A f l. split.
  - intros (x & H). apply find_some in H. exists x. exact H.
  - intros (x & Hx & Hf). destruct (find f l) as [y|] eqn:E.
    + exists y. reflexivity.
    + exfalso. apply (find_none _ _ E) in Hx. congruence.
Qed.
