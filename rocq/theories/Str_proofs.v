(** * Lemmas on strings *)
From Verif Require Import Base PyStr.
Open Scope string_scope.

Lemma string_app_assoc : forall a b c : string, a ++ (b ++ c) = (a ++ b) ++ c.
Proof. induction a as [|x a IH]; intros b c; simpl; [reflexivity|]. rewrite IH. reflexivity. Qed.

Lemma string_app_nil : forall a : string, a ++ "" = a.
Proof. induction a as [|x a IH]; simpl; [reflexivity|]. rewrite IH. reflexivity. Qed.

Lemma string_app_inv_l : forall a b c : string, a ++ b = a ++ c -> b = c.
Proof. induction a as [|x a IH]; simpl; intros b c H; [exact H|]. injection H as H. auto. Qed.

Lemma string_length_app : forall a b : string,
  String.length (a ++ b) = (String.length a + String.length b)%nat.
Proof. induction a as [|x a IH]; simpl; intros b; [reflexivity|]. rewrite IH. reflexivity. Qed.

Lemma string_app_inv_len : forall a b c d : string,
  String.length a = String.length b -> a ++ c = b ++ d -> a = b /\ c = d.
Proof.
  induction a as [|x a IH]; intros [|y b] c d Hl H; simpl in *; try discriminate; [auto|].
  injection Hl as Hl. injection H as -> H. destruct (IH b c d Hl H) as [-> ->]. auto.
Qed.

Lemma string_app_inv_r : forall a b c : string, a ++ c = b ++ c -> a = b.
Proof.
  intros a b c H. assert (L := f_equal String.length H). rewrite !string_length_app in L.
  destruct (string_app_inv_len a b c c ltac:(lia) H). assumption.
Qed.
