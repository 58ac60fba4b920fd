(** * Proofs about UTF-8 *)
From Coq Require Import Lia ZifyBool ZifyN ZifyNat.
From Verif Require Import Base Source Spec_Utf8.
Local Open Scope string_scope.
Ltac Zify.zify_post_hook ::= Z.div_mod_to_equations.

Lemma utf8_cons : forall c t, utf8 (c :: t) = string_of_list_ascii (map ascii_of_N (utf8_char c)) ++ utf8 t.
Proof.
  intros c t. unfold utf8. cbn [flat_map]. rewrite map_app. generalize (map ascii_of_N (utf8_char c)). intros l. induction l as [|a l IH]; [reflexivity|].
  cbn [app string_of_list_ascii]. rewrite IH. reflexivity.
Qed.
Lemma valid_char : forall c r, scalar c -> utf8_valid (string_of_list_ascii (map ascii_of_N (utf8_char c)) ++ r) = utf8_valid r.
Proof.
  intros c r S. unfold utf8_char, scalar in *.
  destruct (N.ltb_spec c 128); [|destruct (N.ltb_spec c 2048); [|destruct (N.ltb_spec c 65536)]]; cbn [map string_of_list_ascii append utf8_valid];
    unfold continues; rewrite !N_ascii_embedding by lia.
  - destruct (N.ltb_spec c 128); [reflexivity|lia].
  - repeat match goal with |- context [if (?a <? ?b)%N then _ else _] => destruct (N.ltb_spec a b); try lia end.
    replace (byte_in 128 191 (128 + c mod 64)) with true by (unfold byte_in; lia). reflexivity.
  - repeat match goal with |- context [if (?a <? ?b)%N then _ else _] => destruct (N.ltb_spec a b); try lia end.
    replace (byte_in 128 191 (128 + c mod 64)) with true by (unfold byte_in; lia).
    replace (byte_in _ _ (128 + (c / 64) mod 64)) with true; [reflexivity|]. unfold byte_in.
    destruct (N.eqb_spec (224 + c / 4096) 224); destruct (N.eqb_spec (224 + c / 4096) 237); lia.
  - repeat match goal with |- context [if (?a <? ?b)%N then _ else _] => destruct (N.ltb_spec a b); try lia end.
    replace (byte_in 128 191 (128 + c mod 64)) with true by (unfold byte_in; lia).
    replace (byte_in 128 191 (128 + (c / 64) mod 64)) with true by (unfold byte_in; lia).
    replace (byte_in _ _ (128 + (c / 4096) mod 64)) with true; [reflexivity|]. unfold byte_in.
    destruct (N.eqb_spec (240 + c / 262144) 240); destruct (N.eqb_spec (240 + c / 262144) 244); lia.
Qed.
Lemma ascii_eq : forall a n, N_of_ascii a = n -> a = ascii_of_N n.
Proof. intros a n <-. symmetry. apply ascii_N_embedding. Qed.
Lemma valid_sound : forall n f, (String.length f <= n)%nat -> utf8_valid f = true -> is_utf8 f.
Proof.
  induction n as [|n IH]; intros [|a f] L V; try (cbn [String.length] in L; lia); try (exists []; split; [intros c []|reflexivity]).
  cbn [String.length] in L.
  assert (Add : forall c g, scalar c -> String a f = string_of_list_ascii (map ascii_of_N (utf8_char c)) ++ g -> (String.length g <= n)%nat -> utf8_valid g = true -> is_utf8 (String a f)).
  { intros c g S E Lg Vg. destruct (IH g Lg Vg) as (t & U & <-). exists (c :: t). split; [|rewrite utf8_cons, E; reflexivity].
    intros x [<-|X]; [exact S|apply U, X]. }
  pose proof (N_ascii_bounded a) as Ba. cbn [utf8_valid] in V. set (x := N_of_ascii a) in *. assert (Ea : a = ascii_of_N x) by (symmetry; apply ascii_N_embedding).
  destruct (N.ltb_spec x 128) as [K|K].
  - apply (Add x f); [left; lia| |lia|exact V]. unfold utf8_char. destruct (N.ltb_spec x 128); [|lia]. cbn. rewrite Ea at 1. reflexivity.
  - destruct (N.ltb_spec x 194) as [|K2]; [discriminate|]. destruct (N.ltb_spec x 224) as [K3|K3].
    + destruct f as [|b f]; [discriminate|]. unfold continues in V. apply andb_true_iff in V as [V1 V2]. unfold byte_in in V1.
      set (y := N_of_ascii b) in *. assert (Eb : b = ascii_of_N y) by (symmetry; apply ascii_N_embedding).
      apply (Add ((x - 192) * 64 + (y - 128))%N f); [left; lia| |cbn [String.length] in L; lia|exact V2].
      unfold utf8_char. repeat match goal with |- context [if (?a <? ?b)%N then _ else _] => destruct (N.ltb_spec a b); try lia end.
      cbn [map string_of_list_ascii append]. replace (192 + ((x - 192) * 64 + (y - 128)) / 64)%N with x by lia.
      replace (128 + ((x - 192) * 64 + (y - 128)) mod 64)%N with y by lia. rewrite <- Ea, <- Eb. reflexivity.
    + destruct (N.ltb_spec x 240) as [K4|K4].
      * destruct f as [|b [|d f]]; try discriminate. unfold continues in V. apply andb_true_iff in V as [V V3]. apply andb_true_iff in V as [V1 V2]. unfold byte_in in V1, V2.
        set (y := N_of_ascii b) in *. assert (Eb : b = ascii_of_N y) by (symmetry; apply ascii_N_embedding).
        set (z := N_of_ascii d) in *. assert (Ed : d = ascii_of_N z) by (symmetry; apply ascii_N_embedding).
        assert (B : (128 <= y <= 191)%N /\ (x = 224 -> 160 <= y)%N /\ (x = 237 -> y < 160)%N)
          by (destruct (N.eqb_spec x 224); destruct (N.eqb_spec x 237); lia).
        apply (Add ((x - 224) * 4096 + (y - 128) * 64 + (z - 128))%N f); [unfold scalar; lia| |cbn [String.length] in L; lia|exact V3].
        unfold utf8_char. repeat match goal with |- context [if (?a <? ?b)%N then _ else _] => destruct (N.ltb_spec a b); try lia end.
        cbn [map string_of_list_ascii append]. replace (224 + ((x - 224) * 4096 + (y - 128) * 64 + (z - 128)) / 4096)%N with x by lia.
        replace (128 + (((x - 224) * 4096 + (y - 128) * 64 + (z - 128)) / 64) mod 64)%N with y by lia. replace (128 + ((x - 224) * 4096 + (y - 128) * 64 + (z - 128)) mod 64)%N with z by lia. rewrite <- Ea, <- Eb, <- Ed. reflexivity.
      * destruct (N.ltb_spec x 245) as [K5|K5]; [|discriminate].
        destruct f as [|b [|d [|e f]]]; try discriminate. unfold continues in V. apply andb_true_iff in V as [V V4]. apply andb_true_iff in V as [V V3].
        apply andb_true_iff in V as [V1 V2]. unfold byte_in in V1, V2, V3.
        set (y := N_of_ascii b) in *. assert (Eb : b = ascii_of_N y) by (symmetry; apply ascii_N_embedding).
        set (z := N_of_ascii d) in *. assert (Ed : d = ascii_of_N z) by (symmetry; apply ascii_N_embedding).
        set (w := N_of_ascii e) in *. assert (Ee : e = ascii_of_N w) by (symmetry; apply ascii_N_embedding).
        assert (B : (128 <= y <= 191)%N /\ (x = 240 -> 144 <= y)%N /\ (x = 244 -> y < 144)%N)
          by (destruct (N.eqb_spec x 240); destruct (N.eqb_spec x 244); lia).
        apply (Add ((x - 240) * 262144 + (y - 128) * 4096 + (z - 128) * 64 + (w - 128))%N f); [unfold scalar; lia| |cbn [String.length] in L; lia|exact V4].
        unfold utf8_char. repeat match goal with |- context [if (?a <? ?b)%N then _ else _] => destruct (N.ltb_spec a b); try lia end.
        cbn [map string_of_list_ascii append]. replace (240 + ((x - 240) * 262144 + (y - 128) * 4096 + (z - 128) * 64 + (w - 128)) / 262144)%N with x by lia. replace (128 + (((x - 240) * 262144 + (y - 128) * 4096 + (z - 128) * 64 + (w - 128)) / 4096) mod 64)%N with y by lia.
        replace (128 + (((x - 240) * 262144 + (y - 128) * 4096 + (z - 128) * 64 + (w - 128)) / 64) mod 64)%N with z by lia. replace (128 + ((x - 240) * 262144 + (y - 128) * 4096 + (z - 128) * 64 + (w - 128)) mod 64)%N with w by lia. rewrite <- Ea, <- Eb, <- Ed, <- Ee. reflexivity.
Qed.
Lemma utf8_valid_iff : forall f, utf8_valid f = true <-> is_utf8 f.
Proof.
  intros f. split; [apply (valid_sound (String.length f)), le_n|]. intros (t & U & <-). induction t as [|c t IH]; [reflexivity|].
  rewrite utf8_cons, valid_char; [apply IH; intros x X; apply U; right; exact X|apply U; left; reflexivity].
Qed.
