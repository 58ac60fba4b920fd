(** * Proofs: when the declarations of headers are valid C *)
From Coq Require Import List String ZArith Lia Bool Ascii Permutation.
Import ListNotations.
From Verif Require Import Base PyNum PyStr Ast Size Processor Bundle Sorter CCommon GenCfs GenC GenBinary GenCosmos Main.
From Verif Require Import Spec_Grammar Spec_Check Spec_Num Spec_Enum Spec_Size Spec_Bundle Spec_Gen Spec_Text Spec_Files Spec_C Spec_Header Spec_Valid.
From Verif Require Import Str_proofs Text_proofs Lib_proofs Enum_proofs Bundle_proofs Accept_proofs Gen_proofs Field_proofs Run_proofs Name_proofs Files_proofs Header3_proofs.
Open Scope string_scope.
Open Scope list_scope.

(** ** Lists *)
Lemma flat_map_split : forall A B (f g : A -> list B) l,
  Permutation (flat_map (fun x => f x ++ g x) l) (flat_map f l ++ flat_map g l).
Proof.
  intros A B f g l. induction l as [|x r IH]; [constructor|]. cbn [flat_map]. rewrite IH.
  rewrite <- !app_assoc. apply Permutation_app_head. rewrite !app_assoc. apply Permutation_app_tail. apply Permutation_app_comm.
Qed.

Lemma flat_map_perm : forall A B (f : A -> list B) l l', Permutation l l' -> Permutation (flat_map f l) (flat_map f l').
Proof.
  intros A B f l l' P. induction P; simpl; try constructor.
  - apply Permutation_app_head. exact IHP.
  - rewrite !app_assoc. apply Permutation_app_tail, Permutation_app_comm.
  - etransitivity; eassumption.
Qed.

Lemma flat_map_map : forall A B C (g : B -> C) (f : A -> list B) l, map g (flat_map f l) = flat_map (fun x => map g (f x)) l.
Proof. intros. induction l as [|x r IH]; simpl; [reflexivity|]. rewrite map_app, IH. reflexivity. Qed.

Lemma NoDup_map_iff : forall A B (f : A -> B) l, (forall x y, In x l -> In y l -> f x = f y -> x = y) ->
  (NoDup (map f l) <-> NoDup l).
Proof.
  intros A B f l I. split; [apply NoDup_map_inv|]. intros N. induction N as [|x r Hx N IH]; simpl; constructor.
  - intros Hin. apply in_map_iff in Hin. destruct Hin as (y & E & Hy). apply Hx.
    rewrite <- (I y x); [exact Hy|right; exact Hy|left; reflexivity|exact E].
  - apply IH. intros a b Ha Hb. apply I; right; assumption.
Qed.

Lemma NoDup_repeat : forall A (x : A) k, NoDup (repeat x k) <-> (k <= 1)%nat.
Proof.
  intros A x [|[|k]]; simpl; split; intros H; try lia; try constructor; try (intros []).
  - constructor.
  - exfalso. inversion H as [|? ? X]; subst. apply X. left. reflexivity.
Qed.

(** ** Names *)
Lemma lowerize_name : forall n, is_name_capital n = true -> is_name_lower (lowerize n) = true.
Proof.
  intros [|c r] H; [discriminate|]. simpl in *. apply andb_prop in H. destruct H as [U T].
  rewrite (proj1 (lower_char_upper c U)), T. reflexivity.
Qed.

Lemma lowerize_c_name : forall n, is_name_capital n = true -> lowerize (c_name n) = c_name (lowerize n).
Proof.
  intros n H. rewrite (c_name_eq n) by (apply capital_name; exact H).
  rewrite (c_name_eq (lowerize n)) by (apply lower_name, lowerize_name; exact H).
  destruct n as [|c r]; [discriminate|]. simpl in *. apply andb_prop in H. destruct H as [U T].
  rewrite (us_upper c U), (us_lower _ (proj1 (lower_char_upper c U))). reflexivity.
Qed.

Lemma key_not_type : forall k n, is_name_lower k = true -> is_name_capital n = true -> c_name k <> c_name n.
Proof.
  intros k n Hk Hn E. apply names_distinct in E; [|right; exact Hk|left; exact Hn]. subst k.
  apply lower_chars in Hk. apply capital_chars in Hn. destruct Hk as (c & r & -> & Hc & _), Hn as (c' & r' & E & Hc' & _).
  injection E as <- _. apply lower_codes in Hc. apply upper_codes in Hc'. lia.
Qed.

(** ** The names of a header *)
Definition tnames (d : definition) : list string :=
  match d with DSequence n _ _ | DEnumerated n _ _ => [c_name n] | _ => [] end.
Definition knames (d : definition) : list string := map c_name (item_keys d).
Definition vnames (d : definition) : list string :=
  match d with DChoice n _ _ => [lowerize (c_name n)] | _ => [] end.
Definition cnames (cmd : command) (d : definition) : list string :=
  match cmd with
  | GenerateC _ => map (fun x => lowerize (c_name (fst (fst x)))) (def_clauses d)
  | _ => []
  end.

Lemma said_scope : forall ds d xs, definition_said ds d xs ->
  Permutation (flat_map scope_names xs) (tnames d ++ knames d ++ vnames d).
Proof.
  intros ds d xs H. destruct H; simpl; try (rewrite ?app_nil_r; reflexivity).
  rewrite !app_nil_r. apply perm_skip. unfold knames, item_keys. rewrite !map_map.
  apply renumbered_labels, (Permutation_map fst), (Permutation_map c_name) in H. rewrite !map_map in H.
  symmetry. exact H.
Qed.

Lemma header_scope : forall ds cmd order dss, Forall2 (definition_said ds) order dss ->
  Permutation (flat_map scope_names (concat dss ++ variables_said cmd order))
    (flat_map tnames order ++ flat_map knames order ++ flat_map vnames order ++ flat_map (cnames cmd) order).
Proof.
  intros ds cmd order dss F. rewrite flat_map_app.
  replace (flat_map scope_names (variables_said cmd order)) with (flat_map (cnames cmd) order).
  - rewrite !app_assoc. apply Permutation_app_tail. rewrite <- !app_assoc.
    transitivity (flat_map (fun d => tnames d ++ knames d ++ vnames d) order).
    + induction F as [|d xs l l' H F IH]; simpl; [constructor|]. rewrite flat_map_app. apply Permutation_app; [|exact IH].
      eapply said_scope. exact H.
    + rewrite (flat_map_split _ _ tnames (fun d => knames d ++ vnames d)). apply Permutation_app_head. apply flat_map_split.
  - unfold variables_said, cnames. destruct cmd; try (clear F; induction order as [|d l IH]; [reflexivity|exact IH]).
    clear F. induction order as [|d l IH]; [reflexivity|]. cbn [flat_map]. rewrite map_app, flat_map_app, <- IH. f_equal.
    induction (def_clauses d) as [|x r IH']; simpl; congruence.
Qed.

Section headers.
Variables (names : list string) (cmd : command) (fuel : nat) (input : list module) (fs fs' : folder).
Hypothesis HC : config_command names cmd.
Hypothesis Hg : Forall (fun m => grammatical m = true) input.
Hypothesis HR : run fuel cmd input fs = (fs', Ok tt).

Lemma run_valid : bundle_valid names input.
Proof.
  rewrite (run_config names) in HR by exact HC. destruct (build_from_config names input) as [b|e|] eqn:B; try discriminate HR.
  apply bundle_accepted_iff; eauto.
Qed.

Lemma header_is : forall m h, In m input -> quiet m -> header_of cmd fs' m h ->
  exists order dss std,
    h_includes h = (std ++ map (fun it => Local (included_file cmd (imp_module it))) (mod_imports m))%list
    /\ ((std = [System "stdint"] /\ exists x, In x (h_decls h) /\ uses_stdint x)
        \/ (std = [] /\ ~ exists x, In x (h_decls h) /\ uses_stdint x))
    /\ h_decls h = (concat dss ++ variables_said cmd order)%list
    /\ Permutation order (mod_defs m)
    /\ (forall i d k n, nth_error order i = Some d -> In k (members_of d) -> element (m_type k) = TName n ->
         (exists j d', (j < i)%nat /\ nth_error order j = Some d' /\ def_name d' = n)
         \/ exists it, In it (mod_imports m) /\ In n (imp_names it))
    /\ Forall2 (definition_said (definitions input)) order dss.
Proof.
  intros m h Hm Q (text & Ht & Hh).
  destruct (header_declares names cmd fuel input fs fs' m HC Hg HR Hm Q) as (text' & h' & order & dss & std & A & B & _ & C).
  rewrite A in Ht. injection Ht as ->. rewrite B in Hh. injection Hh as ->. exists order, dss, std. exact C.
Qed.

Lemma headers_scope : forall ms hs, incl ms input -> Forall quiet ms -> Forall2 (header_of cmd fs') ms hs ->
  Permutation (flat_map scope_names (flat_map h_decls hs))
    (flat_map tnames (definitions ms) ++ flat_map knames (definitions ms)
     ++ flat_map vnames (definitions ms) ++ flat_map (cnames cmd) (definitions ms)).
Proof.
  intros ms hs I Q F.
  transitivity (flat_map (fun d => tnames d ++ knames d ++ vnames d ++ cnames cmd d) (definitions ms)).
  - induction F as [|m h ms hs H F IH]; [constructor|]. inversion Q as [|? ? Qm Qr]; subst.
    unfold definitions. cbn [flat_map]. rewrite !flat_map_app. apply Permutation_app.
    + destruct (header_is m h (I m (or_introl eq_refl)) Qm H) as (order & dss & std & _ & _ & E & P & _ & FD).
      rewrite E. rewrite (header_scope _ _ _ _ FD). rewrite <- (flat_map_perm _ _ _ _ _ P).
      rewrite (flat_map_split _ _ tnames). apply Permutation_app_head.
      rewrite (flat_map_split _ _ knames). apply Permutation_app_head.
      rewrite (flat_map_split _ _ vnames). reflexivity.
    + apply IH; [|exact Qr]. intros x Hx. apply I. right. exact Hx.
  - rewrite (flat_map_split _ _ tnames). apply Permutation_app_head.
    rewrite (flat_map_split _ _ knames). apply Permutation_app_head.
    rewrite (flat_map_split _ _ vnames). reflexivity.
Qed.
End headers.

(** ** Distinct names *)
Lemma def_cap : forall ds, Forall (fun d => definition_ok d = true) ds ->
  forall d, In d ds -> is_name_capital (def_name d) = true.
Proof.
  intros ds H d Hd. rewrite Forall_forall in H. assert (OK := H d Hd).
  destruct d; simpl in OK |- *; repeat (apply andb_prop in OK; destruct OK as [OK ?]); exact OK.
Qed.

Lemma item_key_lower : forall ds k, Forall (fun d => definition_ok d = true) ds -> In k (flat_map item_keys ds) ->
  is_name_lower k = true.
Proof.
  intros ds k OK H. apply in_flat_map in H. destruct H as (d & Hd & Hk). rewrite Forall_forall in OK. specialize (OK d Hd).
  destruct d; simpl in Hk; try contradiction. apply in_map_iff in Hk. destruct Hk as (e & <- & He).
  simpl in OK. apply andb_prop in OK. destruct OK as [_ X]. rewrite forallb_forall in X. specialize (X e He).
  unfold enum_item_ok in X. apply andb_prop in X. apply X.
Qed.

Definition origin (f : definition -> list string) (g : string -> string) : Prop :=
  forall d x, In x (f d) -> x = g (def_name d).

Lemma tnames_origin : origin tnames c_name.
Proof. intros d x H. destruct d; simpl in H; intuition. Qed.
Lemma vnames_origin : origin vnames (fun n => lowerize (c_name n)).
Proof. intros d x H. destruct d; simpl in H; intuition. Qed.
Lemma cnames_origin : forall cmd, origin (cnames cmd) (fun n => lowerize (c_name n)).
Proof.
  intros cmd d x H. unfold cnames in H. destruct cmd; try contradiction. apply in_map_iff in H. destruct H as (y & <- & Hy).
  destruct d; simpl in Hy; try contradiction. apply in_flat_map in Hy. destruct Hy as (k & _ & Hk).
  destruct (m_with k); [|contradiction]. destruct Hk as [<-|[]]. reflexivity.
Qed.

(** Names made of different definitions differ. *)
Lemma origin_nodup : forall f g ds, origin f g -> NoDup (map def_name ds) ->
  (forall d d', In d ds -> In d' ds -> g (def_name d) = g (def_name d') -> def_name d = def_name d') ->
  (NoDup (flat_map f ds) <-> forall d, In d ds -> NoDup (f d)).
Proof.
  intros f g ds O. induction ds as [|d r IH]; intros N I; simpl.
  - split; [intros _ ? []|constructor].
  - cbn [map] in N. inversion N as [|? ? N1 N2]; subst. rewrite NoDup_app_iff, IH; [|exact N2|intros a b Ha Hb; apply I; right; assumption].
    split.
    + intros (A & B & _) x [<-|Hx]; auto.
    + intros A. split; [apply A; left; reflexivity|]. split; [intros x Hx; apply A; right; exact Hx|].
      intros x Hx Hin. apply in_flat_map in Hin. destruct Hin as (d' & Hd' & Hx'). apply O in Hx, Hx'.
      apply N1. rewrite (I d d'); [apply in_map; exact Hd'|left; reflexivity|right; exact Hd'|congruence].
Qed.

Lemma clause_count : forall ns n c l,
  cnames (GenerateC ns) (DSequence n c l) = repeat (lowerize (c_name n)) (length (filter has_clause l)).
Proof.
  intros ns n c l. unfold cnames. simpl. induction l as [|k l IH]; simpl; [reflexivity|].
  rewrite map_app, IH. unfold has_clause at 2. destruct (m_with k); reflexivity.
Qed.

Lemma has_variable_iff : forall cmd d, has_variable cmd d <-> In (lowerize (c_name (def_name d))) (vnames d ++ cnames cmd d).
Proof.
  intros cmd d. destruct d as [n c l|n c l|n c l|n t c].
  - cbn [vnames has_variable]. simpl app. split.
    + intros ((ns & ->) & k & Hk & Hc). rewrite clause_count. simpl.
      assert (H : In k (filter has_clause l)) by (apply filter_In; auto).
      destruct (filter has_clause l); [destruct H|left; reflexivity].
    + intros H. destruct cmd as [m0 m1 m2|ns|ns|ns e]; try contradiction. split; [eauto|]. rewrite clause_count in H.
      destruct (filter has_clause l) as [|k r] eqn:E; [destruct H|]. exists k.
      assert (X : In k (filter has_clause l)) by (rewrite E; left; reflexivity). apply filter_In in X. exact X.
  - simpl. tauto.
  - simpl. unfold cnames. simpl. destruct cmd; simpl; tauto.
  - simpl. unfold cnames. simpl. destruct cmd; simpl; tauto.
Qed.

Lemma names_nodup : forall cmd ds, Forall (fun d => definition_ok d = true) ds -> NoDup (map def_name ds) ->
  (NoDup (flat_map tnames ds ++ flat_map knames ds ++ flat_map vnames ds ++ flat_map (cnames cmd) ds)
   <-> distinct_names cmd ds).
Proof.
  intros cmd ds OK ND. assert (CAP := def_cap ds OK).
  assert (KEY : forall k, In k (flat_map item_keys ds) -> is_name_lower k = true) by (intros k; apply item_key_lower; exact OK).
  assert (KN : flat_map knames ds = map c_name (flat_map item_keys ds)) by (symmetry; apply flat_map_map).
  assert (I1 : forall d d', In d ds -> In d' ds -> c_name (def_name d) = c_name (def_name d') -> def_name d = def_name d').
  { intros d d' Hd Hd' E. apply names_distinct in E; auto. }
  assert (I2 : forall d d', In d ds -> In d' ds -> lowerize (c_name (def_name d)) = lowerize (c_name (def_name d')) -> def_name d = def_name d').
  { intros d d' Hd Hd' E. apply lower_c_name_inj in E; auto. }
  rewrite !NoDup_app_iff.
  assert (T : NoDup (flat_map tnames ds)).
  { apply (origin_nodup _ _ _ tnames_origin ND I1). intros d _. destruct d; simpl; repeat constructor; intros []. }
  assert (V : NoDup (flat_map vnames ds)).
  { apply (origin_nodup _ _ _ vnames_origin ND I2). intros d _. destruct d; simpl; repeat constructor; intros []. }
  assert (K : NoDup (flat_map knames ds) <-> NoDup (flat_map item_keys ds)).
  { rewrite KN. apply NoDup_map_iff. intros x y Hx Hy E. apply names_distinct in E; auto. }
  assert (W : NoDup (flat_map (cnames cmd) ds) <->
     ((exists ns, cmd = GenerateC ns) -> forall n c l, In (DSequence n c l) ds -> (length (filter has_clause l) <= 1)%nat)).
  { rewrite (origin_nodup _ _ _ (cnames_origin cmd) ND I2). split.
    - intros H (ns & ->) n c l Hd. specialize (H _ Hd). rewrite clause_count, NoDup_repeat in H. exact H.
    - intros H d Hd. destruct d as [n c l|n c l|n c l|n t c]; try (unfold cnames; destruct cmd; constructor).
      destruct cmd as [m0 m1 m2|ns|ns|ns e]; try constructor. rewrite clause_count. apply NoDup_repeat. eapply H; eauto. }
  assert (TK : forall x, In x (flat_map tnames ds) -> In x (flat_map knames ds) -> False).
  { intros x Hx Hk. apply in_flat_map in Hx. destruct Hx as (d & Hd & Hx). apply tnames_origin in Hx.
    rewrite KN in Hk. apply in_map_iff in Hk. destruct Hk as (k & E & Hk).
    apply (key_not_type k (def_name d)); auto. congruence. }
  assert (TV : forall x y d, In x (flat_map tnames ds) -> In d ds -> y = lowerize (c_name (def_name d)) -> x <> y).
  { intros x y d Hx Hd -> ->. apply in_flat_map in Hx. destruct Hx as (d' & Hd' & Hx). apply tnames_origin in Hx.
    apply (instance_name_neq (def_name d) (def_name d')); auto. }
  assert (VW : forall x, In x (flat_map vnames ds) -> In x (flat_map (cnames cmd) ds) -> False).
  { intros x Hx Hy. apply in_flat_map in Hx, Hy. destruct Hx as (d & Hd & Hx), Hy as (d' & Hd' & Hy).
    assert (E : def_name d = def_name d').
    { apply I2; auto. rewrite <- (vnames_origin d x Hx). symmetry. rewrite <- (cnames_origin cmd d' x Hy). reflexivity. }
    assert (d = d') by (eapply NoDup_map_inj; eauto). subst d'.
    destruct d; try contradiction. unfold cnames in Hy. simpl in Hy. destruct cmd; contradiction. }
  assert (VAR : forall x, In x (flat_map vnames ds ++ flat_map (cnames cmd) ds) <->
            exists d, In d ds /\ has_variable cmd d /\ x = c_name (lowerize (def_name d))).
  { intros x. rewrite in_app_iff, !in_flat_map. split.
    - intros [(d & Hd & Hx)|(d & Hd & Hx)]; exists d; (split; [exact Hd|]);
        rewrite has_variable_iff, in_app_iff, <- lowerize_c_name by (apply CAP; exact Hd).
      + assert (E := vnames_origin d x Hx). cbv beta in E. rewrite <- E. auto.
      + assert (E := cnames_origin cmd d x Hx). cbv beta in E. rewrite <- E. auto.
    - intros (d & Hd & Hv & ->). rewrite has_variable_iff, in_app_iff in Hv. rewrite <- lowerize_c_name by (apply CAP; exact Hd).
      destruct Hv; [left|right]; eauto. }
  split.
  - intros (_ & (A & (_ & B & _) & D) & _). split; [apply K; exact A|]. split; [|apply W; exact B].
    intros d Hd Hv Hin. apply (D (c_name (lowerize (def_name d)))).
    + rewrite KN. apply in_map. exact Hin.
    + apply VAR. eauto.
  - intros (A & B & C). split; [exact T|]. split.
    + split; [apply K; exact A|]. split; [split; [exact V|split; [apply W; exact C|exact VW]]|].
      intros x Hx Hv. apply VAR in Hv. destruct Hv as (d & Hd & Hv & ->). rewrite KN in Hx. apply in_map_iff in Hx.
      destruct Hx as (k & E & Hk). apply names_distinct in E; [|right; auto|right; apply lowerize_name; auto]. subst k.
      apply (B d Hd Hv Hk).
    + intros x Hx Hy. apply in_app_or in Hy. destruct Hy as [Hy|Hy]; [exact (TK x Hx Hy)|].
      apply VAR in Hy. destruct Hy as (d & Hd & Hv & E). apply (TV x x d Hx Hd); [|reflexivity].
      rewrite lowerize_c_name by (apply CAP; exact Hd). exact E.
Qed.

Lemma grammatical_definitions : forall ms, Forall (fun m => grammatical m = true) ms ->
  Forall (fun d => definition_ok d = true) (definitions ms).
Proof.
  intros ms H. apply Forall_forall. intros d Hd. apply in_flat_map in Hd. destruct Hd as (m & Hm & Hd).
  rewrite Forall_forall in H. specialize (H m Hm). unfold grammatical in H. apply andb_prop in H. destruct H as [_ X].
  rewrite forallb_forall in X. apply X. exact Hd.
Qed.

Lemma names_declared_once : forall names cmd fuel input fs fs' ms rest hs, config_command names cmd ->
  Forall (fun m => grammatical m = true) input -> run fuel cmd input fs = (fs', Ok tt) ->
  Permutation input (ms ++ rest) -> Forall quiet ms -> Forall2 (header_of cmd fs') ms hs ->
  (NoDup (flat_map scope_names (flat_map h_decls hs)) <-> distinct_names cmd (definitions ms)).
Proof.
  intros names cmd fuel input fs fs' ms rest hs HC Hg HR P Q F.
  assert (V := run_valid names cmd fuel input fs fs' HC Hg HR).
  assert (I : incl ms input) by (intros x Hx; apply (Permutation_in _ (Permutation_sym P)), in_or_app; left; exact Hx).
  assert (S := headers_scope names cmd fuel input fs fs' HC Hg HR ms hs I Q F).
  assert (N : NoDup (map def_name (definitions ms))).
  { assert (X := bv_names _ _ V). apply (Permutation_NoDup (Permutation_map def_name (flat_map_perm _ _ mod_defs _ _ P))) in X.
    rewrite flat_map_app, map_app in X. apply NoDup_app_iff in X. apply X. }
  rewrite <- (names_nodup cmd (definitions ms)); [|apply grammatical_definitions|exact N].
  - split; apply Permutation_NoDup; [exact S|symmetry; exact S].
  - apply Forall_forall. intros m Hm. rewrite Forall_forall in Hg. apply Hg, I, Hm.
Qed.

(** ** Properties of all declarations of a header *)
Section each.
Variables (names : list string) (cmd : command) (fuel : nat) (input : list module) (fs fs' : folder) (m : module) (h : header).
Hypothesis HC : config_command names cmd.
Hypothesis Hg : Forall (fun m => grammatical m = true) input.
Hypothesis HR : run fuel cmd input fs = (fs', Ok tt).
Hypothesis Hm : In m input.
Hypothesis HQ : quiet m.
Hypothesis HH : header_of cmd fs' m h.

Lemma mod_defs_in : forall d, In d (mod_defs m) -> In d (definitions input).
Proof. intros d Hd. apply in_flat_map. exists m. auto. Qed.

Lemma mod_defs_ok : forall d, In d (mod_defs m) -> definition_ok d = true.
Proof.
  intros d Hd. assert (X := grammatical_definitions input Hg). rewrite Forall_forall in X. apply X, mod_defs_in, Hd.
Qed.

Lemma variables_perm : forall l l', Permutation l l' -> Permutation (variables_said cmd l) (variables_said cmd l').
Proof.
  clear HC HR HH. intros l l' P. unfold variables_said. destruct cmd; try reflexivity. apply Permutation_map, flat_map_perm. exact P.
Qed.

Lemma header_forall : forall (P : xdecl -> Prop) (R : definition -> Prop),
  (forall d xs, In d (mod_defs m) -> definition_said (definitions input) d xs -> (Forall P xs <-> R d)) ->
  (Forall P (h_decls h) <-> Forall R (mod_defs m) /\ Forall P (variables_said cmd (mod_defs m))).
Proof.
  intros P R H.
  destruct (header_is names cmd fuel input fs fs' HC Hg HR m h Hm HQ HH) as (order & dss & std & _ & _ & E & Po & _ & F).
  rewrite E, Forall_app.
  assert (A : Forall P (concat dss) <-> Forall R order).
  { assert (I : incl order (mod_defs m)) by (intros x Hx; apply (Permutation_in _ Po); exact Hx). clear - F H I.
    induction F as [|d xs l l' Hd F IH]; simpl; [split; constructor|].
    rewrite Forall_app, (H d xs), IH; [| |apply I; left; reflexivity|exact Hd].
    - split; [intros [A B]; constructor; assumption|intros A; inversion A; auto].
    - intros x Hx. apply I. right. exact Hx. }
  assert (PF : forall A (Q : A -> Prop) l l', Permutation l l' -> (Forall Q l <-> Forall Q l')).
  { intros A0 Q l l' X. rewrite !Forall_forall. split; intros Y x Hx; apply Y;
      [apply (Permutation_in _ (Permutation_sym X))|apply (Permutation_in _ X)]; exact Hx. }
  rewrite A, (PF _ R _ _ Po), (PF _ P _ _ (variables_perm _ _ Po)). reflexivity.
Qed.

Lemma variable_cases : forall x, In x (variables_said cmd (mod_defs m)) <->
  exists ns n c l k, cmd = GenerateC ns /\ In (DSequence n c l) (mod_defs m) /\ In k l /\ has_clause k = true
    /\ x = XVar (c_name n) (lowerize (c_name n)).
Proof.
  clear HC HR HH. intros x. unfold variables_said. split.
  - intros H. destruct cmd as [m0 m1 m2|ns|ns|ns e]; try contradiction. apply in_map_iff in H. destruct H as (y & <- & Hy).
    apply in_flat_map in Hy. destruct Hy as (d & Hd & Hy). destruct d as [n c l| | |]; try contradiction.
    simpl in Hy. apply in_flat_map in Hy. destruct Hy as (k & Hk & Hy). destruct (m_with k) eqn:W; [|contradiction].
    destruct Hy as [<-|[]]. exists ns, n, c, l, k. unfold has_clause. rewrite W. auto 6.
  - intros (ns & n & c & l & k & -> & Hd & Hk & Hc & ->). unfold has_clause in Hc. destruct (m_with k) as [w|] eqn:W; [|discriminate].
    apply in_map_iff. exists (n, m_key k, w). split; [reflexivity|]. apply in_flat_map. exists (DSequence n c l). split; [exact Hd|].
    simpl. apply in_flat_map. exists k. rewrite W. split; [exact Hk|left; reflexivity].
Qed.

Lemma definition_member_ok : forall d k, In d (mod_defs m) -> In k (members_of d) -> member_ok k = true.
Proof.
  intros d k Hd Hk. apply mod_defs_ok in Hd. destruct d; simpl in Hd, Hk; try contradiction;
    apply andb_prop in Hd; destruct Hd as [_ X]; rewrite forallb_forall in X; apply X; exact Hk.
Qed.
Lemma member_key_lower : forall d k, In d (mod_defs m) -> In k (member_keys d) -> is_name_lower k = true.
Proof.
  intros d k Hd Hk. unfold member_keys in Hk. apply in_map_iff in Hk. destruct Hk as (x & <- & Hx).
  apply (definition_member_ok d) in Hx; [|exact Hd]. unfold member_ok in Hx.
  repeat (apply andb_prop in Hx; destruct Hx as [Hx ?]). exact Hx.
Qed.

Lemma said_fields : forall d xs, definition_said (definitions input) d xs ->
  forall s, In s (flat_map field_names xs) <-> In s (map c_name (member_keys d)).
Proof.
  assert (MS : forall l f, Forall2 (member_said (definitions input)) l f -> map x_name f = map c_name (map m_key l)).
  { intros l f F. induction F as [|k y l f (E & _) F IH]; simpl; congruence. }
  intros d xs H s. destruct H as [n c l f F|n c l l' E|n c l|n t c]; unfold member_keys; simpl.
  - rewrite app_nil_r, (MS _ _ F). reflexivity.
  - reflexivity.
  - rewrite app_nil_r, !map_map. reflexivity.
  - reflexivity.
Qed.

Lemma fields_distinct : Forall (fun x => NoDup (field_names x)) (h_decls h) <-> Forall (fun d => NoDup (member_keys d)) (mod_defs m).
Proof.
  assert (MS : forall l f, Forall2 (member_said (definitions input)) l f -> map x_name f = map c_name (map m_key l)).
  { intros l f F. induction F as [|k y l f (E & _) F IH]; simpl; congruence. }
  assert (K : forall d, In d (mod_defs m) -> (NoDup (map c_name (member_keys d)) <-> NoDup (member_keys d))).
  { intros d Hd. apply NoDup_map_iff. intros x y Hx Hy E. apply names_distinct in E; [exact E| |]; right; eapply member_key_lower; eauto. }
  rewrite (header_forall _ (fun d => NoDup (member_keys d))).
  - split; [intros [H _]; exact H|]. intros H. split; [exact H|]. apply Forall_forall. intros x Hx. apply variable_cases in Hx.
    destruct Hx as (ns & n & c & l & k & _ & _ & _ & _ & ->). constructor.
  - intros d xs Hd Hs. rewrite <- (K d Hd). destruct Hs as [n c l f F|n c l l' E|n c l|n t c]; unfold member_keys; simpl.
    + rewrite Forall_cons_iff. simpl. rewrite (MS _ _ F). intuition.
    + rewrite Forall_cons_iff. simpl. intuition constructor.
    + rewrite Forall_cons_iff. simpl. rewrite !map_map. intuition.
    + intuition constructor.
Qed.

(** ** Keywords *)
Lemma keyword_name : forall w, In w C_KEYWORDS -> is_name_lower w = true /\ c_name w = w.
Proof.
  assert (H : forallb (fun w => is_name_lower w && String.eqb (c_name w) w) C_KEYWORDS = true) by (vm_compute; reflexivity).
  intros w Hw. rewrite forallb_forall in H. specialize (H w Hw). apply andb_prop in H. rewrite String.eqb_eq in H. exact H.
Qed.
Lemma keyword_key : forall k, is_name_lower k = true -> (In (c_name k) C_KEYWORDS <-> In k C_KEYWORDS).
Proof.
  intros k Hk. split; intros H.
  - destruct (keyword_name _ H) as [A B]. apply names_distinct in B; [|right; exact A|right; exact Hk]. rewrite <- B. exact H.
  - destruct (keyword_name _ H) as [_ ->]. exact H.
Qed.
Lemma keyword_type : forall n, is_name_capital n = true -> ~ In (c_name n) C_KEYWORDS.
Proof.
  intros n Hn H. destruct (keyword_name _ H) as [A B]. apply names_distinct in B; [|right; exact A|left; exact Hn].
  apply (key_not_type (c_name n) n A Hn). f_equal. exact B.
Qed.

Lemma keywords_avoided :
  (Forall (fun s => ~ In s C_KEYWORDS) (flat_map declared_names (h_decls h)) <-> Forall (no_keywords cmd) (mod_defs m)).
Proof.
  set (G := fun s => ~ In s C_KEYWORDS).
  assert (CAP : forall d, In d (mod_defs m) -> is_name_capital (def_name d) = true).
  { intros d Hd. apply (def_cap (mod_defs m)); [|exact Hd]. apply Forall_forall. apply mod_defs_ok. }
  transitivity (Forall (fun x => Forall G (declared_names x)) (h_decls h)); [rewrite <- Forall_flat_map; reflexivity|].
  rewrite (header_forall _ (fun d => Forall G (item_keys d ++ member_keys d)
             /\ (forall n c l, d = DChoice n c l -> G (lowerize n)))).
  - rewrite !Forall_forall. split.
    + intros [A B] d Hd. destruct (A d Hd) as [A1 A2]. split; [exact A1|]. intros V. destruct d as [n c l|n c l|n c l|n t c]; try contradiction.
      * simpl in V. destruct V as ((ns & E) & k & Hk & Hc).
        assert (X : In (XVar (c_name n) (lowerize (c_name n))) (variables_said cmd (mod_defs m))) by (apply variable_cases; eauto 10).
        apply B in X. inversion X as [|? ? X1 X2]; subst. unfold G in X1. simpl def_name.
        rewrite lowerize_c_name in X1 by (apply (CAP _ Hd)).
        rewrite keyword_key in X1 by (apply lowerize_name, (CAP _ Hd)). exact X1.
      * eapply A2. reflexivity.
    + intros A. split.
      * intros d Hd. destruct (A d Hd) as [A1 A2]. split; [exact A1|]. intros n c l ->. apply A2. exact I.
      * intros x Hx. apply variable_cases in Hx. destruct Hx as (ns & n & c & l & k & E & Hd & Hk & Hc & ->).
        constructor; [|constructor]. unfold G. rewrite lowerize_c_name by (apply (CAP _ Hd)).
        rewrite keyword_key by (apply lowerize_name, (CAP _ Hd)). apply (A _ Hd). simpl. split; eauto.
  - intros d xs Hd Hs.
    assert (GN : G (c_name (def_name d))) by (apply keyword_type, CAP, Hd).
    assert (GM : Forall G (map c_name (member_keys d)) <-> Forall G (member_keys d)).
    { rewrite Forall_map, !Forall_forall. unfold G. split; intros H x Hx.
      - rewrite <- keyword_key by (eapply member_key_lower; eauto). apply H. exact Hx.
      - rewrite keyword_key by (eapply member_key_lower; eauto). apply H. exact Hx. }
    assert (GI : Forall G (map c_name (item_keys d)) <-> Forall G (item_keys d)).
    { rewrite Forall_map, !Forall_forall. unfold G.
      assert (L : forall x, In x (item_keys d) -> is_name_lower x = true).
      { intros x Hx. apply (item_key_lower [d]); [constructor; [apply mod_defs_ok; exact Hd|constructor]|]. simpl. rewrite app_nil_r. exact Hx. }
      split; intros H x Hx.
      - rewrite <- keyword_key by (apply L; exact Hx). apply H. exact Hx.
      - rewrite keyword_key by (apply L; exact Hx). apply H. exact Hx. }
    transitivity (Forall G (flat_map declared_names xs)); [rewrite Forall_flat_map; reflexivity|].
    assert (SP := said_scope _ _ _ Hs). assert (SF := said_fields _ _ Hs).
    rewrite Forall_app, <- GM, <- GI.
    assert (INS : forall s, In s (flat_map declared_names xs) <->
      In s (tnames d ++ knames d ++ vnames d) \/ In s (map c_name (member_keys d))
      \/ (exists n c l, d = DChoice n c l /\ s = c_name n)).
    { intros s. assert (SP' : In s (flat_map scope_names xs) <-> In s (tnames d ++ knames d ++ vnames d)).
      { split; apply Permutation_in; [exact SP|symmetry; exact SP]. }
      rewrite <- SP', <- SF. rewrite !in_flat_map. unfold declared_names. split.
      - intros (x & Hx & Hin). rewrite !in_app_iff in Hin. destruct Hin as [A|[A|A]]; [left; eauto|right; left; eauto|].
        right. right. destruct Hs as [n c l f F|n c l l' E|n c l|n t c]; try (destruct Hx as [<-|[]]; contradiction); [|destruct Hx].
        destruct Hx as [<-|[]]. destruct A as [<-|[]]. eauto.
      - intros [(x & Hx & A)|[(x & Hx & A)|(n & c & l & -> & ->)]].
        + exists x. rewrite !in_app_iff. auto.
        + exists x. rewrite !in_app_iff. auto.
        + inversion Hs; subst. eexists. split; [left; reflexivity|]. rewrite !in_app_iff. simpl. auto. }
    split.
    + intros H. rewrite Forall_forall in H. split; [split; apply Forall_forall; intros s Hin; apply H, INS|].
      * left. rewrite !in_app_iff. auto.
      * auto.
      * intros n c l ->. assert (X : G (lowerize (c_name n))) by (apply H, INS; left; simpl; auto).
        unfold G in *. rewrite lowerize_c_name in X by (apply (CAP _ Hd)).
        rewrite keyword_key in X by (apply lowerize_name, (CAP _ Hd)). exact X.
    + intros [[A B] C]. apply Forall_forall. intros s Hin. apply INS in Hin. rewrite Forall_forall in A, B.
      destruct Hin as [Hin|[Hin|(n & c & l & -> & ->)]]; [|auto|exact GN].
      apply in_app_or in Hin. destruct Hin as [Hin|Hin]; [rewrite (tnames_origin _ _ Hin); exact GN|].
      apply in_app_or in Hin. destruct Hin as [Hin|Hin]; [apply A; exact Hin|].
      destruct d as [n c l|n c l|n c l|n t c]; try contradiction. destruct Hin as [<-|[]].
      unfold G. rewrite lowerize_c_name by (apply (CAP _ Hd)).
      rewrite keyword_key by (apply lowerize_name, (CAP _ Hd)). eapply C. reflexivity.
Qed.
End each.

(** ** Fields *)
Lemma least_width_nonneg : forall w v, least_width w v -> (0 <= w)%Z.
Proof. intros w v H. apply H. Qed.

Lemma unsigned_fits : forall lo hi w n ct, (0 <= lo <= hi)%Z -> least_width w hi -> smallest [8; 16; 32; 64]%Z (fun n => holds_unsigned n lo hi) n ->
  In (n, ct) UINT_TYPES -> forall n', In ([ct], n') TYPE_BITS -> (w <= n')%Z.
Proof.
  intros lo hi w n ct R (_ & _ & L) (I & B & _) U n' T. destruct (B hi ltac:(lia)) as [_ BH]. clear B.
  assert (n = n').
  { simpl in U, T. repeat (destruct U as [U|U]; [injection U as <- <-; repeat (destruct T as [T|T]; [try discriminate T; injection T as <-; reflexivity|]); destruct T|]).
    destruct U. }
  subst n'. apply L; [simpl in I; lia|exact BH].
Qed.

Lemma type_bits_named : forall n z, is_name_capital n = true -> ~ In ([c_name n], z) TYPE_BITS.
Proof.
  intros n z Hn H. destruct (c_name n) as [|ch r] eqn:E.
  - simpl in H. intuition discriminate.
  - apply (first_char n) in E; [|exact Hn]. simpl in H.
    repeat (destruct H as [H|H]; [try discriminate H; injection H as H _ _; subst ch; discriminate|]). destruct H.
Qed.

Section fields.
Variable ds : list definition.
Hypothesis ND : NoDup (map def_name ds).
Hypothesis NP : forall d, In d ds -> is_simple d = false -> ~ In (def_name d) (map fst POSIX_NAMES).

Lemma same_named : forall d d', In d ds -> In d' ds -> def_name d = def_name d' -> d = d'.
Proof. intros d d' A B E. eapply NoDup_map_inj; eauto. Qed.

Hypothesis RO : forall n t c, In (DSimple n t c) ds -> range_ok t.

Lemma direct_width : forall t ct bits, range_ok t -> number_said t ct bits ->
  match bits with
  | Some w => range_width t w /\ (0 < w)%Z /\ ((w <= 64)%Z <-> forall n, In (ct, n) TYPE_BITS -> (w <= n)%Z)
              /\ ~ In w [8; 16; 32; 64]%Z
  | None => forall w, range_width t w -> In w [8; 16; 32; 64]%Z
  end.
Proof.
  intros t ct bits R H. destruct H as [lo hi w n ct bits A B C D E F|lo hi w A B C|lo hi A|b e A B|b e A|t A|k n|t A|t A].
  - destruct (in_dec Z.eq_dec w [8; 16; 32; 64]%Z) as [I|I]; subst bits.
    + intros w' (lo' & hi' & X & _ & L). injection X as <- <-. assert (w' = w) by (eapply least_width_unique; eassumption). subst w'. exact I.
    + split; [exists lo, hi; auto|]. split; [lia|]. split; [|exact I]. split; [|intros _; lia].
      intros _. simpl in R. eapply (unsigned_fits lo hi); try eassumption. lia.
  - split; [exists lo, hi; auto|]. split; [lia|]. split; [|simpl; lia]. split; [lia|]. intros X. apply X. simpl. tauto.
  - intros w (lo' & hi' & X & Y & _). injection X as <- <-. lia.
  - intros w (lo' & hi' & X & _). discriminate.
  - intros w (lo' & hi' & X & _). discriminate.
  - intros w (lo' & hi' & -> & _). discriminate.
  - intros w (lo' & hi' & X & _). discriminate.
  - intros w (lo' & hi' & -> & _). discriminate.
  - intros w (lo' & hi' & -> & _). discriminate.
Qed.

Lemma member_fits : forall k f, type_ok (m_type k) = true -> range_ok (m_type k) -> member_said ds k f -> (valid_field f <-> fits ds (m_type k)).
Proof.
  intros k f TK RK (_ & EA & TS). unfold valid_field. rewrite EA. clear EA. set (t := m_type k) in *. clearbody t.
  destruct f as [ty na bits arr]. cbn [x_type x_bits] in *. clear na arr.
  assert (POS : (forall n, match t with TArray n _ | TString _ n => Some n | _ => None end = Some n -> (0 < n)%Z)
                <-> match t with TArray n _ | TString _ n => (0 < n)%Z | _ => True end).
  { destruct t; split; intros H; auto; try (intros ? X; discriminate X); intros ? X; injection X as <-; exact H. }
  rewrite POS. clear POS. unfold fits.
  assert (NOT : forall w, range_width t w -> exists lo hi, t = TInteger (Some (lo, hi))).
  { intros w (lo & hi & E & _). eauto. }
  assert (ELT : forall n e, t = TArray n e -> element t = element e) by (intros n e ->; reflexivity).
  assert (NAM : forall n, t = TName n -> element t = TName n) by (intros n ->; reflexivity).
  destruct TS as [E|s n E|ct bits D NS|n t' c ct bits E I NPX NS|n t' c ct E I PX|n c l E I NPX|n c l E I NPX|n c l w E I NPX L|n c l m e E1 E I NPX|n d ct bits E I EN SI PX].
  - (* BOOLEAN *)
    split.
    + intros [A B]. split; [exact B|]. split; [intros w X; destruct (NOT w X) as (lo & hi & ->); discriminate|].
      split; [intros n t' c w X; congruence|].
      split; [|intros n c l X; rewrite (NAM n X) in E; discriminate].
      intros n e -> _. destruct (A _ eq_refl) as (X & _). discriminate.
    + intros (B & _ & _ & C & _). split; [|exact B]. intros w X. injection X as <-.
      split; [|split; [lia|intros n Hn; simpl in Hn;
        repeat (destruct Hn as [Hn|Hn]; [try discriminate Hn; injection Hn as <-; lia|]); destruct Hn]].
      destruct t; try discriminate E; [reflexivity|]. exfalso. eapply C; [reflexivity|exact E].
  - (* strings *)
    split; [intros [_ B]|intros (B & _); split; [discriminate|exact B]].
    split; [exact B|]. split; [intros w X; destruct (NOT w X) as (lo & hi & ->); discriminate|].
    split; [intros m t' c w X; congruence|]. split; [intros m e X; rewrite <- (ELT m e X); congruence|].
    intros m c l X; rewrite (NAM m X) in E; discriminate.
  - (* INTEGER, REAL *)
    assert (DW := direct_width t ct bits RK NS).
    assert (NA : match t with TArray n _ | TString _ n => Some n | _ => None end = None) by (destruct D as [(r & ->)|(r & ->)]; reflexivity).
    assert (NE : forall n, element t <> TName n) by (intros n; destruct D as [(r & ->)|(r & ->)]; discriminate).
    split.
    + intros [A B]. split; [exact B|]. split; [|split; [intros n t' c w X; destruct (NE _ X)|split]].
      * intros w X. destruct bits as [w'|].
        -- destruct DW as (RW & P & Q & _). destruct (A w' eq_refl) as (_ & _ & Z).
           assert (w = w').
           { destruct X as (lo & hi & X & _ & X2), RW as (lo' & hi' & Y & _ & Y2). rewrite X in Y. injection Y as -> ->. eapply least_width_unique; eassumption. }
           subst w'. apply Q. exact Z.
        -- specialize (DW w X). simpl in DW. lia.
      * intros n e ->. destruct D as [(r & X)|(r & X)]; discriminate.
      * intros n c l ->. destruct (NE n). reflexivity.
    + intros (B & C & _). split; [|exact B]. intros w ->. destruct DW as (RW & P & Q & _).
      split; [exact NA|]. split; [exact P|]. apply Q, C, RW.
  - (* simple types *)
    assert (DW := direct_width t' ct bits (RO _ _ _ I) NS).
    assert (UNI : forall t2 c2, In (DSimple n t2 c2) ds -> t2 = t').
    { intros t2 c2 H2. assert (X := same_named _ _ I H2 eq_refl). congruence. }
    assert (RST : (forall w, range_width t w -> (w <= 64)%Z) /\ (forall n e, t = TArray n e -> element e <> TBoolean)
                  /\ (forall n c l, t = TName n -> In (DEnumerated n c l) ds -> (2 <= length l)%nat)).
    { split; [intros w X; destruct (NOT w X) as (lo & hi & ->); discriminate|].
      split; [intros m e X; rewrite <- (ELT m e X); congruence|].
      intros m c2 l X Y. assert (m = n) by (rewrite (NAM m X) in E; congruence). subst m.
      assert (Z := same_named _ _ I Y eq_refl). discriminate. }
    destruct RST as (R1 & R2 & R3).
    split.
    + intros [A B]. split; [exact B|]. split; [exact R1|]. split; [|auto].
      intros n2 t2 c2 w E2 I2 _ RW2. assert (n2 = n) by congruence. subst n2. rewrite (UNI _ _ I2) in RW2.
      destruct bits as [w'|].
      * destruct DW as (RW & P & Q & _). destruct (A w' eq_refl) as (Z1 & _ & Z).
        assert (w = w').
        { destruct RW2 as (lo & hi & X & _ & X2), RW as (lo' & hi' & Y & _ & Y2). rewrite X in Y. injection Y as -> ->. eapply least_width_unique; eassumption. }
        subst w'. destruct t; try (apply Q; exact Z). discriminate Z1.
      * specialize (DW w RW2). destruct t; try exact DW; simpl in DW; lia.
    + intros (B & _ & C & _). split; [|exact B]. intros w ->. destruct DW as (RW & P & Q & NI).
      specialize (C n t' c w E I NPX RW). destruct t as [r|r| | |s z|z e|n2]; try discriminate E.
      * destruct (NI C).
      * split; [reflexivity|]. split; [exact P|]. apply Q, C.
  - (* POSIX types *)
    split; [intros [_ B]|intros (B & _); split; [discriminate|exact B]].
    split; [exact B|]. split; [intros w X; destruct (NOT w X) as (lo & hi & ->); discriminate|].
    split; [|split; [intros m e X; rewrite <- (ELT m e X); congruence|]].
    + intros n2 t2 c2 w E2 _ X. exfalso. assert (n2 = n) by congruence. subst n2. apply X. apply in_map_iff. exists (n, ct). auto.
    + intros m c2 l X Y. exfalso. assert (m = n) by (rewrite (NAM m X) in E; congruence). subst m.
      assert (Z := same_named _ _ I Y eq_refl). discriminate.
  - split; [intros [_ B]|intros (B & _); split; [discriminate|exact B]].
    split; [exact B|]. split; [intros w X; destruct (NOT w X) as (lo & hi & ->); discriminate|].
    split; [|split; [intros m e X; rewrite <- (ELT m e X); congruence|]].
    + intros n2 t2 c2 w E2 I2. exfalso. assert (n2 = n) by congruence. subst n2. assert (Z := same_named _ _ I I2 eq_refl). discriminate.
    + intros m c2 l2 X Y. exfalso. assert (m = n) by (rewrite (NAM m X) in E; congruence). subst m.
      assert (Z := same_named _ _ I Y eq_refl). discriminate.
  - split; [intros [_ B]|intros (B & _); split; [discriminate|exact B]].
    split; [exact B|]. split; [intros w X; destruct (NOT w X) as (lo & hi & ->); discriminate|].
    split; [|split; [intros m e X; rewrite <- (ELT m e X); congruence|]].
    + intros n2 t2 c2 w E2 I2. exfalso. assert (n2 = n) by congruence. subst n2. assert (Z := same_named _ _ I I2 eq_refl). discriminate.
    + intros m c2 l2 X Y. exfalso. assert (m = n) by (rewrite (NAM m X) in E; congruence). subst m.
      assert (Z := same_named _ _ I Y eq_refl). discriminate.
  - (* ENUMERATED *)
    subst t. assert (W : (0 < w)%Z <-> (2 <= length l)%nat).
    { destruct L as (L1 & L2 & L3). split; intros X.
      - destruct (Nat.le_gt_cases 2 (length l)) as [Y|Y]; [exact Y|]. exfalso. specialize (L3 0%Z ltac:(lia) ltac:(simpl; lia)). lia.
      - destruct (Z.eq_dec w 0) as [->|N]; [simpl in L2; lia|lia]. }
    split.
    + intros [A B]. split; [exact B|]. split; [intros w2 (lo & hi & X & _); discriminate|].
      split; [intros n2 t2 c2 w2 E2 I2; exfalso; injection E2 as <-; assert (Z := same_named _ _ I I2 eq_refl); discriminate|].
      split; [discriminate|]. intros m c2 l2 X Y. injection X as <-. assert (Z := same_named _ _ I Y eq_refl). injection Z as <- <-.
      apply W, (A w eq_refl).
    + intros (B & _ & _ & _ & C). split; [|exact B]. intros w2 X. injection X as <-. split; [reflexivity|].
      split; [apply W, (C n c l eq_refl I)|]. intros z Hz. destruct (type_bits_named n z TK Hz).
  - (* arrays of ENUMERATED *)
    split; [intros [_ B]|intros (B & _); split; [discriminate|exact B]]. subst t.
    split; [exact B|]. split; [intros w (lo & hi & X & _); discriminate|].
    split; [|split; [intros m2 e2 X; injection X as <- <-; congruence|discriminate]].
    intros n2 t2 c2 w E2 I2. exfalso. assert (n2 = n) by (simpl in E2; congruence). subst n2. assert (Z := same_named _ _ I I2 eq_refl). discriminate.
  - exfalso. apply (NP d I SI). rewrite EN. apply in_map_iff. exists (n, ct). auto.
Qed.
End fields.

Lemma fields_valid : forall names cmd fuel input fs fs' m h, config_command names cmd ->
  Forall (fun m => grammatical m = true) input -> run fuel cmd input fs = (fs', Ok tt) -> In m input -> quiet m ->
  header_of cmd fs' m h ->
  (forall d, In d (definitions input) -> is_simple d = false -> ~ In (def_name d) (map fst POSIX_NAMES)) ->
  (Forall valid_fields (h_decls h) <->
   forall n c l k, In (DSequence n c l) (mod_defs m) -> In k l -> fits (definitions input) (m_type k)).
Proof.
  intros names cmd fuel input fs fs' m h HC Hg HR Hm Q HH NP.
  assert (ND := bv_names _ _ (run_valid names cmd fuel input fs fs' HC Hg HR)).
  assert (MV := bv_modules _ _ (run_valid names cmd fuel input fs fs' HC Hg HR)).
  assert (DV : forall d, In d (definitions input) -> definition_valid d).
  { intros d Hd. apply in_flat_map in Hd. destruct Hd as (x & Hx & Hd). rewrite Forall_forall in MV.
    destruct (MV x Hx) as (_ & V & _). rewrite Forall_forall in V. apply V, Hd. }
  assert (RO : forall n t c, In (DSimple n t c) (definitions input) -> range_ok t).
  { intros n t c Hd. destruct (DV _ Hd) as (X & _). destruct t; inversion X; assumption. }
  rewrite (header_forall names cmd fuel input fs fs' m h HC Hg HR Hm Q HH valid_fields
             (fun d => forall n c l k, d = DSequence n c l -> In k l -> fits (definitions input) (m_type k))).
  - rewrite Forall_forall. split.
    + intros [A _] n c l k Hd. eapply A; [exact Hd|reflexivity].
    + intros A. split; [intros d Hd n c l k ->; apply (A n c l k Hd)|].
      apply Forall_forall. intros x Hx. apply variable_cases in Hx. destruct Hx as (? & ? & ? & ? & ? & _ & _ & _ & _ & ->). exact I.
  - intros d xs Hd Hs. destruct Hs as [n c l f F|n c l l' E|n c l|n t c].
    + rewrite Forall_cons_iff. simpl valid_fields.
      assert (OK : forall k, In k l -> type_ok (m_type k) = true).
      { intros k Hk. assert (X := definition_member_ok input m Hg Hm _ k Hd Hk). unfold member_ok in X.
        repeat (apply andb_prop in X; destruct X as [X ?]). assumption. }
      assert (RK : forall k, In k l -> range_ok (m_type k)).
      { intros k Hk. assert (X := DV _ (mod_defs_in input m Hm _ Hd)). simpl in X. rewrite Forall_forall in X.
        destruct (X k Hk) as (Y & _). destruct (m_type k); inversion Y; assumption. }
      assert (X : Forall valid_field f <-> forall k, In k l -> fits (definitions input) (m_type k)).
      { clear Hd. induction F as [|k y l f Hk F IH]; [split; [intros _ ? []|constructor]|].
        rewrite Forall_cons_iff, IH, (member_fits _ ND NP RO k y);
          [|apply OK; left; reflexivity|apply RK; left; reflexivity|exact Hk|intros; apply OK; right; assumption|intros; apply RK; right; assumption].
        split; [intros [A B] z [<-|Hz]; auto|]. intros A. split; [apply A; left; reflexivity|intros z Hz; apply A; right; exact Hz]. }
      rewrite X. split; [intros [A _] n2 c2 l2 k2 E; injection E as <- <- <-; apply A|].
      intros A. split; [intros k Hk; eapply A; [reflexivity|exact Hk]|constructor].
    + split; [intros _ ? ? ? ? X; discriminate|intros _; repeat constructor].
    + split; [intros _ ? ? ? ? X; discriminate|intros _]. constructor; [|constructor]. simpl. apply Forall_map. apply Forall_forall.
      intros k _. split; simpl; discriminate.
    + split; [intros _ ? ? ? ? X; discriminate|intros _; constructor].
Qed.

(** ** Types *)
Lemma said_typedefs : forall ds d xs, definition_said ds d xs -> flat_map typedefs xs = tnames d.
Proof. intros ds d xs H. destruct H; reflexivity. Qed.

Lemma said_position : forall ds vars order dss a x b, Forall2 (definition_said ds) order dss ->
  concat dss ++ vars = a ++ x :: b ->
  In x vars \/
  exists i d, nth_error order i = Some d /\ definition_said ds d [x]
    /\ forall j d', (j < i)%nat -> nth_error order j = Some d' -> incl (tnames d') (flat_map typedefs a).
Proof.
  intros ds vars order dss a x b F. revert a. induction F as [|d xs l l' H F IH]; intros a E.
  - left. simpl in E. rewrite E. apply in_or_app. right. left. reflexivity.
  - assert (C : xs = [] \/ exists y, xs = [y]) by (destruct H; eauto).
    destruct C as [->|(y & ->)]; cbn [concat] in E.
    + destruct (IH a E) as [V|(i & d0 & A & B & C)]; [left; exact V|]. right. exists (S i), d0. split; [exact A|]. split; [exact B|].
      intros [|j] d' L N; [|apply (C j); [lia|exact N]]. injection N as <-. rewrite <- (said_typedefs _ _ _ H). intros z [].
    + destruct a as [|y' a]; injection E as <- E.
      * right. exists 0%nat, d. split; [reflexivity|]. split; [exact H|]. intros j d' L. lia.
      * destruct (IH a E) as [V|(i & d0 & A & B & C)]; [left; exact V|]. right. exists (S i), d0. split; [exact A|]. split; [exact B|].
        intros [|j] d' L N.
        -- injection N as <-. rewrite <- (said_typedefs _ _ _ H). simpl. rewrite app_nil_r. intros z Hz. apply in_or_app. left. exact Hz.
        -- intros z Hz. simpl. apply in_or_app. right. apply (C j d'); [lia|exact N|exact Hz].
Qed.

Lemma said_decl : forall ds order dss d, Forall2 (definition_said ds) order dss -> In d order ->
  exists xs a b, definition_said ds d xs /\ concat dss = a ++ xs ++ b.
Proof.
  intros ds order dss d F. induction F as [|d0 xs l l' H F IH]; intros []; cbn [concat].
  - subst d0. exists xs, [], (concat l'). auto.
  - destruct (IH H0) as (ys & a & b & A & ->). exists ys, (xs ++ a), b. rewrite <- app_assoc. auto.
Qed.

Lemma type_name_element : forall t, type_name t = type_name (element t).
Proof. induction t; simpl; auto. Qed.

Definition small (s : string) : bool := match s with String c _ => negb (is_upper c) | _ => false end.
Lemma small_not_type : forall s n, s = c_name n -> is_name_capital n = true -> small s = true -> False.
Proof.
  intros s n E Hn U. destruct s as [|ch r]; [discriminate|]. symmetry in E. apply first_char in E; [|exact Hn].
  simpl in U. rewrite E in U. discriminate.
Qed.

Section types.
Variables (names : list string) (cmd : command) (fuel : nat) (input : list module) (fs fs' : folder) (m : module) (h : header).
Hypothesis HC : config_command names cmd.
Hypothesis Hg : Forall (fun m => grammatical m = true) input.
Hypothesis HR : run fuel cmd input fs = (fs', Ok tt).
Hypothesis Hm : In m input.
Hypothesis HQ : quiet m.
Hypothesis HH : header_of cmd fs' m h.
Variables (ims : list module) (ihs : list header).
Hypothesis II : incl ims input.
Hypothesis IA : forall im it, In im input -> In it (mod_imports m) -> imp_module it = mod_name im -> In im ims.
Hypothesis IQ : Forall quiet ims.
Hypothesis IH : Forall2 (header_of cmd fs') ims ihs.

Let ds := definitions input.
Let before := flat_map h_decls ihs.

Lemma types_nodup : NoDup (map def_name ds).
Proof. exact (bv_names _ _ (run_valid names cmd fuel input fs fs' HC Hg HR)). Qed.

Lemma types_cap : forall d, In d ds -> is_name_capital (def_name d) = true.
Proof. apply def_cap. apply grammatical_definitions. exact Hg. Qed.

Lemma header_typedefs : forall x hx s, In x input -> quiet x -> header_of cmd fs' x hx ->
  (In s (flat_map typedefs (h_decls hx)) <-> In s (flat_map tnames (mod_defs x))).
Proof.
  intros x hx s Hx Qx Hhx.
  destruct (header_is names cmd fuel input fs fs' HC Hg HR x hx Hx Qx Hhx) as (order & dss & std & _ & _ & E & Po & _ & F).
  rewrite E, flat_map_app, in_app_iff.
  assert (V : ~ In s (flat_map typedefs (variables_said cmd order))).
  { clear HC HR HH IH before Hhx. intros H. apply in_flat_map in H. destruct H as (y & Hy & H). unfold variables_said in Hy.
    destruct cmd; try contradiction. apply in_map_iff in Hy. destruct Hy as (z & <- & _). contradiction. }
  assert (A : flat_map typedefs (concat dss) = flat_map tnames order).
  { clear - F. induction F as [|d xs l l' H F IH]; simpl; [reflexivity|]. rewrite flat_map_app, (said_typedefs _ _ _ H), IH. reflexivity. }
  rewrite A. split.
  - intros [H|H]; [|destruct (V H)]. apply (Permutation_in _ (flat_map_perm _ _ tnames _ _ Po)). exact H.
  - intros H. left. apply (Permutation_in _ (flat_map_perm _ _ tnames _ _ (Permutation_sym Po))). exact H.
Qed.

Lemma before_typedefs : forall s, In s (flat_map typedefs before) <-> exists im, In im ims /\ In s (flat_map tnames (mod_defs im)).
Proof.
  intros s. unfold before. clear IA. revert II IQ. induction IH as [|im ih l l' H F IHF]; intros I Q.
  - split; [intros []|intros (? & [] & _)].
  - inversion Q as [|? ? Q1 Q2]; subst. cbn [flat_map]. rewrite flat_map_app, in_app_iff.
    rewrite (header_typedefs im ih s (I im (or_introl eq_refl)) Q1 H).
    rewrite IHF; [|exact F|intros z Hz; apply I; right; exact Hz|exact Q2]. split.
    + intros [A|(x & Hx & A)]; [exists im; split; [left; reflexivity|exact A]|exists x; split; [right; exact Hx|exact A]].
    + intros (x & [<-|Hx] & A); eauto.
Qed.

(** Every typedef is made by a definition. *)
Lemma typedef_from : forall a x b s, h_decls h = a ++ x :: b -> In s (flat_map typedefs (before ++ a)) ->
  exists d, In d ds /\ s = c_name (def_name d) /\ match d with DSequence _ _ _ | DEnumerated _ _ _ => True | _ => False end.
Proof.
  intros a x b s E H. assert (X : exists y, In y input /\ In s (flat_map tnames (mod_defs y))).
  { rewrite flat_map_app in H. apply in_app_or in H. destruct H as [H|H].
    - apply before_typedefs in H. destruct H as (im & Him & H). exists im. auto.
    - exists m. split; [exact Hm|]. apply (header_typedefs m h s Hm HQ HH). rewrite E, flat_map_app. apply in_or_app. left. exact H. }
  destruct X as (y & Hy & X). apply in_flat_map in X. destruct X as (d & Hd & X). exists d.
  split; [apply in_flat_map; eauto|]. split; [apply tnames_origin; exact X|]. destruct d; try contradiction; exact I.
Qed.

Lemma named_typedef : forall a x b n incs, h_decls h = a ++ x :: b -> is_name_capital n = true ->
  known_type incs (before ++ a) [c_name n] ->
  exists d, In d ds /\ def_name d = n /\ match d with DSequence _ _ _ | DEnumerated _ _ _ => True | _ => False end.
Proof.
  intros a x b n incs E Hn [K|[(s & K1 & K2 & _)|(s & K1 & K2)]].
  - exfalso. simpl in K. repeat (destruct K as [K|K]; [try discriminate K; injection K as K; exact (small_not_type _ _ K Hn eq_refl)|]). destruct K.
  - exfalso. injection K1 as <-. simpl in K2.
    repeat (destruct K2 as [K2|K2]; [exact (small_not_type _ _ K2 Hn eq_refl)|]). destruct K2.
  - injection K1 as <-. destruct (typedef_from a x b _ E K2) as (d & Hd & Es & Kd). exists d. split; [exact Hd|]. split; [|exact Kd].
    apply names_distinct in Es; [congruence|left; exact Hn|left; apply types_cap; exact Hd].
Qed.

(** A word that is no type name of C and no capital name. *)
Lemma unknown_word : forall a x b w incs, h_decls h = a ++ x :: b -> (forall n, is_name_capital n = true -> w <> c_name n) ->
  ~ In [w] [["char"]; ["int"]; ["float"]; ["double"]; ["unsigned"; "long"; "long"]] -> ~ In w STDINT_TYPES ->
  ~ known_type incs (before ++ a) [w].
Proof.
  intros a x b w incs E NC N1 N2 [K|[(s & K1 & K2 & _)|(s & K1 & K2)]].
  - exact (N1 K).
  - injection K1 as <-. exact (N2 K2).
  - injection K1 as <-. destruct (typedef_from a x b _ E K2) as (d & Hd & Es & _). apply (NC (def_name d)); [apply types_cap; exact Hd|exact Es].
Qed.

Lemma types_same : forall d d', In d ds -> In d' ds -> def_name d = def_name d' -> d = d'.
Proof. apply same_named. exact types_nodup. Qed.

Lemma decl_of : forall d, In d (mod_defs m) -> (forall ys, definition_said ds d ys -> exists y, ys = [y]) -> types_known before h ->
  exists y a b, definition_said ds d [y] /\ h_decls h = a ++ y :: b
    /\ Forall (known_type (h_includes h) (before ++ a)) (field_types y).
Proof.
  intros d Hd One TK.
  destruct (header_is names cmd fuel input fs fs' HC Hg HR m h Hm HQ HH) as (order & dss & std & _ & _ & E & Po & _ & F).
  destruct (said_decl _ _ _ d F (Permutation_in _ (Permutation_sym Po) Hd)) as (ys & a & b & A & B).
  destruct (One ys A) as (y & ->). exists y, a, (b ++ variables_said cmd order). split; [exact A|].
  assert (X : h_decls h = a ++ y :: (b ++ variables_said cmd order)) by (rewrite E, B, <- app_assoc; reflexivity).
  split; [exact X|]. exact (TK _ _ _ X).
Qed.

Lemma types_known_only : types_known before h -> Forall (known_members ds) (mod_defs m).
Proof.
  intros TK. apply Forall_forall. intros d Hd. destruct d as [n c l|n c l|n c l|n t c]; try exact I.
  - destruct (decl_of _ Hd) as (y & a & b & Hs & E & FK); [intros ys Hs; inversion Hs; eauto|exact TK|].
    inversion Hs as [? ? ? fl F| | |]; subst. simpl in FK. rewrite Forall_map in FK.
    simpl. apply Forall_forall. intros k Hk.
    assert (X : exists f, In f fl /\ member_said ds k f).
    { clear - F Hk. induction F as [|k0 f l fl S F IH]; [destruct Hk|]. destruct Hk as [<-|Hk]; [exists f; split; [left; reflexivity|exact S]|].
      destruct (IH Hk) as (g & Hg & S'). exists g. split; [right; exact Hg|exact S']. }
    destruct X as (f & Hf & _ & _ & TS). rewrite Forall_forall in FK. specialize (FK f Hf). intros n' E' NP.
    assert (POX : forall ct, In (n', ct) POSIX_NAMES -> False) by (intros ct X; apply NP, in_map_iff; exists (n', ct); auto).
    assert (CASES : (x_type f = [c_name n'] /\ forall t c, ~ In (DSimple n' t c) ds)
                    \/ exists t2 c2 bits, In (DSimple n' t2 c2) ds /\ number_said t2 (x_type f) bits).
    { destruct TS as [B|s z B|ct bits [(r & B)|(r & B)] _|n2 t2 c2 ct bits B I2 _ NS|n2 t2 c2 ct B I2 PX|n2 c2 l2 B I2 _|n2 c2 l2 B I2 _|n2 c2 l2 w B I2 _ _|n2 c2 l2 m2 e2 B1 B I2 _|n2 d2 ct bits B I2 EN _ PX].
      - congruence.
      - congruence.
      - rewrite B in E'. discriminate.
      - rewrite B in E'. discriminate.
      - right. assert (n2 = n') by congruence. subst n2. eauto.
      - exfalso. apply (POX ct). congruence.
      - left. assert (n2 = n') by congruence. subst n2. split; [reflexivity|]. intros t3 c3 H3. assert (Z := types_same _ _ I2 H3 eq_refl). discriminate.
      - left. assert (n2 = n') by congruence. subst n2. split; [reflexivity|]. intros t3 c3 H3. assert (Z := types_same _ _ I2 H3 eq_refl). discriminate.
      - left. rewrite B in E'. assert (n2 = n') by (simpl in E'; congruence). subst n2. split; [reflexivity|]. intros t3 c3 H3. assert (Z := types_same _ _ I2 H3 eq_refl). discriminate.
      - left. rewrite B1 in E'. assert (n2 = n') by (simpl in E'; congruence). subst n2. split; [reflexivity|]. intros t3 c3 H3. assert (Z := types_same _ _ I2 H3 eq_refl). discriminate.
      - exfalso. apply (POX ct). congruence. }
    split.
    + intros c' l' Hc. destruct CASES as [(T & _)|(t2 & c2 & bits & I2 & _)].
      * rewrite T in FK. destruct (named_typedef a _ b n' _ E (types_cap _ Hc) FK) as (d & Id & En & Kd).
        assert (Z := types_same _ _ Id Hc En). subst d. exact Kd.
      * assert (Z := types_same _ _ I2 Hc eq_refl). discriminate.
    + intros t' c' Hc. destruct CASES as [(_ & T)|(t2 & c2 & bits & I2 & NS)]; [destruct (T _ _ Hc)|].
      assert (Z := types_same _ _ I2 Hc eq_refl). injection Z as -> ->.
      assert (NC : forall w, small w = true -> forall n, is_name_capital n = true -> w <> c_name n).
      { intros w Hw q Hq X. exact (small_not_type _ _ X Hq Hw). }
      inversion NS; subst; eauto 6; exfalso.
      * eapply (unknown_word a _ b "bool"); [exact E|apply NC; reflexivity| | |match goal with X : ["bool"] = x_type f |- _ => rewrite <- X in FK end; exact FK];
          simpl; intuition discriminate.
      * eapply (unknown_word a _ b "string"); [exact E|apply NC; reflexivity| | |match goal with X : ["string"] = x_type f |- _ => rewrite <- X in FK end; exact FK];
          simpl; intuition discriminate.
  - destruct (decl_of _ Hd) as (y & a & b & Hs & E & FK); [intros ys Hs; inversion Hs; eauto|exact TK|].
    inversion Hs; subst. simpl in FK. rewrite map_map, Forall_map in FK. simpl. apply Forall_forall. intros k Hk.
    rewrite Forall_forall in FK. specialize (FK k Hk). simpl in FK. rewrite type_name_element in FK.
    assert (KW : forall w, In w ["INTEGER"; "REAL"; "BOOLEAN"] -> forall n, is_name_capital n = true -> w <> c_name n).
    { intros w Hw q Hq X. apply (c_name_keyword q w Hq Hw). congruence. }
    assert (OKT : type_ok (m_type k) = true).
    { assert (X := definition_member_ok input m Hg Hm _ k Hd Hk). unfold member_ok in X.
      repeat (apply andb_prop in X; destruct X as [X ?]). assumption. }
    assert (OKE : type_ok (element (m_type k)) = true).
    { clear - OKT. induction (m_type k); simpl in *; auto. }
    assert (NN : element (m_type k) <> TNull).
    { assert (MV := bv_modules _ _ (run_valid names cmd fuel input fs fs' HC Hg HR)). rewrite Forall_forall in MV.
      destruct (MV m Hm) as (_ & V & _). rewrite Forall_forall in V. specialize (V _ Hd). simpl in V. rewrite Forall_forall in V. apply V, Hk. }
    destruct (element (m_type k)) as [r|r| | |s z|z e|q] eqn:EL.
    + exfalso. eapply (unknown_word a _ b "REAL"); [exact E|apply KW; simpl; tauto| | |exact FK]; simpl; intuition discriminate.
    + exfalso. eapply (unknown_word a _ b "INTEGER"); [exact E|apply KW; simpl; tauto| | |exact FK]; simpl; intuition discriminate.
    + congruence.
    + exfalso. eapply (unknown_word a _ b "BOOLEAN"); [exact E|apply KW; simpl; tauto| | |exact FK]; simpl; intuition discriminate.
    + left. eauto.
    + exfalso. clear - EL. induction (m_type k); simpl in EL; try discriminate; auto.
    + right. destruct (named_typedef a _ b q _ E OKE FK) as (d & Id & En & Kd). exists d. rewrite En. auto.
Qed.

Lemma use_known : forall a x b i d order k n d', h_decls h = a ++ x :: b -> nth_error order i = Some d -> In k (members_of d) ->
  element (m_type k) = TName n -> In d' ds -> def_name d' = n -> In (c_name n) (tnames d') ->
  ((exists j e, (j < i)%nat /\ nth_error order j = Some e /\ def_name e = n) \/ exists it, In it (mod_imports m) /\ In n (imp_names it)) ->
  (forall e, In e order -> In e (mod_defs m)) ->
  (forall j e, (j < i)%nat -> nth_error order j = Some e -> incl (tnames e) (flat_map typedefs a)) ->
  In (c_name n) (flat_map typedefs (before ++ a)).
Proof.
  intros a x b i d order k n d' E Ni Hk El Hd' En Ht U Oin INC. rewrite flat_map_app. apply in_or_app.
  destruct U as [(j & e & Lj & Nj & Ee)|(it & Hit & Hn)].
  - right. apply (INC j e Lj Nj). assert (Ie : In e ds) by (apply (mod_defs_in input m Hm), Oin, (nth_error_In _ _ Nj)).
    assert (Z : e = d') by (apply types_same; auto; congruence). rewrite Z. exact Ht.
  - left. apply before_typedefs. destruct (bv_imports _ _ (run_valid names cmd fuel input fs fs' HC Hg HR) m it Hm Hit) as (im & Him & Enm & Inc).
    exists im. split; [apply (IA im it); auto|]. apply Inc in Hn. unfold defined_names in Hn. apply in_map_iff in Hn.
    destruct Hn as (e & Ee & He). apply in_flat_map. exists e. split; [exact He|].
    assert (Ie : In e ds) by (apply in_flat_map; eauto).
    assert (Z : e = d') by (apply types_same; auto; congruence). rewrite Z. exact Ht.
Qed.

Lemma types_known_if : Forall (known_members ds) (mod_defs m) -> types_known before h.
Proof.
  intros KM a x b E.
  destruct (header_is names cmd fuel input fs fs' HC Hg HR m h Hm HQ HH) as (order & dss & std & Ei & Est & Ed & Po & Use & F).
  assert (EE := E). rewrite Ed in EE. destruct (said_position _ _ _ _ _ _ _ F EE) as [V|(i & d & Ni & Hs & INC)].
  { assert (X : field_types x = []); [|rewrite X; constructor].
    clear - V. unfold variables_said in V. destruct cmd; try contradiction. apply in_map_iff in V. destruct V as (z & <- & _). reflexivity. }
  assert (Oin : forall e, In e order -> In e (mod_defs m)) by (intros e He; apply (Permutation_in _ Po); exact He).
  assert (Hd : In d (mod_defs m)) by (apply Oin, (nth_error_In _ _ Ni)).
  assert (KN : forall k n d', In k (members_of d) -> element (m_type k) = TName n -> In d' ds -> def_name d' = n ->
     In (c_name n) (tnames d') -> known_type (h_includes h) (before ++ a) [c_name n]).
  { intros k n d' Hk El Hd' En Ht. right. right. exists (c_name n). split; [reflexivity|].
    eapply use_known; eauto. }
  assert (XIN : In x (h_decls h)) by (rewrite E; apply in_or_app; right; left; reflexivity).
  rewrite Forall_forall in KM. specialize (KM d Hd).
  inversion Hs as [n c l fl FM|n c l l' RN|n c l|n t c]; subst; simpl field_types; [|constructor|].
  - apply Forall_map, Forall_forall. intros f Hf.
    assert (X : exists k, In k l /\ member_said ds k f).
    { clear - FM Hf. induction FM as [|k f0 l fl S F IH]; [destruct Hf|]. destruct Hf as [<-|Hf]; [exists k; split; [left; reflexivity|exact S]|].
      destruct (IH Hf) as (g & Hg & S'). exists g. split; [right; exact Hg|exact S']. }
    destruct X as (k & Hk & _ & _ & TS). simpl in KM. rewrite Forall_forall in KM. specialize (KM k Hk).
    assert (STD : forall w, x_type f = [w] -> In w STDINT_TYPES -> known_type (h_includes h) (before ++ a) (x_type f)).
    { intros w Ew Hw. right. left. exists w. split; [exact Ew|]. split; [exact Hw|]. rewrite Ei.
      destruct Est as [(-> & _)|(-> & NU)]; [left; reflexivity|]. exfalso. apply NU. exists (XStruct true (c_name n) fl).
      split; [exact XIN|]. exists true, (c_name n), fl, f, w. auto. }
    assert (PX : forall q ct, x_type f = [ct] -> In (q, ct) POSIX_NAMES -> known_type (h_includes h) (before ++ a) (x_type f)).
    { intros q ct Ec Hq. apply (STD ct Ec). simpl in Hq. repeat (destruct Hq as [Hq|Hq]; [injection Hq as _ <-; simpl; tauto|]). destruct Hq. }
    assert (NUM : forall t bits, number_said t (x_type f) bits -> element t <> TBoolean -> (forall s z, t <> TString s z) ->
       known_type (h_includes h) (before ++ a) (x_type f)).
    { intros t bits NS NB NT. inversion NS as [lo hi w z ct bits' _ _ _ _ U _ E1 E2|lo hi w _ _ _ E1 E2|lo hi _ E1 E2|b0 e0 _ _ E1 E2|b0 e0 _ E1 E2|t0 B|s z E1 E2|t0 B|t0 B]; subst.
      - match goal with X : [ct] = x_type f |- _ => rewrite X end. apply (STD ct); [congruence|]. simpl in U. repeat (destruct U as [U|U]; [injection U as _ <-; simpl; tauto|]). destruct U.
      - left. simpl. tauto.
      - left. simpl. tauto.
      - left. simpl. tauto.
      - left. simpl. tauto.
      - destruct (NB B).
      - destruct (NT s z eq_refl).
      - left. simpl. tauto.
      - left. simpl. tauto. }
    remember (x_type f) as xt eqn:EX. remember (x_bits f) as xb eqn:EB.
    destruct TS as [B|s z B|ct bits D NS|n2 t2 c2 ct bits B I2 NP NS|n2 t2 c2 ct B I2 PX2|n2 c2 l2 B I2 NP|n2 c2 l2 B I2 NP|n2 c2 l2 w B I2 NP LW|n2 c2 l2 m2 e2 B1 B I2 NP|n2 d2 ct bits B I2 EN _ PX2].
    + apply (STD "uint8_t" eq_refl). simpl. tauto.
    + left. simpl. tauto.
    + eapply NUM; [exact NS| |]; destruct D as [(r & ->)|(r & ->)]; discriminate.
    + destruct (KM n2 B NP) as [_ K2]. specialize (K2 t2 c2 I2). eapply NUM; [exact NS| |].
      * destruct K2 as [K2|[K2|[(r & ->)|(r & ->)]]]; try discriminate; congruence.
      * intros s z ->. destruct K2 as [K2|[K2|[(r & K2)|(r & K2)]]]; discriminate.
    + eapply PX; [reflexivity|exact PX2].
    + apply (KN k n2 (DSequence n2 c2 l2)); auto. left. reflexivity.
    + destruct (KM n2 B NP) as [K1 _]. destruct (K1 _ _ I2).
    + apply (KN k n2 (DEnumerated n2 c2 l2)); auto; [rewrite B; reflexivity|left; reflexivity].
    + apply (KN k n2 (DEnumerated n2 c2 l2)); auto; [rewrite B1; exact B|left; reflexivity].
    + eapply PX; [reflexivity|exact PX2].
  - rewrite map_map. apply Forall_map, Forall_forall. intros k Hk. cbn [x_type]. simpl in KM. rewrite Forall_forall in KM.
    rewrite type_name_element. destruct (KM k Hk) as [(s & z & ->)|(d' & El & Hd' & Kd)].
    + left. destruct s; simpl; tauto.
    + rewrite El. simpl type_name. apply (KN k _ d' Hk El Hd' eq_refl). destruct d'; try contradiction; left; reflexivity.
Qed.

Lemma header_types_iff : types_known before h <-> Forall (known_members ds) (mod_defs m).
Proof. split; [exact types_known_only|exact types_known_if]. Qed.
End types.
