(** * Proofs: other names for the types; cfs, c and binary (C96) *)
From Coq Require Import Relations.
From Verif Require Import Base PyNum PyStr Ast Size Processor Bundle Sorter CCommon GenCfs GenC GenBinary GenCosmos Main
  Lib_proofs Str_proofs Spec_Enum Enum_proofs Spec_Num Num_proofs Spec_Check Check_proofs Spec_Grammar Spec_Bundle Bundle_proofs
  Name_proofs Accept_proofs Spec_Gen Gen_proofs Field_proofs Spec_Order Order_proofs Cdata_proofs Run_proofs
  Spec_Files Files_proofs Fuel_proofs Spec_Layout Spec_Cfs Spec_Binary Disk_proofs Cfs_proofs Binary_proofs Spec_Runs Runs_proofs Runs2_proofs
  Spec_Size Spec_Text Plain_proofs Spec_Rename Rename_proofs.
Open Scope string_scope.
Open Scope list_scope.

(** The contents of a .bin file, as computed. *)
Lemma binary_bytes : forall names fuel input fs fs' e m n c l k w,
  Forall (fun m => grammatical m = true) input -> run fuel (GenerateBinary names e) input fs = (fs', Ok tt) -> In m input ->
  In (DSequence n c l) (mod_defs m) -> last_clause l k w ->
  exists b bm specs bs, config names input b /\ In bm (b_modules b) /\ same_module m (bm_mod bm)
    /\ sequence_specs fuel (all_defs b) (mod_defs (bm_mod bm)) = Ok specs /\ clause_bytes e specs (type_name (m_type k)) w = Ok bs
    /\ folder_get fs' (lowerize (c_name n) ++ ".bin")%string = Some (string_of_bytes (concat bs)).
Proof.
  intros names fuel input fs fs' e m n c l k w Hg H Hm Hd Hk.
  destruct (run_input_written names (GenerateBinary names e) fuel input fs fs' m) as (b & bm & fl & C & Hbm & S1 & Hfl & R);
    [right; right; eexists; reflexivity|assumption|assumption|assumption|].
  cbn [module_files] in Hfl. apply bind_ok in Hfl. destruct Hfl as (cd & Hc & E). injection E as <-.
  unfold bin_cdata in Hc. apply module_collects in Hc; [|apply bin_wch_includes].
  destruct Hc as (sorted & css & iss & Hs & F & _ & _ & _ & _ & _ & _ & B).
  assert (P := sorted_perm _ _ _ Hs).
  assert (Nd : NoDup (map def_name sorted)).
  { apply (Permutation_NoDup (Permutation_sym (Permutation_map def_name P))). eapply config_local_nodup; eassumption. }
  assert (Cap : forall d, In d sorted -> is_name_capital (def_name d) = true).
  { intros d Hd'. eapply config_capital; [exact C|]. apply in_all_defs. exists bm. split; [exact Hbm|].
    apply (Permutation_in _ P). exact Hd'. }
  assert (Nl : NoDup (map (fun d => lowerize (c_name (def_name d))) sorted)).
  { clear - Nd Cap. induction sorted as [|d l IH]; simpl; [constructor|]. simpl in Nd. inversion Nd as [|? ? N1 N2]; subst.
    constructor; [|apply IH; [exact N2|intros x Hx; apply Cap; right; exact Hx]].
    intros G. apply in_map_iff in G. destruct G as (x & E & Hx). apply N1.
    apply lower_c_name_inj in E; [|apply Cap; right; exact Hx|apply Cap; left; reflexivity].
    rewrite <- E. apply in_map. exact Hx. }
  destruct (bin_cdata_binary _ _ _ _ _ _ _ F Nl B) as (B' & _).
  assert (Hd' : In (DSequence n c l) sorted).
  { apply (Permutation_in _ (Permutation_sym P)). apply (same_module_sequence _ _ S1). exact Hd. }
  destruct (Forall2_in_l _ _ _ _ _ _ F Hd') as (cs & Hcs & Hh).
  destruct (bin_clause_binary _ _ _ _ _ _ Hh) as (E & _). unfold handled in Hh. cbn [clauses_of def_name] in Hh.
  destruct (filter_last _ _ _ Hk) as (q & Er). rewrite Er in Hh. apply Forall2_app_inv_l in Hh. destruct Hh as (cs1 & cs2 & _ & F2 & ->).
  inversion F2 as [|? ck ? ? Hck F3]; subst. inversion F3; subst. rewrite map_app in E. cbn [map] in E. rewrite last_last in E.
  assert (Hw : m_with k = Some w) by (destruct Hk as (? & ? & _ & Q & _); exact Q).
  unfold bin_with_components in Hck. rewrite Hw in Hck. apply bind_ok in Hck. destruct Hck as (specs & Hsp & Hck).
  apply bind_ok in Hck. destruct Hck as (bs & Hbs & Hck). injection Hck as <-. cbn [cd_binary] in E.
  exists b, bm, specs, bs. repeat (split; [assumption|]).
  apply R. unfold print_to_file. cbn [is_binary is_stored_data]. apply in_or_app. right. apply in_or_app. right.
  apply in_map_iff. exists (lowerize (c_name n), bs). split; [reflexivity|]. rewrite B'. apply in_flat_map.
  exists (cs1 ++ [mkcdata [] [] [] [] [] "" false false "" [(lowerize (c_name n), bs)]])%list. split; [exact Hcs|]. rewrite E. left. reflexivity.
Qed.

Lemma has_last : forall l, (exists k w, last_clause l k w) \/ forall y, In y l -> m_with y = None.
Proof.
  induction l as [|x l IH]; [right; intros y []|]. destruct IH as [(k' & w' & a & b & -> & H)|H].
  - left. exists k', w', (x :: a), b. split; [reflexivity|exact H].
  - destruct (m_with x) as [w|] eqn:E; [left; exists x, w, [], l; auto|right]. intros y [<-|Y]; auto.
Qed.

Lemma module_of_name : forall names input b bm bm', config names input b -> In bm (b_modules b) -> In bm' (b_modules b) ->
  bm_name bm = bm_name bm' -> bm = bm'.
Proof.
  intros names input b bm bm' (G & B) H H' E. destruct (bundle_same names input b B) as (S & _).
  assert (V := proj1 (bundle_accepted_iff names input G) (ex_intro _ b B)). assert (N := bv_module_names _ _ V).
  assert (Q : map mod_name input = map bm_name (b_modules b)).
  { clear - S. revert S. generalize (b_modules b). induction input as [|m l IH]; intros [|x y] S; inversion S; subst; [reflexivity|].
    cbn [map]. f_equal; [|apply IH; assumption]. symmetry. match goal with X : same_module _ _ |- _ => apply X end. }
  rewrite Q in N. exact (NoDup_map_inj _ _ bm_name _ _ _ N H H' E).
Qed.

Section Renaming.
Variables r s : string -> string.
Hypothesis RN : renaming r s.
Notation rt := (rename_type r).
Notation rm := (rename_member r).
Notation rd := (rename_definition r).

Lemma element_r : forall t, element (rt t) = rt (element t).
Proof. induction t; try reflexivity. exact IHt. Qed.
Lemma rt_name : forall t n, rt t = TName n -> exists n', t = TName n' /\ n = r n'.
Proof. intros [] n0 H; try discriminate H. injection H as <-. eauto. Qed.
Lemma rt_other : forall t u, (forall n, u <> TName n) -> (forall n e, u <> TArray n e) -> rt t = u -> t = u.
Proof. intros [] u H H' E; cbn [rename_type] in E; try exact E; [destruct (H' _ _ (eq_sym E))|destruct (H _ (eq_sym E))]. Qed.
Lemma members_r : forall d, members_of (rd d) = map rm (members_of d).
Proof. intros []; reflexivity. Qed.
Lemma definitions_r : forall ms, definitions (map (rename r) ms) = map rd (definitions ms).
Proof. intros ms. unfold definitions. rewrite flat_map_map, map_flat_map. reflexivity. Qed.

(** ** Grammar *)

Lemma type_ok_r : forall t, type_ok (rt t) = type_ok t.
Proof. induction t; try reflexivity; [exact IHt|]. apply (rn_capital _ _ RN). Qed.
Lemma member_ok_r : forall m, member_ok (rm m) = member_ok m.
Proof. intros m. unfold member_ok. cbn [rename_member m_key m_type m_comment m_with]. rewrite type_ok_r. reflexivity. Qed.
Lemma forallb_map : forall A B (f : A -> B) (p : B -> bool) l, forallb p (map f l) = forallb (fun a => p (f a)) l.
Proof. intros A B f p. induction l as [|a l IH]; [reflexivity|]. cbn [map forallb]. rewrite IH. reflexivity. Qed.
Lemma forallb_same : forall A (p q : A -> bool) l, (forall a, p a = q a) -> forallb p l = forallb q l.
Proof. intros A p q l H. induction l as [|a l IH]; [reflexivity|]. cbn [forallb]. rewrite H, IH. reflexivity. Qed.
Lemma is_nil_mapped : forall A B (f : A -> B) l, is_nil (map f l) = is_nil l.
Proof. intros A B f []; reflexivity. Qed.
Lemma definition_ok_r : forall d, definition_ok (rd d) = definition_ok d.
Proof.
  intros [n c l|n c l|n c l|n t c]; cbn [rename_definition definition_ok]; rewrite (rn_capital _ _ RN);
    rewrite ?is_nil_mapped, ?forallb_map, ?type_ok_r; try reflexivity; rewrite (forallb_same _ _ member_ok) by exact member_ok_r; reflexivity.
Qed.
Lemma grammatical_r : forall m, grammatical (rename r m) = grammatical m.
Proof.
  intros m. unfold grammatical. cbn [rename mod_name mod_comment mod_imports mod_comment_import mod_defs].
  rewrite !forallb_map, is_nil_mapped, (forallb_same _ _ definition_ok) by exact definition_ok_r.
  rewrite (forallb_same _ (fun a => import_ok (rename_import r a)) import_ok); [reflexivity|].
  intros i. unfold import_ok. cbn [rename_import imp_names imp_module imp_comment]. rewrite is_nil_mapped, forallb_map.
  rewrite (forallb_same _ (fun a => is_name_capital (r a)) is_name_capital) by exact (rn_capital _ _ RN). reflexivity.
Qed.
Lemma all_grammatical_r : forall ms, Forall (fun m => grammatical m = true) ms -> Forall (fun m => grammatical m = true) (map (rename r) ms).
Proof. intros ms H. apply Forall_map. eapply Forall_impl; [|exact H]. intros m G. rewrite grammatical_r. exact G. Qed.

(** ** Validity and cycles *)

Lemma acyclic_map : forall (P Q : string -> string -> Prop) (f : string -> string),
  (forall x y, Q x y -> P (f x) (f y)) -> acyclic P -> acyclic Q.
Proof.
  intros P Q f H A (x & X). apply A. exists (f x). revert X. generalize x at 2 4. intros y X.
  induction X as [x y X|x y z X1 I1 X2 I2]; [apply t_step, H, X|eapply t_trans; eassumption].
Qed.

Lemma in_map_r : forall A B (f : A -> B) y l, In y (map f l) -> exists x, y = f x /\ In x l.
Proof. intros A B f y l H. apply in_map_iff in H as (x & <- & I). eauto. Qed.

Lemma imports_acyclic_r : forall ms, acyclic (imports_from ms) -> acyclic (imports_from (map (rename r) ms)).
Proof.
  intros ms. apply (acyclic_map _ _ (fun x => x)). intros x y (m & it & M & N & I & E). apply in_map_r in M as (m0 & -> & M).
  cbn [rename mod_imports] in I. apply in_map_r in I as (it0 & -> & I). exists m0, it0. auto.
Qed.
Lemma types_acyclic_r : forall m, acyclic (uses_local m) -> acyclic (uses_local (rename r m)).
Proof.
  intros m. apply (acyclic_map _ _ s). intros x y (d & k & D & N & K & E & I). cbn [rename mod_defs] in D.
  apply in_map_r in D as (d0 & -> & D). rewrite members_r in K. apply in_map_r in K as (k0 & -> & K). cbn [rename_member m_type] in E.
  rewrite element_r in E. apply rt_name in E as (y0 & E & ->). rewrite def_name_r in N. subst x. rewrite !(rn_back _ _ RN).
  exists d0, k0. repeat split; auto. unfold defined_names in I. cbn [rename mod_defs] in I. rewrite names_r in I. apply in_map_r in I as (z & Q & I).
  apply (r_inj r s RN) in Q. subst z. exact I.
Qed.

Lemma posix_name_r : forall n b, In (n, b) POSIX_INTEGERS -> r n = n.
Proof.
  intros n b H. apply (rn_reserved _ _ RN). unfold POSIX_INTEGERS in H. cbn [In] in H.
  repeat (destruct H as [H|H]; [injection H as <- _; cbn; intuition|]). destruct H.
Qed.
Lemma keep_r : forall n t, element t = TName n -> In n RESERVED -> element (rt t) = TName n.
Proof. intros n t E H. rewrite element_r, E. cbn [rename_type]. rewrite (rn_reserved _ _ RN n H). reflexivity. Qed.
Lemma direct_r : forall t, direct_c_type t -> direct_c_type (rt t).
Proof.
  intros t [lo hi H|b e|t0 E|t0 E|t0 E].
  - apply direct_integer. exact H.
  - apply direct_real.
  - apply direct_boolean. rewrite element_r, E. reflexivity.
  - apply direct_float. apply (keep_r "Float"); [exact E|cbn; intuition].
  - apply direct_double. apply (keep_r "Double"); [exact E|cbn; intuition].
Qed.
Lemma is_simple_r : forall d, is_simple (rd d) = is_simple d.
Proof. intros []; reflexivity. Qed.
Lemma has_c_type_r : forall ds t, has_c_type ds t -> has_c_type (map rd ds) (rt t).
Proof.
  intros ds t [E|k n E|E D|n t' c E Q D|n d E Q Eq S].
  - apply has_boolean. rewrite element_r, E. reflexivity.
  - apply (has_string _ _ k n). rewrite element_r, E. reflexivity.
  - apply has_number; [|apply direct_r, D]. destruct E as [(g & ->)|(g & ->)]; [left|right]; exists g; reflexivity.
  - apply (has_simple _ _ (r n) (rt t') c); [rewrite element_r, E; reflexivity|exact (in_map rd _ _ Q)|].
    destruct D as [D|D]; [left|right; apply direct_r, D]. apply in_map_iff in D as ([n0 b] & N & D). cbn [fst] in N. subst n0.
    rewrite (posix_name_r n b D). apply in_map_iff. exists (n, b). auto.
  - apply (has_other _ _ (r n) (rd d)); [rewrite element_r, E; reflexivity|exact (in_map rd _ _ Q)|rewrite def_name_r, Eq; reflexivity|rewrite is_simple_r; exact S].
Qed.

Lemma sequence_r : forall n c l ds, In (DSequence n c l) (map rd ds) -> exists n0 l0, n = r n0 /\ l = map rm l0 /\ In (DSequence n0 c l0) ds.
Proof. intros n c l ds H. apply in_map_r in H as ([] & E & H); try discriminate E. injection E as -> -> ->. eauto. Qed.
Lemma simple_r : forall n t c ds, In (DSimple n t c) (map rd ds) -> exists n0 t0, n = r n0 /\ t = rt t0 /\ In (DSimple n0 t0 c) ds.
Proof. intros n t c ds H. apply in_map_r in H as ([] & E & H); try discriminate E. injection E as -> -> ->. eauto. Qed.

Lemma processable_r : forall names input, Forall (fun m => grammatical m = true) input ->
  processable names input -> processable names (map (rename r) input).
Proof.
  intros names input G [V1 V2 V3 V4]. split.
  - destruct (run_bundle names input G) as (b & B); [split; assumption|]. assert (B' := build_config_r r s RN names input). rewrite B in B'.
    exact (proj1 (bundle_accepted_iff names _ (all_grammatical_r _ G)) (ex_intro _ _ B')).
  - apply imports_acyclic_r, V2.
  - intros m' M. apply in_map_r in M as (m & -> & M). apply types_acyclic_r, V3, M.
  - intros n c l k H K. rewrite definitions_r in *. apply sequence_r in H as (n0 & l0 & -> & -> & H). apply in_map_r in K as (k0 & -> & K).
    apply has_c_type_r. exact (V4 _ _ _ _ H K).
Qed.

(** ** Sizes and images *)

Lemma value_size_r : forall t w, value_size t w -> value_size (rt t) w.
Proof.
  intros t w H. destruct H; cbn [rename_type]; try (constructor; assumption).
  - rewrite (rn_reserved _ _ RN) by (cbn; intuition). constructor.
  - rewrite (rn_reserved _ _ RN) by (cbn; intuition). constructor.
Qed.
Lemma cfs_processable_r : forall input, cfs_processable input -> cfs_processable (map (rename r) input).
Proof.
  intros input [V1 V2]. split.
  - intros n c l k w H K W. rewrite definitions_r in H. apply sequence_r in H as (n0 & l0 & -> & -> & H). apply in_map_r in K as (k0 & -> & K).
    exact (V1 _ _ _ _ _ H K W).
  - intros n t c m H M U. rewrite definitions_r in H. apply simple_r in H as (n0 & t0 & -> & -> & H). apply in_map_r in M as (m0 & -> & M).
    destruct (V2 n0 t0 c m0 H M) as (w & W); [|exists w; apply value_size_r, W].
    destruct U as (d & k & D & K & W & E). cbn [rename mod_defs] in D. apply in_map_r in D as (d0 & -> & D). rewrite members_r in K.
    apply in_map_r in K as (k0 & -> & K). cbn [rename_member m_type] in E. rewrite element_r in E. apply rt_name in E as (y & E & Q). apply (r_inj r s RN) in Q. subst y.
    exists d0, k0. auto.
Qed.

Lemma leaf_size_r : forall ds t w, leaf_size ds t w -> leaf_size (map rd ds) (rt t) w.
Proof.
  intros ds t w [t0 w0 A B|n c t0 w0 A B|n c l w0 A B|n w0 A B].
  - apply leaf_value; [|apply value_size_r, B]. intros (n & E). apply A. apply rt_name in E as (n' & -> & _). exists n'. reflexivity.
  - apply (leaf_simple _ (r n) c (rt t0)); [exact (in_map rd _ _ A)|apply value_size_r, B].
  - apply (leaf_enum _ (r n) c l); [exact (in_map rd _ _ A)|exact B].
  - apply leaf_undefined; [|exact (value_size_r _ _ B)]. intros H. apply A. rewrite names_r in H. apply in_map_r in H as (x & Q & H). apply (r_inj r s RN) in Q. subst x. exact H.
Qed.
Lemma leaves_r : forall ds l ls, leaves ds l ls -> leaves (map rd ds) (map rm l) (map (fun x => (rm (fst x), snd x)) ls).
Proof.
  intros ds l ls H. induction H as [|m w l ls A B IH|m n c l l2 ls ls' A B C IH1 D IH2]; [constructor|..].
  - cbn [map fst snd]. constructor; [apply leaf_size_r; exact A|exact IH].
  - rewrite map_app. cbn [map]. eapply leaves_nested; [cbn [rename_member m_type]; rewrite A; reflexivity|exact (in_map rd _ _ B)|exact IH1|exact IH2].
Qed.
Lemma total_r : forall ls, total (map (fun x => (rm (fst x), snd x)) ls) = total ls.
Proof. intros ls. unfold total. rewrite map_map. reflexivity. Qed.
Lemma bit_size_r : forall ds t w, bit_size ds t w -> bit_size (map rd ds) (rt t) w.
Proof.
  intros ds t w [H|(n & c & l & ls & -> & A & B & ->)]; [left; apply leaf_size_r; exact H|right].
  exists (r n), c, (map rm l), (map (fun x => (rm (fst x), snd x)) ls).
  split; [reflexivity|]. split; [exact (in_map rd _ _ A)|]. split; [apply leaves_r, B|]. symmetry. apply total_r.
Qed.
Lemma encoded_r : forall ds t enc, encoded_as ds t enc -> encoded_as (map rd ds) (rt t) enc.
Proof.
  intros ds t enc H. destruct H as [b e w A B C|b e w A B|b e A B|b e A|t n sg w E P B W|t E B|t E B].
  - apply enc_unsigned; assumption.
  - apply enc_signed; assumption.
  - apply enc_single; assumption.
  - apply enc_double; assumption.
  - apply (enc_posix _ _ n); [|exact P|apply bit_size_r; exact B|exact W]. rewrite element_r, E. cbn [rename_type]. rewrite (posix_name_r n sg P). reflexivity.
  - apply enc_float; [apply (keep_r "Float"); [exact E|cbn; intuition]|apply bit_size_r; exact B].
  - apply enc_double_name; [apply (keep_r "Double"); [exact E|cbn; intuition]|apply bit_size_r; exact B].
Qed.
Lemma last_plain_r : forall k ms x, last_plain k ms x -> last_plain k (map rm ms) (rm x).
Proof.
  intros k ms x (a & b & -> & K & W & H). exists (map rm a), (map rm b). rewrite map_app. split; [reflexivity|]. split; [exact K|]. split; [exact W|].
  intros y Y. apply in_map_r in Y as (z & -> & Z). exact (H z Z).
Qed.
Lemma clause_image_r : forall ds mds e t w b, clause_image ds mds e t w b -> clause_image (map rd ds) (map rd mds) e (rt t) w b.
Proof.
  intros ds mds e. fix IH 4. intros t w b [t0 n c ms cm l b0 A B C]. apply (clause_im _ _ _ _ (r n) c (map rm ms)); [rewrite element_r, A; reflexivity|exact (in_map rd _ _ B)|]. clear A B.
  revert ms l b0 C. fix IH' 4. intros ms l b0 [ms0|ms0 k v c0 l' x enc b1 b2 P Q R S T|ms0 k w0 c0 l' x b1 b2 P Q T].
  - constructor.
  - apply (items_leaf _ _ _ _ _ _ _ _ (rm x) enc); [apply last_plain_r; exact P|exact Q|exact (encoded_r _ _ _ R)|exact S|apply IH'; exact T].
  - apply (items_nested _ _ _ _ _ _ _ _ (rm x)); [apply last_plain_r; exact P|exact (IH _ _ _ Q)|apply IH'; exact T].
Qed.

Lemma binary_processable_r : forall e input, binary_processable e input -> binary_processable e (map (rename r) input).
Proof.
  intros e input [V1 V2]. split.
  - intros m' n c l k n' c' l' k' M' D K W D' K' W'. rewrite definitions_r. apply in_map_r in M' as (m & -> & M). cbn [rename mod_defs] in D, D'.
    apply sequence_r in D as (n0 & l0 & -> & -> & D), D' as (n1 & l1 & -> & -> & D'). apply in_map_r in K as (k0 & -> & K), K' as (k1 & -> & K').
    destruct (V1 m n0 c l0 k0 n1 c' l1 k1 M D K W D' K' W') as (w & B). exists w. exact (bit_size_r _ _ _ B).
  - intros m' n c l k w M' D K W. rewrite definitions_r. apply in_map_r in M' as (m & -> & M). cbn [rename mod_defs] in *.
    apply sequence_r in D as (n0 & l0 & -> & -> & D). apply in_map_r in K as (k0 & -> & K).
    destruct (V2 m n0 c l0 k0 w M D K W) as (e' & b & E & B). exists e', b. split; [exact E|]. exact (clause_image_r _ _ _ _ _ _ B).
Qed.

Lemma renamed_succeeds : forall names cmd input fuel fs, config_command names cmd ->
  Forall (fun m => grammatical m = true) input ->
  snd (run fuel cmd input fs) = Ok tt -> exists F, forall fuel' fs', (F <= fuel')%nat -> snd (run fuel' cmd (map (rename r) input) fs') = Ok tt.
Proof.
  intros names cmd input fuel fs Hc G R. assert (G' := all_grammatical_r _ G). set (input' := map (rename r) input) in *.
  exists (S (length input' + length (definitions input'))). intros fuel' fs' L. destruct Hc as [->|[->|(e & ->)]].
  - destruct (proj1 (cfs_run_iff names input G fs) fuel R) as (P & Q).
    apply (cfs_run_iff names input' G' fs'); [apply processable_r|apply cfs_processable_r|]; assumption.
  - assert (P := proj1 (c_run_iff names input G fs) fuel R).
    apply (c_run_iff names input' G' fs'); [apply processable_r|]; assumption.
  - destruct (proj1 (binary_run_iff names input G e fs) fuel R) as (P & Q).
    apply (binary_run_iff names input' G' e fs'); [apply processable_r|apply binary_processable_r|]; assumption.
Qed.

(** ** The images *)

Definition ren_spec (k : string * spec) : string * spec := (fst k, mkspec (sp_ctype (snd k)) (sp_bits (snd k)) (r (sp_type (snd k)))).
Definition ren_specs (l : list (string * list (string * spec))) : list (string * list (string * spec)) :=
  map (fun x => (r (fst x), map ren_spec (snd x))) l.

Lemma member_specs_r : forall fuel ds l, member_specs fuel (map rd ds) (map rm l) = rmap (map ren_spec) (member_specs fuel ds l).
Proof.
  intros fuel ds. induction l as [|m l IH]; [reflexivity|]. cbn [map member_specs rename_member m_with m_type m_key].
  destruct (m_with m); [exact IH|]. rewrite (size_r r s RN). apply bind_rmap_same. intros w _. rewrite IH. apply rmap_bind. intros rest _.
  rewrite (c_type_r r s RN), (type_name_r r s RN). reflexivity.
Qed.
Lemma sequence_specs_r : forall fuel ds l, sequence_specs fuel (map rd ds) (map rd l) = rmap ren_specs (sequence_specs fuel ds l).
Proof.
  intros fuel ds. induction l as [|d l IH]; [reflexivity|]. cbn [map].
  destruct d as [n c ms|n c ms|n c is|n t c]; cbn [rename_definition sequence_specs]; try exact IH.
  rewrite member_specs_r. apply rmap_bind. intros q _. rewrite IH. apply rmap_bind. reflexivity.
Qed.
Lemma leaf_bytes_r : forall e k sp v, leaf_bytes e (snd (ren_spec (k, sp))) v = leaf_bytes e sp v.
Proof. reflexivity. Qed.
Lemma specs_get_r : forall n specs, dict_get (r n) (ren_specs specs) = option_map (map ren_spec) (dict_get n specs).
Proof.
  intros n specs. unfold ren_specs. rewrite <- dict_get_map, <- (dict_get_r r s RN _ n), map_map. reflexivity.
Qed.
Lemma spec_get_r : forall k d, dict_get k (map ren_spec d) = option_map (fun sp => mkspec (sp_ctype sp) (sp_bits sp) (r (sp_type sp))) (dict_get k d).
Proof. intros k d. rewrite <- dict_get_map. reflexivity. Qed.
Lemma clause_bytes_r : forall e specs w n, clause_bytes e (ren_specs specs) (r n) w = clause_bytes e specs n w.
Proof.
  intros e specs. induction w as [c l IH] using clause_ind. intros n. rewrite !clause_bytes_eq.
  induction l as [|[k v cm] l IHl]; [reflexivity|]. cbn [items_bytes item_bytes]. rewrite specs_get_r.
  rewrite IHl by (intros k' w' cm' I; apply (IH k' w' cm'); right; exact I). f_equal.
  destruct (dict_get n specs) as [d|]; cbn [option_map]; [|reflexivity]. rewrite spec_get_r. destruct (dict_get k d) as [sp|]; cbn [option_map]; [|reflexivity].
  destruct v as [z|f|b|w']; try reflexivity. cbn [sp_type]. apply (IH k w' cm). left. reflexivity.
Qed.

Lemma last_clause_r : forall l k w, last_clause l k w -> last_clause (map rm l) (rm k) w.
Proof.
  intros l k w (a & b & -> & W & H). exists (map rm a), (map rm b). rewrite map_app. split; [reflexivity|]. split; [exact W|].
  intros y Y. apply in_map_r in Y as (z & -> & Z). exact (H z Z).
Qed.

Lemma two_fuels : forall f f' ds l x y, sequence_specs f ds l = Ok x -> sequence_specs f' ds l = Ok y -> x = y.
Proof.
  intros f f' ds l x y X Y. destruct (Nat.le_ge_cases f f') as [L|L].
  - destruct (sequence_specs_below f f' L ds l) as [Q|Q]; congruence.
  - destruct (sequence_specs_below f' f L ds l) as [Q|Q]; congruence.
Qed.

Lemma images_renamed : forall names e input fuel fs fs1 fuel' fs' fs2 m n c l k w,
  Forall (fun m => grammatical m = true) input -> run fuel (GenerateBinary names e) input fs = (fs1, Ok tt) ->
  run fuel' (GenerateBinary names e) (map (rename r) input) fs' = (fs2, Ok tt) ->
  In m input -> In (DSequence n c l) (mod_defs m) -> In k l -> m_with k = Some w ->
  exists t, folder_get fs1 (lowerize (c_name n) ++ ".bin")%string = Some t /\ folder_get fs2 (lowerize (c_name (r n)) ++ ".bin")%string = Some t.
Proof.
  intros names e input fuel fs fs1 fuel' fs' fs2 m n c l k w G R R' M D K W.
  assert (LC : exists k' w', last_clause l k' w').
  { destruct (has_last l) as [H|H]; [exact H|]. rewrite (H k K) in W. discriminate W. }
  destruct LC as (k' & w' & L).
  destruct (binary_bytes _ _ _ _ _ _ _ _ _ _ _ _ G R M D L) as (b & bm & specs & bs & C & Hbm & S & Sp & Cb & F).
  assert (D' : In (DSequence (r n) c (map rm l)) (mod_defs (rename r m))) by exact (in_map rd _ _ D).
  destruct (binary_bytes _ _ _ _ _ _ _ _ _ _ _ _ (all_grammatical_r _ G) R' (in_map (rename r) _ _ M) D' (last_clause_r _ _ _ L))
    as (b' & bm' & specs' & bs' & C' & Hbm' & S' & Sp' & Cb' & F').
  exists (string_of_bytes (concat bs)). split; [exact F|]. rewrite F'. do 3 f_equal.
  assert (Eb : b' = ren_bundle r b).
  { destruct C as (_ & B), C' as (_ & B'). rewrite (build_config_r r s RN), B in B'. injection B' as <-. reflexivity. }
  subst b'. rewrite (all_defs_r r) in Sp'. cbn [ren_bundle b_modules] in Hbm'. apply in_map_r in Hbm' as (bm0 & -> & Hbm0).
  assert (bm0 = bm). { apply (module_of_name names input b); try assumption. unfold bm_name. rewrite (proj1 S). exact (proj1 S'). }
  subst bm0. cbn [ren_bm bm_mod rename mod_defs] in Sp'. rewrite sequence_specs_r in Sp'.
  destruct (sequence_specs fuel' (all_defs b) (mod_defs (bm_mod bm))) as [sp2|x|] eqn:E2; [|discriminate Sp'..]. injection Sp' as <-.
  rewrite (two_fuels _ _ _ _ _ _ E2 Sp) in Cb'. cbn [rename_member m_type] in Cb'. rewrite (type_name_r r s RN), clause_bytes_r in Cb'. congruence.
Qed.
End Renaming.

Lemma rename_back : forall r s, renaming r s -> forall m, rename s (rename r m) = m.
Proof.
  intros r s RN.
  assert (T : forall t, rename_type s (rename_type r t) = t).
  { induction t; try reflexivity; cbn [rename_type]; [rewrite IHt; reflexivity|]. rewrite (rn_back _ _ RN). reflexivity. }
  assert (Mm : forall l, map (rename_member s) (map (rename_member r) l) = l).
  { intros l. rewrite map_map. rewrite <- (map_id l) at 2. apply map_ext. intros [k t c w]. unfold rename_member. cbn. rewrite T. reflexivity. }
  intros [n c is ci ds]. unfold rename. cbn [mod_name mod_comment mod_imports mod_comment_import mod_defs]. f_equal.
  - rewrite map_map. rewrite <- (map_id is) at 2. apply map_ext. intros [ns im ic]. unfold rename_import. cbn. rewrite map_map. f_equal.
    rewrite <- (map_id ns) at 2. apply map_ext. apply (rn_back _ _ RN).
  - rewrite map_map. rewrite <- (map_id ds) at 2. apply map_ext. intros [dn dc l|dn dc l|dn dc l|dn t dc]; cbn [rename_definition]; rewrite (rn_back _ _ RN), ?Mm, ?T; reflexivity.
Qed.
Lemma renaming_sym : forall r s, renaming r s -> renaming s r.
Proof.
  intros r s [A B C D]. split; auto.
  - intros n H. rewrite <- (C n H) at 1. apply A.
  - intros n. rewrite <- (B n) at 2. rewrite D. reflexivity.
Qed.
Lemma success_renamed : forall r s names cmd input fs, renaming r s -> config_command names cmd ->
  Forall (fun m => grammatical m = true) input ->
  (exists fuel, snd (run fuel cmd input fs) = Ok tt) <-> (exists fuel, snd (run fuel cmd (map (rename r) input) fs) = Ok tt).
Proof.
  intros r s names cmd input fs RN Hc G. split; intros (fuel & H).
  - destruct (renamed_succeeds r s RN names cmd input fuel fs Hc G H) as (F & Q). exists F. apply Q. apply le_n.
  - destruct (renamed_succeeds s r (renaming_sym _ _ RN) names cmd _ fuel fs Hc (all_grammatical_r r s RN _ G) H) as (F & Q). exists F.
    rewrite map_map, (map_ext _ (fun m => m) (rename_back r s RN)), map_id in Q. apply Q. apply le_n.
Qed.

Lemma message_ids_renamed : forall r s names input fuel fs fs1 fuel' fs' fs2 m n c l k w h items, renaming r s ->
  Forall (fun m => grammatical m = true) input -> run fuel (GenerateCfs names) input fs = (fs1, Ok tt) ->
  run fuel' (GenerateCfs names) (map (rename r) input) fs' = (fs2, Ok tt) ->
  In m input -> In (DSequence n c l) (mod_defs m) -> In k l -> m_with k = Some w -> In (EHeader h) (clause_entries w) ->
  header_of h items -> NoDup (map wi_key items) -> Spec_Cfs.fits (identification items) ->
  exists p q d p' q' d',
    folder_get fs1 (c_name (mod_name m) ++ "_msgids.h") = Some (p ++ "#define " ++ upper (c_name n) ++ "_MID (0x" ++ d ++ ")" ++ NL ++ q)%string
    /\ folder_get fs2 (c_name (mod_name m) ++ "_msgids.h")
       = Some (p' ++ "#define " ++ upper (c_name (r n)) ++ "_MID (0x" ++ d' ++ ")" ++ NL ++ q')%string
    /\ String.length d = 4%nat /\ String.length d' = 4%nat /\ read_hex d = read_hex d' /\ read_hex d <> None.
Proof.
  intros r s names input fuel fs fs1 fuel' fs' fs2 m n c l k w h items RN G R R' M D K W E Hh N Ft.
  destruct (mid_written names fuel input fs fs1 m n c l k w h items G R M D K W E Hh N Ft) as (p & q & d & F1 & L1 & V1).
  destruct (mid_written names fuel' (map (rename r) input) fs' fs2 (rename r m) (r n) c (map (rename_member r) l) (rename_member r k) w h items
     (all_grammatical_r r s RN _ G) R' (in_map _ _ _ M) (in_map (rename_definition r) _ _ D) (in_map _ _ _ K) W E Hh N Ft) as (p' & q' & d' & F2 & L2 & V2).
  exists p, q, d, p', q', d'. rewrite V1, V2. repeat split; auto. discriminate.
Qed.
