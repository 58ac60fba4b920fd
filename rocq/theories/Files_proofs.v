(** * Proofs: names and contents of the generated files *)
From Coq Require Import Permutation Lia ZifyBool ZifyNat ZifyN.
From Verif Require Import Base PyNum PyStr Ast Bundle Sorter CCommon GenCfs GenC GenBinary GenCosmos Main
  Spec_Grammar Spec_Check Spec_Bundle Spec_Gen Spec_Files Lib_proofs Str_proofs Bundle_proofs Name_proofs Accept_proofs
  Gen_proofs Cdata_proofs Field_proofs Order_proofs Run_proofs Ends_proofs.
Open Scope string_scope.
Open Scope list_scope.

(** ** The modules whose files are written *)

Definition module_gen (fuel : nat) (b : bundle) (f : bmodule -> result (list file)) : Prop :=
  f = cfs_module fuel b \/ f = c_module fuel b \/ exists e, f = bin_module fuel e b.

Lemma for_modules_prefix : forall f l w files r, for_modules f l w = (files, r) ->
  exists l1 l2 fss, l = l1 ++ l2 /\ Forall2 (fun m fs => f m = Ok fs) l1 fss /\ files = w ++ concat fss.
Proof.
  intros f. induction l as [|m l IH]; intros w files r H; simpl in H.
  - injection H as <- _. exists [], [], []. simpl. rewrite app_nil_r. auto.
  - destruct (f m) as [fs| |] eqn:E.
    + apply IH in H. destruct H as (l1 & l2 & fss & -> & F & ->).
      exists (m :: l1), l2, (fs :: fss). simpl. rewrite app_assoc. auto.
    + injection H as <- _. exists [], (m :: l), []. simpl. rewrite app_nil_r. auto.
    + injection H as <- _. exists [], (m :: l), []. simpl. rewrite app_nil_r. auto.
Qed.

Lemma generation_files : forall names input b fuel files r, build_from_config names input = Ok b ->
  generation fuel b (files, r) ->
  exists f l fss, module_gen fuel b f /\ NoDup (map bm_name l) /\ incl l (b_modules b)
    /\ Forall2 (fun m fs => f m = Ok fs) l fss /\ files = concat fss.
Proof.
  intros names input b fuel files r Hb G.
  assert (G' : exists f, module_gen fuel b f /\ (files, r) = generate_modules fuel b f).
  { destruct G as [G|[G|(e & G)]]; (eexists; split; [|exact G]); unfold module_gen; eauto. }
  clear G. destruct G' as (f & Hf & G). unfold generate_modules in G.
  destruct (config_module_names _ _ _ Hb) as (Hn & _).
  destruct (get_modules_ordered fuel b) as [l| |] eqn:El.
  - symmetry in G. apply for_modules_prefix in G. destruct G as (l1 & l2 & fss & -> & F & ->).
    destruct (order_sound _ _ _ _ _ Hb El) as (P & _).
    exists f, l1, fss. split; [exact Hf|]. split.
    + assert (N : NoDup (map bm_name (l1 ++ l2))).
      { apply (Permutation_NoDup (Permutation_sym (Permutation_map bm_name P))). exact Hn. }
      rewrite map_app in N. apply NoDup_app_iff in N. apply N.
    + split; [|auto]. intros x Hx. apply (Permutation_in _ P). apply in_or_app. left. exact Hx.
  - injection G as -> _. exists f, [], []. simpl. split; [exact Hf|]. split; [constructor|]. split; [intros x []|]. auto.
  - injection G as -> _. exists f, [], []. simpl. split; [exact Hf|]. split; [constructor|]. split; [intros x []|]. auto.
Qed.

(** ** Strings *)

Lemma suffix_le : forall a s b t : string, (a ++ s = b ++ t)%string -> (String.length s <= String.length t)%nat ->
  exists p, t = (p ++ s)%string.
Proof.
  intros a s b. revert a. induction b as [|x b IH]; intros a t H L.
  - exists a. symmetry. exact H.
  - destruct a as [|y a].
    + simpl in H. exfalso. apply (f_equal String.length) in H. simpl in H. rewrite string_length_app in H. lia.
    + simpl in H. injection H as _ H. exact (IH a t H L).
Qed.

Lemma suffix_differ : forall a s b t : string, (String.length s <= String.length t)%nat ->
  (forall p, t <> p ++ s)%string -> (a ++ s <> b ++ t)%string.
Proof. intros a s b t L N H. destruct (suffix_le _ _ _ _ H L) as (p & ->). exact (N p eq_refl). Qed.

Ltac no_suffix :=
  let p := fresh "p" in let H := fresh "H" in
  intros p H; do 12 (try discriminate H; destruct p as [|? p]; [discriminate H|]; simpl in H; try discriminate H;
    injection H as _ H).

Lemma msg_neq : forall a b : string, ((a ++ "_msg") ++ ".h" <> (b ++ "_msgids") ++ ".h")%string.
Proof.
  intros a b. rewrite <- !string_app_assoc. simpl. apply suffix_differ; [vm_compute; lia|]. no_suffix.
Qed.
Lemma h_c_neq : forall a b : string, (a ++ ".h" <> b ++ ".c")%string.
Proof. intros a b. apply suffix_differ; [vm_compute; lia|]. no_suffix. Qed.
Lemma h_bin_neq : forall a b : string, (a ++ ".h" <> b ++ ".bin")%string.
Proof. intros a b. apply suffix_differ; [vm_compute; lia|]. no_suffix. Qed.

Lemma str_map_app : forall f a b, str_map f (a ++ b) = (str_map f a ++ str_map f b)%string.
Proof. intros f. induction a as [|c a IH]; intros b; simpl; [reflexivity|]. rewrite IH. reflexivity. Qed.

Lemma str_map_ext : forall P f g s, (forall c, P c = true -> f c = g c) -> all_chars P s = true -> str_map f s = str_map g s.
Proof.
  intros P f g s H. induction s as [|c s IH]; simpl; [reflexivity|]. intros A. apply andb_prop in A.
  destruct A as [A1 A2]. rewrite (H c A1), (IH A2). reflexivity.
Qed.

Lemma list_ascii_app : forall a b, list_ascii_of_string (a ++ b) = list_ascii_of_string a ++ list_ascii_of_string b.
Proof. induction a as [|c a IH]; intros b; simpl; [reflexivity|]. rewrite IH. reflexivity. Qed.

Lemma list_ascii_map : forall f s, list_ascii_of_string (str_map f s) = map f (list_ascii_of_string s).
Proof. intros f. induction s as [|c s IH]; simpl; [reflexivity|]. rewrite IH. reflexivity. Qed.

Lemma all_chars_In : forall P s c, all_chars P s = true -> In c (list_ascii_of_string s) -> P c = true.
Proof.
  intros P. induction s as [|d s IH]; intros c A H; [destruct H|]. simpl in A. apply andb_prop in A.
  destruct H as [<-|H]; [apply A|]. apply IH; [apply A|exact H].
Qed.

Lemma split_NL : forall a b r s, ~ In LF (list_ascii_of_string a) -> ~ In LF (list_ascii_of_string b) ->
  (a ++ NL ++ r = b ++ NL ++ s)%string -> a = b /\ r = s.
Proof.
  induction a as [|x a IH]; intros [|y b] r s Ha Hb H; simpl in H.
  - injection H as ->. auto.
  - injection H as E _. exfalso. apply Hb. left. auto.
  - injection H as E _. exfalso. apply Ha. left. auto.
  - injection H as -> H. destruct (IH b r s) as (-> & ->); auto.
    + intros G. apply Ha. right. exact G.
    + intros G. apply Hb. right. exact G.
Qed.

(** ** Names *)

Lemma c_name_chars : forall n c, is_name n = true -> In c (list_ascii_of_string (c_name n)) ->
  is_lower c = true \/ is_upper c = true \/ is_digit c = true \/ c = "_"%char.
Proof.
  intros n c Hn Hc. rewrite c_name_eq in Hc by exact Hn. rewrite list_ascii_map in Hc.
  apply in_map_iff in Hc. destruct Hc as (x & <- & Hx).
  assert (A := all_chars_In _ _ _ (name_anychar _ Hn) Hx). unfold us.
  destruct (Ascii.eqb_spec x "-") as [->|Hd]; [auto|].
  unfold anychar, nchar, name_char in A. apply orb_prop in A. destruct A as [A|A]; [|auto].
  apply orb_prop in A. destruct A as [A|A].
  - apply orb_prop in A. destruct A; auto.
  - apply Ascii.eqb_eq in A. contradiction.
Qed.

Lemma c_name_identifier : forall n, is_name_capital n = true \/ is_name_lower n = true -> identifier (c_name n).
Proof.
  intros n H. split.
  - destruct H as [H|H].
    + rewrite c_name_eq by (apply capital_name; exact H). apply capital_chars in H. destruct H as (c & r & -> & Hc & _).
      simpl. do 2 eexists. split; [reflexivity|]. rewrite us_upper by exact Hc. auto.
    + rewrite c_name_eq by (apply lower_name; exact H). apply lower_chars in H. destruct H as (c & r & -> & Hc & _).
      simpl. do 2 eexists. split; [reflexivity|]. rewrite us_lower by exact Hc. auto.
  - intros c. apply c_name_chars. destruct H; [apply capital_name|apply lower_name]; assumption.
Qed.

Lemma names_distinct : forall a b, is_name_capital a = true \/ is_name_lower a = true ->
  is_name_capital b = true \/ is_name_lower b = true -> c_name a = c_name b -> a = b.
Proof.
  intros a b Ha Hb. apply c_name_inj; [destruct Ha|destruct Hb]; ((apply capital_name; assumption) || (apply lower_name; assumption)).
Qed.

Lemma lowerize_chars : forall n c, is_name_capital n = true -> In c (list_ascii_of_string (lowerize (c_name n))) ->
  is_lower c = true \/ is_upper c = true \/ is_digit c = true \/ c = "_"%char.
Proof.
  intros n c Hn Hc. assert (N := capital_name _ Hn).
  destruct (c_name n) as [|x r] eqn:E; [destruct Hc|]. simpl in Hc. destruct Hc as [<-|Hc].
  - rewrite c_name_eq in E by exact N. apply capital_chars in Hn. destruct Hn as (y & r' & -> & Hy & _).
    simpl in E. injection E as <- _. rewrite us_upper by exact Hy. left. apply lower_char_upper. exact Hy.
  - apply (c_name_chars n); [exact N|]. rewrite E. right. exact Hc.
Qed.

(** ** File names and guards of a module *)

Lemma config_module_lower : forall names input b bm, config names input b -> In bm (b_modules b) ->
  is_name_lower (bm_name bm) = true.
Proof.
  intros names input b bm (Hg & Hb) Hbm.
  assert (A : accepted input b) by (left; eauto). destruct (accepted_same _ _ A) as (Hs & _ & _).
  assert (Hm : In (bm_mod bm) (all_modules b)) by (apply in_map; exact Hbm).
  destruct (Forall2_in_r _ _ _ _ _ _ Hs Hm) as (m0 & Hm0 & (E & _)).
  rewrite Forall_forall in Hg. assert (G := Hg m0 Hm0). unfold grammatical in G.
  repeat (apply andb_prop in G; destruct G as [G _]). unfold bm_name. rewrite E. exact G.
Qed.

Lemma cfs_file_names : forall fuel b bm fs, cfs_module fuel b bm = Ok fs ->
  map fst fs = [c_name (bm_name bm) ++ "_msg" ++ ".h"; c_name (bm_name bm) ++ "_msgids" ++ ".h"]%string.
Proof.
  intros fuel b bm fs H. apply bind_ok in H. destruct H as (c & _ & H). injection H as <-. simpl.
  unfold msg_filename, msgids_filename. rewrite <- !string_app_assoc. reflexivity.
Qed.

Lemma c_file_names : forall fuel b bm fs, c_module fuel b bm = Ok fs ->
  map fst fs = [c_name (bm_name bm) ++ ".h"; c_name (bm_name bm) ++ ".c"]%string.
Proof.
  intros fuel b bm fs H. apply bind_ok in H. destruct H as (c & _ & H). injection H as <-. reflexivity.
Qed.

Lemma bin_file_names : forall names input b fuel e bm fs, config names input b ->
  In bm (b_modules b) -> bin_module fuel e b bm = Ok fs ->
  exists ks, map fst fs = (c_name (bm_name bm) ++ ".h")%string :: map (fun n => lowerize (c_name n) ++ ".bin")%string ks
       /\ NoDup ks /\ incl ks (defined_names (bm_mod bm)).
Proof.
  intros names input b fuel e bm fs C Hbm H.
  apply bind_ok in H. destruct H as (c & Hc & H). injection H as <-.
    apply module_collects in Hc; [|apply bin_wch_includes].
    destruct Hc as (sorted & css & iss & Hs & F & _ & _ & _ & _ & _ & _ & B).
    assert (P := sorted_perm _ _ _ Hs).
    assert (Nd : NoDup (map def_name sorted)).
    { apply (Permutation_NoDup (Permutation_sym (Permutation_map def_name P))). eapply config_local_nodup; eassumption. }
    assert (Cap : forall d, In d sorted -> is_name_capital (def_name d) = true).
    { intros d Hd. eapply config_capital; [exact C|]. apply in_all_defs. exists bm. split; [exact Hbm|].
      apply (Permutation_in _ P). exact Hd. }
    assert (Nl : NoDup (map (fun d => lowerize (c_name (def_name d))) sorted)).
    { clear - Nd Cap. induction sorted as [|d l IH]; simpl; [constructor|]. simpl in Nd. inversion Nd as [|? ? N1 N2]; subst.
      constructor; [|apply IH; [exact N2|intros x Hx; apply Cap; right; exact Hx]].
      intros G. apply in_map_iff in G. destruct G as (x & E & Hx). apply N1.
      apply lower_c_name_inj in E; [|apply Cap; right; exact Hx|apply Cap; left; reflexivity].
      rewrite <- E. apply in_map. exact Hx. }
    destruct (bin_cdata_binary _ _ _ _ _ _ _ F Nl B) as (B' & ND).
    destruct (clause_binary_keys _ _ _ _ _ _ F Nl) as (_ & I). rewrite <- B' in I.
    assert (K : exists ks, map fst (cd_binary c) = map (fun n => lowerize (c_name n)) ks /\ NoDup ks
      /\ incl ks (defined_names (bm_mod bm))).
    { revert ND I. generalize (map fst (cd_binary c)) as keys. intros keys ND I.
      assert (Q : exists ks, keys = map (fun n => lowerize (c_name n)) ks /\ incl ks (defined_names (bm_mod bm))).
      { clear ND. induction keys as [|k keys IH]; [exists []; split; [reflexivity|intros x []]|].
        destruct IH as (ks & -> & J). { intros x Hx. apply I. right. exact Hx. }
        assert (Hk := I k (or_introl eq_refl)). apply in_map_iff in Hk. destruct Hk as (d & <- & Hd).
        exists (def_name d :: ks). split; [reflexivity|]. intros x [<-|Hx]; [|apply J; exact Hx].
        apply in_map. apply (Permutation_in _ P). exact Hd. }
      destruct Q as (ks & -> & J). exists ks. split; [reflexivity|]. split; [|exact J].
      apply NoDup_map_inv in ND. exact ND. }
    destruct K as (ks & K1 & K2 & K3). exists ks. split; [|auto].
    simpl. f_equal. rewrite map_map. simpl.
    transitivity (map (fun k => k ++ ".bin")%string (map fst (cd_binary c))); [rewrite map_map; reflexivity|].
    rewrite K1, map_map. reflexivity.
Qed.

Lemma NoDup_concat : forall A B C (key : A -> C) (R : A -> list B -> Prop) l fss,
  Forall2 R l fss -> NoDup (map key l) ->
  (forall a fs, In a l -> R a fs -> NoDup fs) ->
  (forall a b fa fb x, In a l -> In b l -> key a <> key b -> R a fa -> R b fb -> In x fa -> ~ In x fb) ->
  NoDup (concat fss).
Proof.
  intros A B C key R l fss F. induction F as [|a fa l fss H F IH]; intros N H1 H2; simpl; [constructor|].
  simpl in N. inversion N as [|? ? N1 N2]; subst. apply NoDup_app_iff. split; [eapply H1; [left; reflexivity|exact H]|].
  split.
  - apply IH; [exact N2| |].
    + intros x fs Hx. apply H1. right. exact Hx.
    + intros x y fx fy z Hx Hy. apply H2; right; assumption.
  - intros x Hx G. apply in_concat in G. destruct G as (fb & Hfb & G).
    destruct (Forall2_in_r _ _ _ _ _ _ F Hfb) as (b & Hb & Rb).
    eapply (H2 a b fa fb x); try eassumption; [left; reflexivity|right; exact Hb|].
    intros E. apply N1. rewrite E. apply in_map. exact Hb.
Qed.

Lemma app_cancel_r : forall a b c : string, (a ++ c = b ++ c)%string -> a = b.
Proof. exact string_app_inv_r. Qed.

Lemma config_bin_keys : forall names input b bm ks n, config names input b -> In bm (b_modules b) ->
  incl ks (defined_names (bm_mod bm)) -> In n ks -> is_name_capital n = true.
Proof.
  intros names input b bm ks n C Hbm J Hn. assert (G := J n Hn). apply in_map_iff in G. destruct G as (d & <- & Hd).
  eapply config_capital; [exact C|]. apply in_all_defs. eauto.
Qed.

Lemma other_module_keys : forall names input b x y n, config names input b -> In x (b_modules b) -> In y (b_modules b) ->
  In n (defined_names (bm_mod x)) -> In n (defined_names (bm_mod y)) -> bm_name x = bm_name y.
Proof.
  intros names input b x y n C Hx Hy H1 H2.
  assert (A := config_accepted _ _ _ C). destruct (accepted_same _ _ A) as (_ & _ & Hnd).
  rewrite all_defs_names in Hnd. destruct (In_nth_error _ _ Hx) as (i & Hi). destruct (In_nth_error _ _ Hy) as (j & Hj).
  assert (E : i = j) by (eapply NoDup_flat_map_inj; [exact Hnd|exact Hi|exact Hj|exact H1|exact H2]).
  subst j. rewrite Hi in Hj. injection Hj as <-. reflexivity.
Qed.

Lemma files_nodup : forall names input b fuel files r,
  Forall (fun m => grammatical m = true) input -> build_from_config names input = Ok b ->
  generation fuel b (files, r) -> NoDup (map fst files).
Proof.
  intros names input b fuel files r Hg Hb G. assert (C : config names input b) by (split; assumption).
  destruct (generation_files _ _ _ _ _ _ Hb G) as (f & l & fss & Hf & N & I & F & ->).
  rewrite concat_map. assert (Hinj : forall x y, In x l -> In y l -> c_name (bm_name x) = c_name (bm_name y) -> bm_name x = bm_name y).
  { intros x y Hx Hy. apply c_name_inj; apply lower_name; eapply config_module_lower; eauto. }
  assert (F' : Forall2 (fun m fs => exists fl, f m = Ok fl /\ fs = map fst fl) l (map (map fst) fss)).
  { clear - F. induction F as [|m fs l fss H F IH]; simpl; constructor; eauto. }
  destruct Hf as [->|[->|(e & ->)]];
    apply (NoDup_concat _ _ _ bm_name _ l _ F' N).
  - intros a fs Ha (fl & H & ->). rewrite (cfs_file_names _ _ _ _ H).
    constructor; [|repeat constructor; intros []]. intros [Q|[]]. symmetry in Q. rewrite !string_app_assoc in Q.
    exact (msg_neq _ _ Q).
  - intros x y fx fy z Hx Hy Hne (flx & H1 & ->) (fly & H2 & ->) Z1 Z2.
    rewrite (cfs_file_names _ _ _ _ H1) in Z1. rewrite (cfs_file_names _ _ _ _ H2) in Z2.
    destruct Z1 as [<-|[<-|[]]]; destruct Z2 as [Z2|[Z2|[]]].
    + apply string_app_inv_r in Z2. apply Hne. symmetry. apply Hinj; auto.
    + rewrite !string_app_assoc in Z2. symmetry in Z2. exact (msg_neq _ _ Z2).
    + rewrite !string_app_assoc in Z2. exact (msg_neq _ _ Z2).
    + apply string_app_inv_r in Z2. apply Hne. symmetry. apply Hinj; auto.
  - intros a fs Ha (fl & H & ->). rewrite (c_file_names _ _ _ _ H).
    constructor; [|repeat constructor; intros []]. intros [Q|[]]. symmetry in Q. exact (h_c_neq _ _ Q).
  - intros x y fx fy z Hx Hy Hne (flx & H1 & ->) (fly & H2 & ->) Z1 Z2.
    rewrite (c_file_names _ _ _ _ H1) in Z1. rewrite (c_file_names _ _ _ _ H2) in Z2.
    destruct Z1 as [<-|[<-|[]]]; destruct Z2 as [Z2|[Z2|[]]].
    + apply string_app_inv_r in Z2. apply Hne. symmetry. apply Hinj; auto.
    + symmetry in Z2. exact (h_c_neq _ _ Z2).
    + exact (h_c_neq _ _ Z2).
    + apply string_app_inv_r in Z2. apply Hne. symmetry. apply Hinj; auto.
  - intros a fs Ha (fl & H & ->). destruct (bin_file_names _ _ _ _ _ _ _ C (I _ Ha) H) as (ks & -> & K & J).
    constructor.
    + intros Q. apply in_map_iff in Q. destruct Q as (x & Q & _). symmetry in Q. exact (h_bin_neq _ _ Q).
    + assert (Cap : forall n, In n ks -> is_name_capital n = true).
      { intros n. apply (config_bin_keys names input b a); auto. }
      clear - K Cap. induction K as [|k ks Hk K IH]; simpl; [constructor|]. constructor.
      * intros Q. apply in_map_iff in Q. destruct Q as (x & Q & Hx). apply string_app_inv_r in Q.
        apply lower_c_name_inj in Q; [|apply Cap; right; exact Hx|apply Cap; left; reflexivity]. congruence.
      * apply IH. intros n Hn. apply Cap. right. exact Hn.
  - intros x y fx fy z Hx Hy Hne (flx & H1 & ->) (fly & H2 & ->) Z1 Z2.
    destruct (bin_file_names _ _ _ _ _ _ _ C (I _ Hx) H1) as (k1 & E1 & _ & J1).
    destruct (bin_file_names _ _ _ _ _ _ _ C (I _ Hy) H2) as (k2 & E2 & _ & J2).
    rewrite E1 in Z1. rewrite E2 in Z2. destruct Z1 as [<-|Z1]; destruct Z2 as [Z2|Z2].
    + apply string_app_inv_r in Z2. apply Hne. symmetry. apply Hinj; auto.
    + apply in_map_iff in Z2. destruct Z2 as (n & Q & _). symmetry in Q. exact (h_bin_neq _ _ Q).
    + apply in_map_iff in Z1. destruct Z1 as (n & Q & _). rewrite <- Q in Z2. exact (h_bin_neq _ _ Z2).
    + apply in_map_iff in Z1, Z2. destruct Z1 as (n1 & <- & Q1), Z2 as (n2 & E & Q2).
      apply string_app_inv_r in E.
      apply lower_c_name_inj in E; [|eapply config_bin_keys; [exact C|apply I; exact Hy|exact J2|exact Q2]
        |eapply config_bin_keys; [exact C|apply I; exact Hx|exact J1|exact Q1]].
      subst n2. apply Hne. eapply (other_module_keys _ _ _ x y n1 C); auto.
Qed.

(** ** Plain names *)

Lemma plain_app : forall a b, plain_name a -> plain_name b -> plain_name (a ++ b).
Proof.
  intros a b Ha Hb c Hc. rewrite list_ascii_app in Hc. apply in_app_or in Hc. destruct Hc; [apply Ha|apply Hb]; assumption.
Qed.

Ltac plain_literal :=
  let c := fresh "c" in let H := fresh "H" in
  intros c H; simpl in H; unfold plain_char;
  repeat (destruct H as [<-|H]; [first [left; reflexivity|right; left; reflexivity|right; right; left; reflexivity
    |right; right; right; left; reflexivity|right; right; right; right; reflexivity]|]); destruct H.

Lemma plain_c_name : forall n, is_name n = true -> plain_name (c_name n).
Proof.
  intros n Hn c Hc. unfold plain_char. destruct (c_name_chars n c Hn Hc) as [H|[H|[H|H]]]; auto.
Qed.

Lemma plain_lowerize : forall n, is_name_capital n = true -> plain_name (lowerize (c_name n)).
Proof.
  intros n Hn c Hc. unfold plain_char. destruct (lowerize_chars n c Hn Hc) as [H|[H|[H|H]]]; auto.
Qed.

Lemma files_plain : forall names input b fuel files r n,
  Forall (fun m => grammatical m = true) input -> build_from_config names input = Ok b ->
  generation fuel b (files, r) -> In n (map fst files) -> plain_name n.
Proof.
  intros names input b fuel files r n Hg Hb G Hn. assert (C : config names input b) by (split; assumption).
  destruct (generation_files _ _ _ _ _ _ Hb G) as (f & l & fss & Hf & N & I & F & ->).
  rewrite concat_map in Hn. apply in_concat in Hn. destruct Hn as (fs & Hfs & Hn). apply in_map_iff in Hfs.
  destruct Hfs as (fl & <- & Hfl). destruct (Forall2_in_r _ _ _ _ _ _ F Hfl) as (bm & Hbm & H).
  assert (P : plain_name (c_name (bm_name bm))).
  { apply plain_c_name, lower_name. eapply config_module_lower; eauto. }
  destruct Hf as [->|[->|(e & ->)]].
  - apply cfs_file_names in H. unfold file in *. rewrite H in Hn. destruct Hn as [<-|[<-|[]]];
      (apply plain_app; [exact P|]; simpl; plain_literal).
  - apply c_file_names in H. unfold file in *. rewrite H in Hn. destruct Hn as [<-|[<-|[]]];
      (apply plain_app; [exact P|]; simpl; plain_literal).
  - destruct (bin_file_names _ _ _ _ _ _ _ C (I _ Hbm) H) as (ks & E & _ & J). unfold file in *. rewrite E in Hn.
    destruct Hn as [<-|Hn]; [apply plain_app; [exact P|]; plain_literal|].
    apply in_map_iff in Hn. destruct Hn as (k & <- & Hk). apply plain_app; [|plain_literal].
    apply plain_lowerize. eapply config_bin_keys; eauto.
Qed.

(** ** Include guards *)

Definition dot (c : ascii) : ascii := if Ascii.eqb c "." then "_"%char else c.

Lemma upper_char_LF : forall c, upper_char c = LF -> c = LF.
Proof.
  intros c H. unfold upper_char in H. destruct (is_lower c) eqn:E; [|exact H].
  apply lower_codes in E. apply (f_equal N_of_ascii) in H. rewrite N_ascii_small in H by lia.
  change (N_of_ascii LF) with 10%N in H. lia.
Qed.

Lemma no_LF_guard : forall n, plain_name n -> ~ In LF (list_ascii_of_string (guard_symbol n)).
Proof.
  intros n Hn H. unfold guard_symbol in H. rewrite !list_ascii_app in H. apply in_app_or in H. destruct H as [H|H].
  { simpl in H. repeat (destruct H as [H|H]; [discriminate H|]). destruct H. }
  apply in_app_or in H. destruct H as [H|H].
  2:{ simpl in H. repeat (destruct H as [H|H]; [discriminate H|]). destruct H. }
  unfold upper in H. rewrite list_ascii_map in H. apply in_map_iff in H. destruct H as (c & E & Hc).
  apply upper_char_LF in E. subst c. unfold replace_char in Hc. rewrite list_ascii_map in Hc.
  apply in_map_iff in Hc. destruct Hc as (c & E & Hc).
  destruct (Ascii.eqb c "."); [discriminate|]. subst c. unfold c_name in Hc.
  destruct (mem n ["IA5String"; "NumericString"]).
  { simpl in Hc. repeat (destruct Hc as [Hc|Hc]; [discriminate Hc|]). destruct Hc. }
  unfold replace_char in Hc. rewrite list_ascii_map in Hc. apply in_map_iff in Hc. destruct Hc as (c & E & Hc).
  destruct (Ascii.eqb c "-"); [discriminate|]. subst c. apply Hn in Hc.
  destruct Hc as [Hc|[Hc|[Hc|[Hc|Hc]]]]; discriminate.
Qed.

Lemma guarded_symbol : forall g n contents, plain_name n ->
  (exists r, contents = guard_open n ++ r)%string -> guarded g contents -> g = guard_symbol n.
Proof.
  intros g n contents Hn (r & ->) (Hg & r' & E). unfold guard_open in E.
  rewrite <- !string_app_assoc in E. apply string_app_inv_l in E.
  apply split_NL in E; [|apply no_LF_guard; exact Hn|exact Hg]. symmetry. apply E.
Qed.

Lemma guard_open_guarded : forall n r, plain_name n -> guarded (guard_symbol n) (guard_open n ++ r).
Proof.
  intros n r Hn. split; [apply no_LF_guard; exact Hn|]. exists r. unfold guard_open. rewrite <- !string_app_assoc. reflexivity.
Qed.

Lemma guard_core : forall m suf, is_name_lower m = true ->
  guard_symbol (c_name m ++ suf)
  = ("ASN1_PARSER_" ++ (str_map up_us m ++ str_map (fun c => upper_char (dot (us c))) suf) ++ "_INCLUDED")%string.
Proof.
  intros m suf Hm. unfold guard_symbol. do 2 f_equal.
  assert (E : c_name (c_name m ++ suf) = str_map us (c_name m ++ suf)).
  { unfold c_name at 1. destruct (mem (c_name m ++ suf) ["IA5String"; "NumericString"]) eqn:E; [|reflexivity].
    exfalso. rewrite c_name_eq in E by (apply lower_name; exact Hm). apply lower_chars in Hm.
    destruct Hm as (c & r & -> & Hc & _). apply mem_In in E. apply lower_codes in Hc as Hc'.
    simpl in E. rewrite us_lower in E by exact Hc. destruct E as [E|[E|[]]]; injection E as <- _; vm_compute in Hc; discriminate. }
  rewrite E. unfold upper, replace_char. rewrite !str_map_comp, str_map_app. f_equal.
  rewrite c_name_eq by (apply lower_name; exact Hm). rewrite str_map_comp.
  apply lower_chars in Hm. destruct Hm as (c & r & -> & Hc & Hr).
  apply (str_map_ext nchar).
  - intros x Hx. unfold up_us. f_equal. apply nchar_codes in Hx. unfold us.
    destruct (Ascii.eqb_spec x "-") as [->|Hd]; [reflexivity|].
    destruct (Ascii.eqb_spec x "-") as [E'|_]; [contradiction|].
    destruct (Ascii.eqb_spec x ".") as [->|_]; [|reflexivity].
    change (N_of_ascii ".") with 46%N in Hx. lia.
  - simpl. rewrite Hr. unfold nchar, name_char. rewrite Hc. reflexivity.
Qed.

Lemma up_us_string_inj : forall a b, is_name_lower a = true -> is_name_lower b = true ->
  str_map up_us a = str_map up_us b -> a = b.
Proof.
  intros a b Ha Hb. apply (str_map_inj nchar up_us up_us_inj).
  - apply lower_chars in Ha. destruct Ha as (c & r & -> & Hc & Hr). simpl. rewrite Hr. unfold nchar, name_char. rewrite Hc. reflexivity.
  - apply lower_chars in Hb. destruct Hb as (c & r & -> & Hc & Hr). simpl. rewrite Hr. unfold nchar, name_char. rewrite Hc. reflexivity.
Qed.

(** Headers of a module: name and start of the contents. *)
Lemma header_starts : forall c n h, exists r, render_header c n h = (guard_open n ++ r)%string.
Proof. intros c n h. unfold render_header. generalize (guard_open n) as g. intros g. eexists. reflexivity. Qed.

Lemma cfs_header_files : forall fuel b bm fs x, cfs_module fuel b bm = Ok fs -> In x fs ->
  (fst x = c_name (bm_name bm) ++ "_msg.h" \/ fst x = c_name (bm_name bm) ++ "_msgids.h")%string
  /\ exists r, snd x = (guard_open (fst x) ++ r)%string.
Proof.
  intros fuel b bm fs x H Hx. apply bind_ok in H. destruct H as (c & _ & H). injection H as <-.
  unfold print_to_file in Hx. cbn [is_stored_data is_binary app In] in Hx.
  destruct Hx as [<-|[<-|[]]]; cbn [fst snd].
  - split; [left|apply header_starts]. unfold msg_filename. rewrite <- !string_app_assoc. reflexivity.
  - split; [right|apply header_starts]. unfold msgids_filename. rewrite <- !string_app_assoc. reflexivity.
Qed.

Lemma c_header_files : forall fuel b bm fs x, c_module fuel b bm = Ok fs -> In x fs -> header x ->
  fst x = (c_name (bm_name bm) ++ ".h")%string
  /\ exists r, snd x = (guard_open (fst x) ++ r)%string.
Proof.
  intros fuel b bm fs x H Hx (n & Hn). apply bind_ok in H. destruct H as (c & _ & H). injection H as <-.
  unfold print_to_file in Hx. cbn [is_stored_data is_binary app In] in Hx.
  destruct Hx as [<-|[<-|[]]]; cbn [fst snd] in *.
  - split; [reflexivity|apply header_starts].
  - exfalso. symmetry in Hn. exact (h_c_neq _ _ Hn).
Qed.

Lemma bin_header_files : forall fuel e b bm fs x, bin_module fuel e b bm = Ok fs -> In x fs -> header x ->
  fst x = (c_name (bm_name bm) ++ ".h")%string
  /\ exists r, snd x = (guard_open (fst x) ++ r)%string.
Proof.
  intros fuel e b bm fs x H Hx (n & Hn). apply bind_ok in H. destruct H as (c & _ & H). injection H as <-.
  unfold print_to_file in Hx. cbn [is_stored_data is_binary app In] in Hx.
  destruct Hx as [<-|Hx]; cbn [fst snd] in *.
  - split; [reflexivity|apply header_starts].
  - exfalso. apply in_map_iff in Hx. destruct Hx as (kv & <- & _). cbn [fst] in Hn. symmetry in Hn. exact (h_bin_neq _ _ Hn).
Qed.

Lemma guard_suffix_inj : forall m1 m2 s, is_name_lower m1 = true -> is_name_lower m2 = true ->
  guard_symbol (c_name m1 ++ s) = guard_symbol (c_name m2 ++ s) -> m1 = m2.
Proof.
  intros m1 m2 s H1 H2 E. rewrite !guard_core in E by assumption. apply string_app_inv_l, string_app_inv_r, string_app_inv_r in E.
  apply up_us_string_inj in E; assumption.
Qed.

Lemma guard_msg_neq : forall m1 m2, is_name_lower m1 = true -> is_name_lower m2 = true ->
  guard_symbol (c_name m1 ++ "_msg.h") <> guard_symbol (c_name m2 ++ "_msgids.h").
Proof.
  intros m1 m2 H1 H2 E. rewrite !guard_core in E by assumption. apply string_app_inv_l, string_app_inv_r in E.
  revert E. simpl. apply suffix_differ; [vm_compute; lia|].
  change (upper_char (dot (us "m"))) with "M"%char. vm_compute. no_suffix.
Qed.

Lemma NoDup_fst_eq : forall A B (l : list (A * B)) x y, NoDup (map fst l) -> In x l -> In y l -> fst x = fst y -> x = y.
Proof. intros A B l x y N. apply NoDup_map_inj. exact N. Qed.

Lemma files_guards : forall names input b fuel files r,
  Forall (fun m => grammatical m = true) input -> build_from_config names input = Ok b ->
  generation fuel b (files, r) ->
  (forall x, In x files -> header x -> exists g, guarded g (snd x))
  /\ (forall x y g, In x files -> In y files -> header x -> header y ->
        guarded g (snd x) -> guarded g (snd y) -> x = y).
Proof.
  intros names input b fuel files r Hg Hb G. assert (C : config names input b) by (split; assumption).
  assert (PN := fun n => files_plain names input b fuel files r n Hg Hb G).
  assert (ND := files_nodup names input b fuel files r Hg Hb G).
  destruct (generation_files _ _ _ _ _ _ Hb G) as (f & l & fss & Hf & N & I & F & ->).
  set (Q := fun (S : string -> Prop) => forall x, In x (concat fss) -> header x -> exists bm suf, In bm l
    /\ fst x = (c_name (bm_name bm) ++ suf)%string /\ (exists r, snd x = (guard_open (fst x) ++ r)%string) /\ S suf).
  assert (K : Q (fun s => s = "_msg.h" \/ s = "_msgids.h") \/ Q (fun s => s = ".h")).
  { destruct Hf as [->|[->|(e & ->)]]; [left|right|right]; intros x Hx Hh;
      apply in_concat in Hx; destruct Hx as (fs & Hfs & Hx);
      destruct (Forall2_in_r _ _ _ _ _ _ F Hfs) as (bm & Hbm & H); exists bm.
    - destruct (cfs_header_files _ _ _ _ _ H Hx) as ([E|E] & R); eexists; (split; [exact Hbm|]); (split; [exact E|]); auto.
    - destruct (c_header_files _ _ _ _ _ H Hx Hh) as (E & R). eexists; (split; [exact Hbm|]); (split; [exact E|]); auto.
    - destruct (bin_header_files _ _ _ _ _ _ H Hx Hh) as (E & R). eexists; (split; [exact Hbm|]); (split; [exact E|]); auto. }
  assert (PN' : forall x, In x (concat fss) -> plain_name (fst x)) by (intros x Hx; apply PN; apply in_map; exact Hx).
  split.
  - intros x Hx Hh. assert (R : exists r, snd x = (guard_open (fst x) ++ r)%string).
    { destruct K as [K|K]; destruct (K x Hx Hh) as (bm & suf & _ & _ & R & _); exact R. }
    destruct R as (r' & E). rewrite E. eexists. apply guard_open_guarded. apply PN'. exact Hx.
  - intros x y g Hx Hy Hhx Hhy Gx Gy. apply (NoDup_fst_eq _ _ _ x y ND Hx Hy).
    destruct K as [K|K];
    destruct (K x Hx Hhx) as (mx & sx & Bx & Ex & Rx & Kx); destruct (K y Hy Hhy) as (my & sy & By & Ey & Ry & Ky);
    (apply guarded_symbol with (n := fst x) in Gx; [|apply PN'; exact Hx|exact Rx]);
    (apply guarded_symbol with (n := fst y) in Gy; [|apply PN'; exact Hy|exact Ry]);
    assert (E : guard_symbol (fst x) = guard_symbol (fst y)) by congruence;
    assert (Lx := config_module_lower _ _ _ _ C (I _ Bx)); assert (Ly := config_module_lower _ _ _ _ C (I _ By));
    clear Gx Gy Rx Ry; rewrite Ex, Ey in E |- *.
    + destruct Kx as [->| ->], Ky as [->| ->].
      * apply guard_suffix_inj in E; [|assumption..]. rewrite E. reflexivity.
      * exfalso. exact (guard_msg_neq _ _ Lx Ly E).
      * exfalso. symmetry in E. exact (guard_msg_neq _ _ Ly Lx E).
      * apply guard_suffix_inj in E; [|assumption..]. rewrite E. reflexivity.
    + subst sx sy. apply guard_suffix_inj in E; [|assumption..]. rewrite E. reflexivity.
Qed.

(** ** Includes *)

Lemma initial_include : forall inc m f, In (IncFile f) (initial_includes inc m) ->
  exists it, In it (mod_imports m) /\ f = inc (imp_module it).
Proof.
  intros inc m f H. unfold initial_includes in H. apply in_app_or in H. destruct H as [H|H].
  - destruct (mod_comment_import m); [|destruct H]. destruct H as [H|[]]. discriminate.
  - apply in_map_iff in H. destruct H as (it & E & Hit). injection E as <-. eauto.
Qed.

Lemma module_includes : forall fuel b bm inc note wch c f,
  (forall n k c, wch n k = Ok c -> cd_includes c = []) ->
  module_cdata fuel b bm inc note wch = Ok c -> In (IncFile f) (cd_includes c) ->
  exists it, In it (mod_imports (bm_mod bm)) /\ f = inc (imp_module it).
Proof.
  intros fuel b bm inc note wch c f Hw H Hf.
  destruct (module_collects _ _ _ _ _ _ _ Hw H) as (sorted & css & iss & _ & _ & _ & _ & _ & Hn & E & _).
  rewrite E in Hf. apply in_app_or in Hf. destruct Hf as [Hf|Hf]; [apply initial_include; exact Hf|].
  exfalso. apply in_concat in Hf. destruct Hf as (is & His & Hf).
  destruct (Forall2_in_r _ _ _ _ _ _ Hn His) as (d & _ & N). unfold notes in N.
  destruct d as [? ? ?|? ? ?|? ? ?|n t cm]; try (subst is; destruct Hf).
  destruct N as ([s|] & _ & ->); [destruct Hf as [Hf|[]]; discriminate|destruct Hf].
Qed.

Lemma cfs_includes : forall names input b fuel files bm c f,
  Forall (fun m => grammatical m = true) input -> build_from_config names input = Ok b ->
  generate_cfs fuel b = (files, Ok tt) -> In bm (b_modules b) -> cfs_cdata fuel b bm = Ok c ->
  In (IncFile f) (cd_includes c) -> In f (map fst files).
Proof.
  intros names input b fuel files bm c f Hg Hb G Hbm Hc Hf.
  destruct (module_includes _ _ _ _ _ _ _ _ cfs_wch_includes Hc Hf) as (it & Hit & ->).
  assert (C : config names input b) by (split; assumption).
  destruct (config_imported _ _ _ _ _ C Hbm Hit) as (j & im & _ & Him & En & _). rewrite <- En.
  unfold generate_cfs, generate_modules in G. destruct (get_modules_ordered fuel b) as [l| |] eqn:El; try discriminate.
  apply for_modules_ok in G. destruct G as (fss & G & ->). apply map_result_ok in G.
  destruct (order_sound _ _ _ _ _ Hb El) as (P & _).
  assert (Hl : In im l) by (apply (Permutation_in _ (Permutation_sym P)); eapply nth_error_In; exact Him).
  destruct (Forall2_in_l _ _ _ _ _ _ G Hl) as (fs & Hfs & H). simpl. rewrite concat_map. apply in_concat.
  exists (map fst fs). split; [apply in_map; exact Hfs|]. apply cfs_file_names in H. unfold file in *. rewrite H.
  left. unfold msg_filename. rewrite <- string_app_assoc. reflexivity.
Qed.

Lemma has_dot : forall (a b : string), In "."%char (list_ascii_of_string b) -> In "."%char (list_ascii_of_string (a ++ b)).
Proof. intros a b H. rewrite list_ascii_app. apply in_or_app. right. exact H. Qed.

Lemma c_includes_dangling : forall names input b fuel o files r bm c f,
  Forall (fun m => grammatical m = true) input -> build_from_config names input = Ok b ->
  (o = generate_c fuel b /\ c_cdata fuel b bm = Ok c
   \/ exists e, o = generate_binary fuel e b /\ bin_cdata fuel e b bm = Ok c) ->
  o = (files, r) -> In bm (b_modules b) ->
  In (IncFile f) (cd_includes c) -> ~ In f (map fst files).
Proof.
  intros names input b fuel o files r bm c f Hg Hb Ho Eo Hbm Hf Hin.
  assert (C : config names input b) by (split; assumption).
  assert (Hit : exists it, In it (mod_imports (bm_mod bm)) /\ f = c_name (imp_module it)).
  { destruct Ho as [(_ & Hc)|(e & _ & Hc)].
    - exact (module_includes _ _ _ _ _ _ _ _ (c_wch_includes _) Hc Hf).
    - exact (module_includes _ _ _ _ _ _ _ _ (bin_wch_includes _ _ _ _) Hc Hf). }
  destruct Hit as (it & Hit & ->). destruct (config_imported _ _ _ _ _ C Hbm Hit) as (j & im & _ & Him & En & _).
  assert (Hl : is_name_lower (imp_module it) = true).
  { rewrite <- En. eapply config_module_lower; [exact C|]. eapply nth_error_In. exact Him. }
  assert (D : ~ In "."%char (list_ascii_of_string (c_name (imp_module it)))).
  { intros D. apply c_name_chars in D; [|apply lower_name; exact Hl].
    destruct D as [D|[D|[D|D]]]; discriminate. }
  apply D. subst o.
  assert (Gn : generation fuel b (files, r)).
  { destruct Ho as [(E & _)|(e & E & _)]; unfold generation; eauto. }
  destruct (generation_files _ _ _ _ _ _ Hb Gn) as (g & l & fss & Hgf & _ & I & F & ->).
  rewrite concat_map in Hin. apply in_concat in Hin. destruct Hin as (fs & Hfs & Hin). apply in_map_iff in Hfs.
  destruct Hfs as (fl & <- & Hfl). destruct (Forall2_in_r _ _ _ _ _ _ F Hfl) as (m' & Hm' & H).
  destruct Hgf as [->|[->|(e & ->)]].
  - apply cfs_file_names in H. unfold file in *. rewrite H in Hin.
    destruct Hin as [<-|[<-|[]]]; apply has_dot; simpl; intuition.
  - apply c_file_names in H. unfold file in *. rewrite H in Hin.
    destruct Hin as [<-|[<-|[]]]; apply has_dot; simpl; intuition.
  - destruct (bin_file_names _ _ _ _ _ _ _ C (I _ Hm') H) as (ks & E & _ & _). unfold file in *. rewrite E in Hin.
    destruct Hin as [<-|Hin]; [apply has_dot; simpl; intuition|].
    apply in_map_iff in Hin. destruct Hin as (k & <- & _). apply has_dot. simpl. intuition.
Qed.

(** ** The output folder *)

Lemma folder_get_set : forall n c fs n', folder_get (dict_set n c fs) n' = if String.eqb n n' then Some c else folder_get fs n'.
Proof.
  intros n c. induction fs as [|[k v] fs IH]; intros n'; simpl.
  - destruct (String.eqb n n'); reflexivity.
  - destruct (String.eqb_spec n k) as [->|Hk]; simpl.
    + destruct (String.eqb k n'); reflexivity.
    + destruct (String.eqb_spec k n') as [->|_].
      * destruct (String.eqb_spec n n') as [E|_]; [contradiction|reflexivity].
      * apply IH.
Qed.

Lemma folder_get_all : forall files fs n,
  folder_get (folder_write_all files fs) n = match dict_get n files with Some c => Some c | None => folder_get fs n end.
Proof.
  unfold folder_write_all. induction files as [|[k v] files IH]; intros fs n; simpl; [reflexivity|].
  rewrite IH. unfold folder_write. simpl. destruct (dict_get n files); [reflexivity|].
  rewrite folder_get_set. rewrite String.eqb_sym. destruct (String.eqb n k); reflexivity.
Qed.

Lemma run_files : forall names cmd fuel input, config_command names cmd ->
  exists files r, forall fs, run fuel cmd input fs = (folder_write_all files fs, r).
Proof.
  intros names cmd fuel input Hc. destruct (build_from_config names input) as [b|e|] eqn:E.
  - destruct (generate_modules fuel b (module_files fuel cmd b)) as [files r] eqn:G. exists files, r. intros fs.
    rewrite (run_config names) by exact Hc. rewrite E, G. reflexivity.
  - exists [], (Err e). intros fs. rewrite (run_config names) by exact Hc. rewrite E. reflexivity.
  - exists [], OutOfFuel. intros fs. rewrite (run_config names) by exact Hc. rewrite E. reflexivity.
Qed.

Lemma run_again : forall names cmd fuel input fs fs1 r1 fs2 r2, config_command names cmd ->
  run fuel cmd input fs = (fs1, r1) -> run fuel cmd input fs1 = (fs2, r2) -> r2 = r1 /\ same_files fs1 fs2.
Proof.
  intros names cmd fuel input fs fs1 r1 fs2 r2 Hc H1 H2.
  destruct (run_files names cmd fuel input Hc) as (files & r & H). rewrite H in H1, H2.
  injection H1 as <- <-. injection H2 as <- <-. split; [reflexivity|]. intros n.
  rewrite !folder_get_all. destruct (dict_get n files); reflexivity.
Qed.

Lemma run_invalid : forall names cmd fuel input fs, config_command names cmd ->
  Forall (fun m => grammatical m = true) input -> ~ bundle_valid names input ->
  exists e, run fuel cmd input fs = (fs, Err e).
Proof.
  intros names cmd fuel input fs Hc Hg Hv. rewrite (run_config names) by exact Hc.
  destruct (build_from_config names input) as [b|e|] eqn:E.
  - exfalso. apply Hv. apply bundle_accepted_iff; eauto.
  - eauto.
  - exfalso. exact (ends_config names input E).
Qed.

Lemma cosmos_appends : forall fuel m msgs t input fs fs1 r,
  run fuel (GenerateCosmos m msgs t) input fs = (fs1, r) -> r = Ok tt ->
  exists text, text <> "" /\
    let old := match folder_get fs (t ++ ".txt") with Some o => o | None => "" end in
    folder_get fs1 (t ++ ".txt") = Some (old ++ text)%string
    /\ exists fs2, run fuel (GenerateCosmos m msgs t) input fs1 = (fs2, Ok tt)
       /\ folder_get fs2 (t ++ ".txt") = Some (old ++ text ++ text)%string.
Proof.
  intros fuel m msgs t input fs fs1 r H ->. unfold run, with_bundle in *.
  destruct (build_from_cosmos_config input) as [b| |]; try discriminate.
  destruct (generate_cosmos fuel b m msgs t) as [f| |] eqn:G; try discriminate.
  injection H as <-. unfold generate_cosmos in G. apply bind_ok in G. destruct G as (l & _ & G). injection G as <-.
  exists (cosmos_text t l). split; [discriminate|]. cbv zeta.
  assert (A : forall fs, folder_get (folder_append ((t ++ ".txt")%string, cosmos_text t l) fs) (t ++ ".txt")
    = Some ((match folder_get fs (t ++ ".txt") with Some o => o | None => "" end) ++ cosmos_text t l)%string).
  { intros fs'. unfold folder_append. cbn [fst snd]. destruct (folder_get fs' (t ++ ".txt")); rewrite folder_get_set, String.eqb_refl; reflexivity. }
  split; [apply A|]. eexists. split; [reflexivity|]. rewrite A, A. rewrite string_app_assoc. reflexivity.
Qed.
