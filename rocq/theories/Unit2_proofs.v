(** * Proofs: units of generated headers as C *)
From Coq Require Import List String ZArith Lia Bool Ascii Permutation Relations.
Import ListNotations.
From Verif Require Import Base PyNum PyStr Ast Size Processor Bundle Sorter CCommon GenCfs GenC GenBinary GenCosmos Main.
From Verif Require Import Spec_Grammar Spec_Check Spec_Num Spec_Enum Spec_Size Spec_Bundle Spec_Gen Spec_Text Spec_Files Spec_C Spec_Order Spec_Header Spec_Valid Spec_Unit.
From Verif Require Import Str_proofs Text_proofs Lib_proofs Enum_proofs Bundle_proofs Accept_proofs Gen_proofs Field_proofs Run_proofs Name_proofs Files_proofs Header3_proofs Valid_proofs Unit_proofs.
Open Scope string_scope.
Open Scope list_scope.

(** ** cfs *)
Lemma cfs_unit : forall names fuel input fs fs' roots, Forall (fun m => grammatical m = true) input ->
  run fuel (GenerateCfs names) input fs = (fs', Ok tt) -> incl roots input ->
  (forall m, needed input roots m -> quiet m) ->
  exists ms hs g, reads fs' [] (includes_of (GenerateCfs names) roots) hs g
    /\ (forall hs' g', reads fs' [] (includes_of (GenerateCfs names) roots) hs' g' -> hs' = hs)
    /\ Forall2 (header_of (GenerateCfs names) fs') ms hs
    /\ NoDup ms /\ (forall m, In m ms <-> needed input roots m) /\ imports_first input ms.
Proof.
  intros names fuel input fs fs' roots Hg HR I Q.
  destruct (unit_read names (GenerateCfs names) fuel input fs fs' (or_introl eq_refl) Hg HR roots I Q) as (ms & hs & g & R & A & B & C & D).
  - reflexivity.
  - exists ms, hs, g. split; [exact R|]. split; [|auto]. intros hs' g' R'. apply (reads_unique _ _ _ _ _ R) in R'. apply R'.
Qed.

(** ** Validity *)
Lemma forall_headers : forall (P : xdecl -> Prop) (Q : definition -> Prop) (R : module -> header -> Prop) ms hs,
  (forall m h, In m ms -> R m h -> (Forall P (h_decls h) <-> Forall Q (mod_defs m))) -> Forall2 R ms hs ->
  (Forall P (flat_map h_decls hs) <-> Forall Q (definitions ms)).
Proof.
  intros P Q R ms hs H F. induction F as [|m h ms hs X F IH]; [simpl; split; constructor|].
  unfold definitions in *. cbn [flat_map]. rewrite !Forall_app, (H m h), IH; [reflexivity| |left; reflexivity|exact X].
  intros m' h' Hm. apply H. right. exact Hm.
Qed.

Lemma Forall2_split_r : forall A B (R : A -> B -> Prop) l l', Forall2 R l l' -> forall a y b, l' = a ++ y :: b ->
  exists a' x b', l = a' ++ x :: b' /\ Forall2 R a' a /\ R x y /\ Forall2 R b' b.
Proof.
  intros A B R l l' F a y b ->. apply Forall2_app_inv_r in F. destruct F as (a' & r & Fa & Fr & ->).
  inversion Fr; subst. eauto 8.
Qed.
Lemma Forall2_split_l : forall A B (R : A -> B -> Prop) l l', Forall2 R l l' -> forall a x b, l = a ++ x :: b ->
  exists a' y b', l' = a' ++ y :: b' /\ Forall2 R a a' /\ R x y /\ Forall2 R b b'.
Proof.
  intros A B R l l' F a x b ->. apply Forall2_app_inv_l in F. destruct F as (a' & r & Fa & Fr & ->).
  inversion Fr; subst. eauto 8.
Qed.

Lemma incl_perm : forall A (ms input : list A), NoDup ms -> incl ms input -> exists rest, Permutation input (ms ++ rest).
Proof.
  intros A ms. induction ms as [|m ms IH]; intros input N I; [exists input; apply Permutation_refl|].
  inversion N as [|? ? N1 N2]; subst. destruct (in_split m input) as (a & b & ->); [apply I; left; reflexivity|].
  destruct (IH (a ++ b) N2) as (rest & P).
  - intros x Hx. assert (Y := I x (or_intror Hx)). apply in_app_iff in Y. apply in_app_iff. destruct Y as [Y|[<-|Y]]; auto. contradiction.
  - exists rest. simpl. apply Permutation_sym, Permutation_cons_app, Permutation_sym. exact P.
Qed.

Section valid.
Variables (names : list string) (cmd : command) (fuel : nat) (input : list module) (fs fs' : folder).
Hypothesis HC : config_command names cmd.
Hypothesis Hg : Forall (fun m => grammatical m = true) input.
Hypothesis HR : run fuel cmd input fs = (fs', Ok tt).
Hypothesis NP : forall d, In d (definitions input) -> is_simple d = false -> ~ In (def_name d) (map fst POSIX_NAMES).
Variables (ms : list module) (hs : list header).
Hypothesis Hms : incl ms input.
Hypothesis Hq : Forall quiet ms.
Hypothesis Hnd : NoDup ms.
Hypothesis Hh : Forall2 (header_of cmd fs') ms hs.
Hypothesis Hf : imports_first input ms.

Lemma unit_types : (forall a h b, hs = a ++ h :: b -> types_known (flat_map h_decls a) h)
  <-> Forall (known_members (definitions input)) (definitions ms).
Proof.
  assert (Q := Hq). rewrite Forall_forall in Q.
  assert (X : forall a m b a' h, ms = a ++ m :: b -> Forall2 (header_of cmd fs') a a' -> header_of cmd fs' m h ->
    (types_known (flat_map h_decls a') h <-> Forall (known_members (definitions input)) (mod_defs m))).
  { intros a m b a' h E F H.
    assert (Im : In m ms) by (rewrite E; apply in_or_app; right; left; reflexivity).
    assert (Ia : incl a ms) by (intros x Hx; rewrite E; apply in_or_app; left; exact Hx).
    apply (header_types_iff names cmd fuel input fs fs' m h HC Hg HR (Hms m Im) (Q m Im) H a a').
    - intros x Hx. apply Hms, Ia, Hx.
    - intros im it Him Hit En. apply (Hf a m b E im Him). exists it. auto.
    - apply Forall_forall. intros x Hx. apply Q, Ia, Hx.
    - exact F. }
  unfold definitions at 2. rewrite Forall_flat_map, Forall_forall. split.
  - intros H m Hm. destruct (in_split _ _ Hm) as (a & b & E). destruct (Forall2_split_l _ _ _ _ _ Hh a m b E) as (a' & h & b' & E' & Fa & Hmh & _).
    apply (X a m b a' h E Fa Hmh). exact (H a' h b' E').
  - intros H a h b E. destruct (Forall2_split_r _ _ _ _ _ Hh a h b E) as (a' & m & b' & E' & Fa & Hmh & _).
    apply (X a' m b' a h E' Fa Hmh). apply H. rewrite E'. apply in_or_app. right. left. reflexivity.
Qed.

Lemma valid_unit_iff : valid_unit hs <-> distinct_names cmd (definitions ms) /\ Forall (fit_for_c cmd (definitions input)) (definitions ms).
Proof.
  assert (Q := Hq). rewrite Forall_forall in Q. unfold valid_unit. rewrite unit_types.
  assert (P : exists rest, Permutation input (ms ++ rest)) by (apply incl_perm; assumption).
  destruct P as (rest & P). rewrite (names_declared_once names cmd fuel input fs fs' ms rest hs HC Hg HR P Hq Hh).
  assert (F1 : Forall (fun x => NoDup (field_names x)) (flat_map h_decls hs) <-> Forall (fun d => NoDup (member_keys d)) (definitions ms)).
  { apply (forall_headers _ _ (header_of cmd fs')); [|exact Hh]. intros m h Hm H.
    exact (fields_distinct names cmd fuel input fs fs' m h HC Hg HR (Hms m Hm) (Q m Hm) H). }
  assert (F2 : Forall (fun x => Forall (fun s => ~ In s C_KEYWORDS) (declared_names x)) (flat_map h_decls hs) <-> Forall (no_keywords cmd) (definitions ms)).
  { apply (forall_headers _ _ (header_of cmd fs')); [|exact Hh]. intros m h Hm H.
    rewrite <- (keywords_avoided names cmd fuel input fs fs' m h HC Hg HR (Hms m Hm) (Q m Hm) H). symmetry. apply Forall_flat_map. }
  assert (F3 : Forall valid_fields (flat_map h_decls hs)
    <-> Forall (fun d => forall n c l k, d = DSequence n c l -> In k l -> fits (definitions input) (m_type k)) (definitions ms)).
  { apply (forall_headers _ _ (header_of cmd fs')); [|exact Hh]. intros m h Hm H.
    rewrite (fields_valid names cmd fuel input fs fs' m h HC Hg HR (Hms m Hm) (Q m Hm) H NP), Forall_forall. split.
    - intros X d Hd n c l k -> Hk. eapply X; eauto.
    - intros X n c l k Hd Hk. eapply X; eauto. }
  assert (S3 : forall A (p q r : A -> Prop) l, Forall (fun x => p x /\ q x /\ r x) l <-> Forall p l /\ Forall q l /\ Forall r l).
  { intros A p q r l. rewrite !Forall_forall. split; [intros H; repeat split; intros x Hx; apply (H x Hx)|intros (X1 & X2 & X3) x Hx; auto]. }
  assert (S4 : forall A (o p q r : A -> Prop) l, Forall (fun x => o x /\ p x /\ q x /\ r x) l <-> Forall o l /\ Forall p l /\ Forall q l /\ Forall r l).
  { intros A o p q r l. rewrite !Forall_forall. split; [intros H; repeat split; intros x Hx; apply (H x Hx)|intros (X0 & X1 & X2 & X3) x Hx; auto]. }
  rewrite S3, F1, F2, F3. unfold fit_for_c. rewrite S4. tauto.
Qed.
End valid.

(** ** c and binary *)
Lemma written_dot : forall names cmd fuel input fs fs' n, config_command names cmd -> (forall ns, cmd <> GenerateCfs ns) ->
  Forall (fun m => grammatical m = true) input -> run fuel cmd input fs = (fs', Ok tt) ->
  ~ In "."%char (list_ascii_of_string n) -> folder_get fs n = None -> folder_get fs' n = None.
Proof.
  intros names cmd fuel input fs fs' n HC NC Hg HR D N. assert (HR' := HR). rewrite (run_config names) in HR' by exact HC.
  destruct (build_from_config names input) as [b|e|] eqn:Hb; try discriminate HR'.
  assert (C : config names input b) by (split; assumption).
  destruct (generate_modules fuel b (module_files fuel cmd b)) as [files r] eqn:G. unfold write_outcome in HR'. cbn [fst snd] in HR'.
  injection HR' as E _. rewrite <- E, folder_get_all. destruct (dict_get n files) as [t|] eqn:X; [|exact N].
  exfalso. apply D. assert (Hin : In n (map fst files)).
  { revert X. generalize files. intros l. induction l as [|[k v] l IH]; simpl; [discriminate|].
    destruct (dict_get n l); [intros Y; right; apply IH; exact Y|]. destruct (String.eqb_spec n k) as [->|Y]; [left; reflexivity|].
    destruct (String.eqb_spec k n) as [->|Y']; [left; reflexivity|discriminate]. }
  assert (Gn : generation fuel b (files, r)).
  { unfold generation. destruct HC as [->|[->|(e & ->)]]; [destruct (NC names eq_refl)|right; left; rewrite <- G; reflexivity|right; right; exists e; rewrite <- G; reflexivity]. }
  destruct (generation_files _ _ _ _ _ _ Hb Gn) as (g & l & fss & Hgf & _ & I & F & ->).
  rewrite concat_map in Hin. apply in_concat in Hin. destruct Hin as (fs0 & Hfs & Hin). apply in_map_iff in Hfs.
  destruct Hfs as (fl & <- & Hfl). destruct (Forall2_in_r _ _ _ _ _ _ F Hfl) as (m' & Hm' & H).
  destruct Hgf as [->|[->|(e & ->)]].
  - apply cfs_file_names in H. unfold file in *. rewrite H in Hin.
    destruct Hin as [<-|[<-|[]]]; apply has_dot; simpl; intuition.
  - apply c_file_names in H. unfold file in *. rewrite H in Hin.
    destruct Hin as [<-|[<-|[]]]; apply has_dot; simpl; intuition.
  - destruct (bin_file_names _ _ _ _ _ _ _ C (I _ Hm') H) as (ks & Ek & _ & _). unfold file in *. rewrite Ek in Hin.
    destruct Hin as [<-|Hin]; [apply has_dot; simpl; intuition|].
    apply in_map_iff in Hin. destruct Hin as (k & <- & _). apply has_dot. simpl. intuition.
Qed.

Section c_units.
Variables (names : list string) (cmd : command) (fuel : nat) (input : list module) (fs fs' : folder).
Hypothesis HC : config_command names cmd.
Hypothesis NC : forall ns, cmd <> GenerateCfs ns.
Hypothesis Hg : Forall (fun m => grammatical m = true) input.
Hypothesis HR : run fuel cmd input fs = (fs', Ok tt).
Hypothesis Empty : forall m, In m input -> folder_get fs (c_name (mod_name m)) = None.

Lemma include_missing : forall m it, In m input -> In it (mod_imports m) -> folder_get fs' (included_file cmd (imp_module it)) = None.
Proof.
  intros m it Hm Hit. destruct (bv_imports _ _ (run_valid names cmd fuel input fs fs' HC Hg HR) m it Hm Hit) as (im & Him & En & _).
  assert (E : included_file cmd (imp_module it) = c_name (imp_module it)).
  { unfold included_file. destruct cmd as [ns|ns| |]; try reflexivity. destruct (NC ns eq_refl). }
  rewrite E, <- En. apply (written_dot names cmd fuel input fs fs' _ HC NC Hg HR); [|apply Empty, Him].
  intros D. apply c_name_chars in D; [|apply lower_name; exact (module_lower input Hg im Him)].
  destruct D as [D|[D|[D|D]]]; discriminate.
Qed.

Lemma missing_unread : forall its g hs g', (forall it, In it its -> folder_get fs' (included_file cmd (imp_module it)) = None) ->
  reads fs' g (map (fun it => Local (included_file cmd (imp_module it))) its) hs g' -> its = [] /\ g' = g.
Proof.
  intros its g hs g' M R. destruct its as [|it its]; [inversion R; subst; auto|]. exfalso.
  assert (X := M it (or_introl eq_refl)). inversion R; subst; congruence.
Qed.

Lemma c_unread : forall l g hs g', incl l input -> Forall quiet l ->
  (forall m, In m input -> In (header_guard cmd (mod_name m)) g -> mod_imports m = []) ->
  reads fs' g (includes_of cmd l) hs g' -> Forall (fun m => mod_imports m = []) l.
Proof.
  induction l as [|m l IH]; intros g hs g' I Q G R; [constructor|].
  assert (Hm : In m input) by (apply I; left; reflexivity). inversion Q as [|? ? Qm Ql]; subst.
  assert (Il : incl l input) by (intros x Hx; apply I; right; exact Hx).
  destruct (header_declares names cmd fuel input fs fs' m HC Hg HR Hm Qm) as (text & h & order & dss & std & T & H & HG & I1 & S1 & _).
  assert (SS : Forall (fun i => exists n, i = System n) std) by (destruct S1 as [(-> & _)|(-> & _)]; repeat constructor; eauto).
  cbn [includes_of map] in R. inversion R as [| |f text' h' is g0 hs0 g1 T' H' G' R'|f text' h' is g0 hs0 g1 hs1 g2 T' H' G' R1 R2]; subst.
  - rewrite T in T'. injection T' as <-. rewrite H in H'. injection H' as <-. rewrite HG in G'.
    constructor; [apply G; assumption|]. exact (IH g hs g' Il Ql G R').
  - rewrite T in T'. injection T' as <-. rewrite H in H'. injection H' as <-. rewrite HG in R1. rewrite I1, reads_systems in R1 by exact SS.
    destruct (missing_unread _ _ _ _ (fun it Hit => include_missing m it Hm Hit) R1) as [E ->].
    constructor; [exact E|]. apply (IH _ _ _ Il Ql) with (2 := R2). intros x Hx [Y|Y]; [|apply G; assumption].
    rewrite <- (guard_distinct names cmd fuel input fs fs' HC Hg HR m x Hm Hx Y). exact E.
Qed.

Lemma c_unit_iff : forall roots, incl roots input -> Forall quiet roots ->
  ((exists hs g, reads fs' [] (includes_of cmd roots) hs g) <-> Forall (fun m => mod_imports m = []) roots).
Proof.
  intros roots I Q. split.
  - intros (hs & g & R). apply (c_unread roots [] hs g I Q); [intros m _ []|exact R].
  - intros E. rewrite Forall_forall in E, Q.
    assert (N : forall m, needed input roots m -> In m roots).
    { intros m N. induction N as [m Hm|m im N IH Him (it & Hit & _)]; [exact Hm|]. rewrite (E m IH) in Hit. destruct Hit. }
    destruct (unit_read names cmd fuel input fs fs' HC Hg HR roots I) as (ms & hs & g & R & _).
    + intros m Hm. apply Q, N, Hm.
    + intros m it Hm Hit. rewrite (E m (N m Hm)) in Hit. destruct Hit.
    + eauto.
Qed.
End c_units.

(** ** The unit of any list of modules *)
Lemma distinct_names_perm : forall cmd ds ds', Permutation ds ds' -> distinct_names cmd ds -> distinct_names cmd ds'.
Proof.
  intros cmd ds ds' P (A & B & C). assert (PK : Permutation (flat_map item_keys ds) (flat_map item_keys ds')) by (apply flat_map_perm, P).
  split; [|split].
  - exact (Permutation_NoDup PK A).
  - intros d Hd Hv Hi. apply (B d (Permutation_in _ (Permutation_sym P) Hd) Hv). exact (Permutation_in _ (Permutation_sym PK) Hi).
  - intros Hc n c l Hd. exact (C Hc n c l (Permutation_in _ (Permutation_sym P) Hd)).
Qed.

Lemma cfs_unit_valid : forall names fuel input fs fs' roots hs g ms, Forall (fun m => grammatical m = true) input ->
  run fuel (GenerateCfs names) input fs = (fs', Ok tt) -> incl roots input -> (forall m, needed input roots m -> quiet m) ->
  (forall d, In d (definitions input) -> is_simple d = false -> ~ In (def_name d) (map fst POSIX_NAMES)) ->
  reads fs' [] (includes_of (GenerateCfs names) roots) hs g ->
  NoDup ms -> (forall m, In m ms <-> needed input roots m) ->
  (valid_unit hs <->
   distinct_names (GenerateCfs names) (definitions ms)
   /\ Forall (fit_for_c (GenerateCfs names) (definitions input)) (definitions ms)).
Proof.
  intros names fuel input fs fs' roots hs g ms Hg HR I Q NP R ND HN.
  destruct (cfs_unit names fuel input fs fs' roots Hg HR I Q) as (ms' & hs' & g' & R' & U & H & ND' & HN' & F).
  apply U in R. subst hs'.
  assert (P : Permutation (definitions ms') (definitions ms)).
  { apply flat_map_perm, NoDup_Permutation; auto. intros x. rewrite HN, HN'. reflexivity. }
  rewrite (valid_unit_iff names (GenerateCfs names) fuel input fs fs' (or_introl eq_refl) Hg HR NP ms' hs).
  - split; intros [A B].
    + split; [exact (distinct_names_perm _ _ _ P A)|exact (Permutation_Forall P B)].
    + split; [exact (distinct_names_perm _ _ _ (Permutation_sym P) A)|exact (Permutation_Forall (Permutation_sym P) B)].
  - intros x Hx. apply HN' in Hx. destruct Hx; auto.
  - apply Forall_forall. intros x Hx. apply Q, HN', Hx.
  - exact ND'.
  - exact H.
  - exact F.
Qed.
