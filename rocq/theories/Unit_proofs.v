(** * Proofs: what a compiler reads when a generated header is included *)
From Coq Require Import List String ZArith Lia Bool Ascii Permutation Relations.
Import ListNotations.
From Verif Require Import Base PyNum PyStr Ast Size Processor Bundle Sorter CCommon GenCfs GenC GenBinary GenCosmos Main.
From Verif Require Import Spec_Grammar Spec_Check Spec_Num Spec_Enum Spec_Size Spec_Bundle Spec_Gen Spec_Text Spec_Files Spec_C Spec_Order Spec_Header Spec_Valid Spec_Unit.
From Verif Require Import Str_proofs Text_proofs Lib_proofs Enum_proofs Bundle_proofs Accept_proofs Gen_proofs Field_proofs Run_proofs Name_proofs Files_proofs Header3_proofs Valid_proofs.
Open Scope string_scope.
Open Scope list_scope.

(** ** Reading is deterministic *)
Lemma reads_unique : forall fs g is hs g', reads fs g is hs g' ->
  forall hs2 g2, reads fs g is hs2 g2 -> hs2 = hs /\ g2 = g'.
Proof.
  intros fs g is hs g' R. induction R as [g|n is g hs g' R IH|f text h is g hs g' T H G R IH|f text h is g hs g' hs' g'' T H G R1 IH1 R2 IH2];
    intros hs2 g2 R'; inversion R'; subst; auto;
    repeat match goal with
    | A : folder_get fs f = Some ?x, B : folder_get fs f = Some ?y |- _ => rewrite A in B; injection B as B; subst
    | A : read_header ?t = Some ?x, B : read_header ?t = Some ?y |- _ => rewrite A in B; injection B as B; subst
    end; try contradiction; auto.
  match goal with
  | A : reads fs (h_guard _ :: g) _ _ _, B : reads fs _ is _ g2 |- _ =>
      destruct (IH1 _ _ A) as [-> ->]; destruct (IH2 _ _ B) as [-> ->]
  end. auto.
Qed.

Lemma reads_systems : forall fs std is g hs g', Forall (fun i => exists n, i = System n) std ->
  (reads fs g (std ++ is) hs g' <-> reads fs g is hs g').
Proof.
  intros fs std is g hs g' F. induction F as [|i std (n & ->) F IH]; [reflexivity|]. simpl. rewrite <- IH. split; intros R.
  - inversion R; subst; assumption.
  - constructor. exact R.
Qed.

(** ** Modules of a run *)
Section unit.
Variables (names : list string) (cmd : command) (fuel : nat) (input : list module) (fs fs' : folder).
Hypothesis HC : config_command names cmd.
Hypothesis Hg : Forall (fun m => grammatical m = true) input.
Hypothesis HR : run fuel cmd input fs = (fs', Ok tt).

Lemma V : bundle_valid names input.
Proof. exact (run_valid names cmd fuel input fs fs' HC Hg HR). Qed.

Lemma same_named : forall a b, In a input -> In b input -> mod_name a = mod_name b -> a = b.
Proof. intros a b Ha Hb E. exact (NoDup_map_inj _ _ mod_name input a b (bv_module_names _ _ V) Ha Hb E). Qed.

Lemma module_lower : forall m, In m input -> is_name_lower (mod_name m) = true.
Proof.
  intros m Hm. assert (G := Hg). rewrite Forall_forall in G. apply G in Hm. unfold grammatical in Hm.
  repeat (apply andb_prop in Hm; destruct Hm as [Hm ?]). exact Hm.
Qed.

Lemma guard_distinct : forall a b, In a input -> In b input ->
  header_guard cmd (mod_name a) = header_guard cmd (mod_name b) -> a = b.
Proof.
  intros a b Ha Hb E. apply same_named; auto. apply upper_c_name_lower_inj; [apply module_lower, Ha|apply module_lower, Hb|].
  unfold header_guard in E. injection E as E. exact (app_cancel_r _ _ _ E).
Qed.

Lemma run_acyclic : acyclic (imports_from input).
Proof.
  intros C. assert (R := HR). rewrite (run_config names) in R by exact HC. destruct (build_from_config names input) as [b|e|] eqn:B; try discriminate R.
  assert (X := run_cyclic names cmd fuel input fs b HC B C). rewrite HR in X. discriminate X.
Qed.

(** [roots] and the modules they need, with readable headers and includes that
    name headers. *)
Section reading.
Variable roots : list module.
Hypothesis Hroots : incl roots input.
Hypothesis Hquiet : forall m, needed input roots m -> quiet m.
Hypothesis Hfiles : forall m it, needed input roots m -> In it (mod_imports m) ->
  included_file cmd (imp_module it) = header_name cmd (imp_module it).

Lemma needed_in : forall m, needed input roots m -> In m input.
Proof. intros m N. destruct N; auto. Qed.

Lemma header_read : forall m, needed input roots m -> exists text h std,
  folder_get fs' (header_name cmd (mod_name m)) = Some text /\ read_header text = Some h
  /\ h_guard h = header_guard cmd (mod_name m)
  /\ h_includes h = std ++ map (fun it => Local (included_file cmd (imp_module it))) (mod_imports m)
  /\ Forall (fun i => exists n, i = System n) std.
Proof.
  intros m N. destruct (header_declares names cmd fuel input fs fs' m HC Hg HR (needed_in m N) (Hquiet m N))
    as (text & h & order & dss & std & T & H & G & I1 & S1 & _).
  exists text, h, std. split; [exact T|]. split; [exact H|]. split; [exact G|]. split; [exact I1|].
  destruct S1 as [(-> & _)|(-> & _)]; repeat constructor. eauto.
Qed.

(** The modules a module imports from, one for each import. *)
Lemma imported_list : forall m, needed input roots m -> exists l,
  map (fun it => Local (included_file cmd (imp_module it))) (mod_imports m) = includes_of cmd l
  /\ (forall im, In im l <-> In im input /\ imports_module m im).
Proof.
  intros m N. assert (Hm := needed_in m N).
  assert (X : forall its, incl its (mod_imports m) -> exists l,
    map (fun it => Local (included_file cmd (imp_module it))) its = includes_of cmd l
    /\ (forall im, In im l -> In im input /\ imports_module m im)
    /\ (forall it im, In it its -> In im input -> imp_module it = mod_name im -> In im l)).
  { induction its as [|it its IH]; intros I.
    - exists []. split; [reflexivity|]. split; [intros im []|intros it im []].
    - destruct IH as (l & E & A & B); [intros x Hx; apply I; right; exact Hx|].
      assert (Hit : In it (mod_imports m)) by (apply I; left; reflexivity).
      destruct (bv_imports _ _ V m it Hm Hit) as (im & Him & En & _).
      exists (im :: l). split; [|split].
      + cbn [map includes_of]. rewrite E, (Hfiles m it N Hit), <- En. reflexivity.
      + intros x [<-|Hx]; [|auto]. split; [exact Him|]. exists it. auto.
      + intros it' x [<-|Hx] Ix Ex; [left; apply same_named; congruence|right; eapply B; eauto]. }
  destruct (X (mod_imports m) (incl_refl _)) as (l & E & A & B). exists l. split; [exact E|]. intros im. split; [apply A|].
  intros (Him & it & Hit & En). eapply B; eauto.
Qed.

Definition guards (g : list string) (done opn : list module) : Prop :=
  forall m, In m input -> (In (header_guard cmd (mod_name m)) g <-> In m done \/ In m opn).

Lemma imports_first_snoc : forall ms m, imports_first input ms ->
  (forall im, In im input -> imports_module m im -> In im ms) -> imports_first input (ms ++ [m]).
Proof.
  intros ms m F I a x b E im Him Hi. assert (Y : b = [] \/ exists b' y, b = b' ++ [y]).
  { destruct b as [|z b]; [left; reflexivity|right]. destruct (exists_last (l := z :: b)) as (b' & y & ->); [discriminate|eauto]. }
  destruct Y as [->|(b' & y & ->)].
  - apply app_inj_tail in E. destruct E as [<- <-]. apply I; assumption.
  - rewrite app_comm_cons, app_assoc in E. apply app_inj_tail in E. destruct E as [-> <-].
    apply (F a x b' eq_refl im Him Hi).
Qed.

Lemma reading : forall n l done opn g,
  (forall m, In m l -> needed input roots m) ->
  (forall o m, In o opn -> In m l -> clos_trans string (imports_from input) (mod_name o) (mod_name m)) ->
  NoDup opn -> incl opn input -> (length input <= length opn + n)%nat ->
  imports_first input done -> NoDup done -> guards g done opn -> (forall m, In m done -> ~ In m opn) ->
  exists ms hs g', reads fs' g (includes_of cmd l) hs g'
    /\ Forall2 (header_of cmd fs') ms hs
    /\ imports_first input (done ++ ms) /\ NoDup (done ++ ms) /\ guards g' (done ++ ms) opn
    /\ (forall m, In m (done ++ ms) -> ~ In m opn)
    /\ incl l (done ++ ms) /\ (forall m, In m ms -> needed input roots m).
Proof.
  induction n as [|n IHn]; intros l; induction l as [|m l IHl]; intros done opn g N T DO IO L F D G X.
  1, 3: exists [], [], g; rewrite app_nil_r; (split; [constructor|]); (split; [constructor|]);
    repeat (split; [assumption|]); (split; [intros z []|intros z []]).
  - (* a module that is not open *)
    exfalso. assert (Hm := needed_in m (N m (or_introl eq_refl))).
    assert (NM : ~ In m opn).
    { intros O1. apply run_acyclic. exists (mod_name m). apply (T m m O1). left. reflexivity. }
    assert (Y : (length (m :: opn) <= length input)%nat).
    { apply NoDup_incl_length; [constructor; assumption|]. intros x [<-|Hx]; auto. }
    simpl in Y. lia.
  - assert (Nm := N m (or_introl eq_refl)). assert (Hm := needed_in m Nm).
    assert (NM : ~ In m opn).
    { intros O1. apply run_acyclic. exists (mod_name m). apply (T m m O1). left. reflexivity. }
    destruct (header_read m Nm) as (text & h & std & HT & HH & HG & HI & HS).
    assert (HO : header_of cmd fs' m h) by (exists text; auto).
    assert (DD : In m done \/ ~ In m done).
    { destruct (in_dec string_dec (header_guard cmd (mod_name m)) g) as [Y|Y]; [left; apply (G m Hm) in Y; tauto|].
      right. intros Y'. apply Y, (G m Hm). left. exact Y'. }
    destruct DD as [Dm|Dm].
    + destruct (IHl done opn g) as (ms & hs & g' & R & A & B & C & E & Z & I1 & W); auto.
      { intros x Hx. apply N. right. exact Hx. }
      { intros o x Ho Hx. apply T; [exact Ho|right; exact Hx]. }
      exists ms, hs, g'. split.
      { cbn [includes_of map]. apply read_again with text h; auto. rewrite HG. apply G; auto. }
      repeat (split; [assumption|]). split; [|assumption]. intros x [<-|Hx]; [apply in_or_app; left; exact Dm|apply I1, Hx].
    + destruct (imported_list m Nm) as (l' & E' & I').
      destruct (IHn l' done (m :: opn) (h_guard h :: g)) as (ms & hs & g' & R & A & B & C & E & Z & I1 & W).
      * intros x Hx. apply I' in Hx. destruct Hx as (Hx & Hi). apply needed_import with m; auto.
      * intros o x Ho Hx. apply I' in Hx. destruct Hx as (Hx & (it & Hit & En)).
        assert (S1 : imports_from input (mod_name m) (mod_name x)) by (exists m, it; auto).
        destruct Ho as [<-|Ho]; [apply t_step; exact S1|]. apply t_trans with (mod_name m); [|apply t_step; exact S1].
        apply T; [exact Ho|left; reflexivity].
      * constructor; assumption.
      * intros x [<-|Hx]; auto.
      * simpl. lia.
      * exact F.
      * exact D.
      * intros x Hx. rewrite HG. simpl. rewrite (G x Hx). split; [|intuition (subst; auto)].
        intros [Ex|Y]; [right; left; apply guard_distinct; auto|tauto].
      * intros x Hx [<-|Y]; [contradiction|apply (X x Hx Y)].
      * assert (Mn : ~ In m (done ++ ms)) by (intros Y; apply (Z m Y); left; reflexivity).
        destruct (IHl ((done ++ ms) ++ [m]) opn g') as (ms2 & hs2 & g2 & R2 & A2 & B2 & C2 & E2 & Z2 & I2 & W2).
        -- intros x Hx. apply N. right. exact Hx.
        -- intros o x Ho Hx. apply T; [exact Ho|right; exact Hx].
        -- exact DO.
        -- exact IO.
        -- exact L.
        -- apply imports_first_snoc; [exact B|]. intros im Him Hi. apply I1, I'. auto.
        -- apply NoDup_app_iff. split; [exact C|]. split; [repeat constructor; intros []|]. intros x Hx [<-|[]]. contradiction.
        -- intros x Hx. rewrite (E x Hx), (in_app_iff (done ++ ms)). simpl. tauto.
        -- intros x Hx Y. apply in_app_or in Hx. destruct Hx as [Hx|[<-|[]]]; [|contradiction]. apply (Z x Hx). right. exact Y.
        -- exists (ms ++ m :: ms2), (hs ++ h :: hs2), g2. split.
           { cbn [includes_of map]. apply read_first with text g'; auto.
             - rewrite HG. intros Y. apply G in Y; [tauto|exact Hm].
             - rewrite HI, reads_systems by exact HS. rewrite E'. exact R. }
           split; [apply Forall2_app; [exact A|constructor; assumption]|].
           replace (done ++ ms ++ m :: ms2) with (((done ++ ms) ++ [m]) ++ ms2) by (rewrite <- !app_assoc; reflexivity).
           repeat (split; [assumption|]). split.
           { intros x [<-|Hx]; [|apply I2, Hx]. rewrite !in_app_iff. simpl. tauto. }
           { intros x Hx. apply in_app_or in Hx. destruct Hx as [Hx|[<-|Hx]]; auto. }
Qed.

Lemma unit_read : exists ms hs g, reads fs' [] (includes_of cmd roots) hs g
  /\ Forall2 (header_of cmd fs') ms hs /\ NoDup ms /\ imports_first input ms
  /\ (forall m, In m ms <-> needed input roots m).
Proof.
  destruct (reading (length input) roots [] [] []) as (ms & hs & g & R & A & B & C & E & Z & I1 & W).
  - intros m Hm. constructor. exact Hm.
  - intros o m [].
  - constructor.
  - intros x [].
  - simpl. lia.
  - intros a m b Y. destruct a; discriminate Y.
  - constructor.
  - intros m Hm. simpl. tauto.
  - intros m [].
  - simpl in *. exists ms, hs, g. split; [exact R|]. split; [exact A|]. split; [exact C|]. split; [exact B|].
    intros m. split; [apply W|]. intros N. induction N as [m Hm|m im N IH Him Hi]; [apply I1, Hm|].
    apply in_split in IH. destruct IH as (a & b & Y). rewrite Y. apply in_or_app. left. exact (B a m b Y im Him Hi).
Qed.

End reading.
End unit.
