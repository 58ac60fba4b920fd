(** * The C field of a member *)
From Coq Require Import ZifyBool ZifyNat ZifyN.
From Verif Require Import Base PyNum PyStr Ast Size Processor Bundle Sorter CCommon Lib_proofs Str_proofs
  Spec_Enum Spec_Num Spec_Check Spec_Grammar Spec_Bundle Spec_Size Spec_Gen Enum_proofs Num_proofs Check_proofs
  Bundle_proofs Accept_proofs Name_proofs Gen_proofs Size_proofs.
Open Scope string_scope.

(** ** Bundles of the cfs, c and binary commands *)

Definition config (names : list string) (input : list module) (b : bundle) : Prop :=
  Forall (fun m => grammatical m = true) input /\ build_from_config names input = Ok b.

Lemma config_accepted : forall names input b, config names input b -> accepted input b.
Proof. intros names input b [_ H]. left. exists names. exact H. Qed.

Lemma in_all_defs : forall b d, In d (all_defs b) <-> exists bm, In bm (b_modules b) /\ In d (mod_defs (bm_mod bm)).
Proof.
  intros b d. unfold all_defs, all_modules. rewrite in_flat_map. split.
  - intros (m & Hm & Hd). apply in_map_iff in Hm. destruct Hm as (bm & <- & Hbm). eauto.
  - intros (bm & Hbm & Hd). exists (bm_mod bm). split; [apply in_map; exact Hbm|exact Hd].
Qed.

(** Every imported module is among the attached ones. *)
Lemma config_imported : forall names input b bm it,
  config names input b -> In bm (b_modules b) -> In it (mod_imports (bm_mod bm)) ->
  exists i im, In i (bm_imported bm) /\ nth_error (b_modules b) i = Some im
    /\ bm_name im = imp_module it /\ incl (imp_names it) (map def_name (mod_defs (bm_mod im))).
Proof.
  intros names input b bm it [Hg H] Hbm Hit.
  destruct (build_from_config_inv _ _ _ H) as (ms & Hp & Hb & Ha & Hn & _ & Hv & _).
  destruct (In_nth_error _ _ Hbm) as (i & Hi).
  assert (Hi' := Hi). rewrite (build_nth _ _ _ Hb) in Hi'.
  destruct (nth_error ms i) as [m|] eqn:Em; [|discriminate]. injection Hi' as <-. simpl in *.
  assert (R : imports_resolve ms).
  { apply (imports_ok _ _ Hn Hb). unfold validate_bundle, check_imported_types_and_components in Hv.
    apply bind_ok in Hv. destruct Hv as ([] & Hv & _). apply bind_ok in Hv. destruct Hv as ([] & Hv & _).
    exact Hv. }
  destruct (R m it (nth_error_In _ _ Em) Hit) as (im & Him & En & Hincl).
  destruct (In_nth_error _ _ Him) as (j & Hj).
  exists j, (mkbmodule im (imported_of ms j im)). split; [|split; [|split]].
  - apply (imported_of_In ms i m j Hn Em). exists im. split; [exact Hj|]. rewrite En.
    unfold dependencies. apply in_map. exact Hit.
  - rewrite (build_nth _ _ _ Hb), Hj. reflexivity.
  - exact En.
  - exact Hincl.
Qed.

(** A type used by a member is defined in the module or in an attached one. *)
Lemma config_used_type : forall names input b bm d k n,
  config names input b -> In bm (b_modules b) -> In d (mod_defs (bm_mod bm)) -> In k (members_of d) ->
  element (m_type k) = TName n ->
  In n (map def_name (mod_defs (bm_mod bm)))
  \/ exists i im, In i (bm_imported bm) /\ nth_error (b_modules b) i = Some im
       /\ In n (map def_name (mod_defs (bm_mod im))).
Proof.
  intros names input b bm d k n C Hbm Hd Hk He. assert (C' := C). destruct C as [Hg H].
  assert (A : accepted input b) by (left; eauto).
  destruct (accepted_same _ _ A) as (Hs & _ & _).
  assert (V := accepted_modules_valid _ _ Hg A).
  assert (Hm : In (bm_mod bm) (all_modules b)) by (apply in_map; exact Hbm).
  destruct (Forall2_in_r _ _ _ _ _ _ Hs Hm) as (m0 & Hm0 & S).
  rewrite Forall_forall in V. destruct (V m0 Hm0) as (_ & _ & T).
  assert (S' := S). destruct S as (_ & _ & Ei & Fd).
  destruct (Forall2_in_r _ _ _ _ _ _ Fd Hd) as (d0 & Hd0 & Sd).
  rewrite (same_definition_members _ _ Sd) in Hk.
  destruct (T d0 k n Hd0 Hk He) as [Hi|Hi].
  - right. unfold imported_names in Hi. rewrite <- Ei in Hi. apply in_concat in Hi.
    destruct Hi as (l & Hl & Hi). apply in_map_iff in Hl. destruct Hl as (it & <- & Hit).
    destruct (config_imported _ _ _ _ _ C' Hbm Hit) as (i & im & H1 & H2 & H3 & H4).
    exists i, im. auto.
  - left. rewrite <- (same_defined_names _ _ S') in Hi. exact Hi.
Qed.

(** ** The list of simple definitions *)

Lemma in_simple_defs : forall l n t, In (n, t) (simple_defs l) <-> exists c, In (DSimple n t c) l.
Proof.
  intros l n t. unfold simple_defs. rewrite in_flat_map. split.
  - intros (d & Hd & H). destruct d as [| | |n' t' c]; try destruct H.
    + injection H as -> ->. eauto.
    + destruct H.
  - intros (c & H). exists (DSimple n t c). split; [exact H|]. left. reflexivity.
Qed.

Lemma sds_In : forall b bm n t,
  In bm (b_modules b) -> In (n, t) (simple_definition_list b bm) -> exists c, In (DSimple n t c) (all_defs b).
Proof.
  intros b bm n t Hbm H. unfold simple_definition_list in H. apply in_app_or in H. destruct H as [H|H].
  - apply in_simple_defs in H. destruct H as (c & H). exists c. apply in_all_defs. eauto.
  - apply in_flat_map in H. destruct H as (i & _ & H).
    destruct (nth_error (b_modules b) i) as [im|] eqn:E; [|destruct H].
    apply in_simple_defs in H. destruct H as (c & H). exists c. apply in_all_defs.
    exists im. split; [eapply nth_error_In; exact E|exact H].
Qed.

Lemma NoDup_map_inj : forall A B (f : A -> B) l x y,
  NoDup (map f l) -> In x l -> In y l -> f x = f y -> x = y.
Proof.
  intros A B f l x y. induction l as [|a l IH]; simpl; intros Hn Hx Hy E; [destruct Hx|].
  inversion Hn as [|? ? Ha Hl]; subst. destruct Hx as [->|Hx], Hy as [->|Hy]; auto.
  - exfalso. apply Ha. rewrite E. apply in_map. exact Hy.
  - exfalso. apply Ha. rewrite <- E. apply in_map. exact Hx.
Qed.

Lemma config_unique : forall names input b d d',
  config names input b -> In d (all_defs b) -> In d' (all_defs b) -> def_name d = def_name d' -> d = d'.
Proof.
  intros names input b d d' C. apply config_accepted in C.
  destruct (accepted_same _ _ C) as (_ & _ & Hn). apply NoDup_map_inj. exact Hn.
Qed.

Lemma config_capital : forall names input b d,
  config names input b -> In d (all_defs b) -> is_name_capital (def_name d) = true.
Proof. intros names input b d C. apply (accepted_capital input); [apply C|eapply config_accepted; exact C]. Qed.

(** A simple type used by a member is found... *)
Lemma sds_find : forall names input b bm d k n t c,
  config names input b -> In bm (b_modules b) -> In d (mod_defs (bm_mod bm)) -> In k (members_of d) ->
  element (m_type k) = TName n -> In (DSimple n t c) (all_defs b) ->
  find (fun sd => String.eqb (c_name (fst sd)) (c_name n)) (simple_definition_list b bm) = Some (n, t).
Proof.
  intros names input b bm d k n t c C Hbm Hd Hk He Hn.
  assert (Hin : In (n, t) (simple_definition_list b bm)).
  { unfold simple_definition_list. apply in_or_app.
    assert (U : forall m, (forall x, In x (mod_defs m) -> In x (all_defs b)) ->
                In n (map def_name (mod_defs m)) -> In (n, t) (simple_defs (mod_defs m))).
    { intros m Hm Hx. apply in_map_iff in Hx. destruct Hx as (x & Ex & Hx).
      apply in_simple_defs. exists c.
      rewrite <- (config_unique _ _ _ x (DSimple n t c) C (Hm x Hx) Hn Ex). exact Hx. }
    destruct (config_used_type _ _ _ _ _ _ _ C Hbm Hd Hk He) as [H|(i & im & Hi & Him & H)].
    - left. apply U; [|exact H]. intros x Hx. apply in_all_defs. eauto.
    - right. apply in_flat_map. exists i. split; [exact Hi|]. rewrite Him. apply U; [|exact H].
      intros x Hx. apply in_all_defs. exists im. split; [eapply nth_error_In; exact Him|exact Hx]. }
  destruct (find _ _) as [[n' t']|] eqn:F.
  - apply find_some in F. destruct F as [F1 F2]. simpl in F2. apply String.eqb_eq in F2.
    destruct (sds_In _ _ _ _ Hbm F1) as (c' & H').
    assert (E : n' = n).
    { apply c_name_inj; [| |exact F2]; apply capital_name.
      - exact (config_capital _ _ _ _ C H').
      - exact (config_capital _ _ _ _ C Hn). }
    subst n'. assert (E := config_unique _ _ _ _ _ C H' Hn eq_refl). injection E as -> _. reflexivity.
  - exfalso. apply (find_none _ _ F) in Hin. simpl in Hin. rewrite String.eqb_refl in Hin. discriminate.
Qed.

(** ... and nothing is found for other C types. *)
Lemma sds_find_none : forall names input b bm ct,
  config names input b -> In bm (b_modules b) ->
  (forall n t c, In (DSimple n t c) (all_defs b) -> c_name n <> ct) ->
  find (fun sd => String.eqb (c_name (fst sd)) ct) (simple_definition_list b bm) = None.
Proof.
  intros names input b bm ct C Hbm H.
  destruct (find _ _) as [[n' t']|] eqn:F; [|reflexivity]. exfalso.
  apply find_some in F. destruct F as [F1 F2]. simpl in F2. apply String.eqb_eq in F2.
  destruct (sds_In _ _ _ _ Hbm F1) as (c' & H'). exact (H _ _ _ H' F2).
Qed.

Lemma first_char : forall n ch r, is_name_capital n = true -> c_name n = String ch r -> is_upper ch = true.
Proof.
  intros n ch r H E. rewrite c_name_eq in E by (apply capital_name; exact H).
  apply capital_chars in H. destruct H as (c & s & -> & Hc & _). simpl in E. injection E as <- _.
  rewrite us_upper by exact Hc. exact Hc.
Qed.

Lemma sds_find_lower : forall names input b bm ch r,
  config names input b -> In bm (b_modules b) -> is_upper ch = false ->
  find (fun sd => String.eqb (c_name (fst sd)) (String ch r)) (simple_definition_list b bm) = None.
Proof.
  intros names input b bm ch r C Hbm Hc. apply (sds_find_none names input); try assumption.
  intros n t c H E. assert (G := first_char n ch r (config_capital _ _ _ _ C H) E). congruence.
Qed.

(** ** Names of POSIX types *)

Definition POSIX_INTEGER_NAMES : list string :=
  ["Int8-t"; "Int16-t"; "Int32-t"; "Int64-t"; "Uint8-t"; "Uint16-t"; "Uint32-t"; "Uint64-t"].

Lemma lower_c_name_inj : forall a b, is_name_capital a = true -> is_name_capital b = true ->
  lowerize (c_name a) = lowerize (c_name b) -> a = b.
Proof.
  intros a b Ha Hb H. rewrite !c_name_eq in H by (apply capital_name; assumption).
  assert (Ha' := capital_name _ Ha). assert (Hb' := capital_name _ Hb).
  apply name_anychar in Ha', Hb'. apply (str_map_inj anychar us us_inj); try assumption.
  apply capital_chars in Ha, Hb. destruct Ha as (c & r & -> & Hc & _), Hb as (d & r' & -> & Hd & _).
  simpl in *. injection H as H1 H2. rewrite !us_upper in * by assumption. f_equal; [|exact H2].
  unfold lower_char in H1. rewrite Hc, Hd in H1. apply upper_codes in Hc, Hd.
  apply (f_equal N_of_ascii) in H1. rewrite !N_ascii_small in H1 by lia. apply ascii_N_eq. lia.
Qed.

Lemma posix_lower : forall n, is_name_capital n = true ->
  (In (lowerize (c_name n)) POSIX_DEFINED_TYPES <-> In n POSIX_INTEGER_NAMES).
Proof.
  intros n Hn. change POSIX_DEFINED_TYPES with (map (fun s => lowerize (c_name s)) POSIX_INTEGER_NAMES).
  rewrite in_map_iff. split.
  - intros (x & E & Hx). assert (G : is_name_capital x = true).
    { clear E. simpl in Hx. repeat (destruct Hx as [<-|Hx]; [reflexivity|]). destruct Hx. }
    rewrite <- (lower_c_name_inj x n G Hn E). exact Hx.
  - intros H. eauto.
Qed.

Lemma mem_false : forall s l, ~ In s l -> mem s l = false.
Proof. intros s l H. destruct (mem s l) eqn:E; [|reflexivity]. apply mem_In in E. contradiction. Qed.

Lemma c_name_keyword : forall n k, is_name_capital n = true ->
  In k ["INTEGER"; "REAL"; "BOOLEAN"] -> c_name n <> k.
Proof.
  intros n k Hn Hk E. rewrite c_name_eq in E by (apply capital_name; exact Hn).
  assert (H : exists c d r, k = String c (String d r) /\ is_upper d = true).
  { simpl in Hk. repeat (destruct Hk as [<-|Hk]; [do 3 eexists; split; reflexivity|]). destruct Hk. }
  destruct H as (c & d & r & -> & Hd).
  apply capital_chars in Hn. destruct Hn as (c' & r' & -> & _ & Hr). simpl in E. injection E as _ E.
  destruct r' as [|d' r']; simpl in E; [discriminate|]. injection E as E _.
  simpl in Hr. apply andb_prop in Hr. destruct Hr as [Hr _]. apply nchar_codes in Hr.
  apply upper_codes in Hd. unfold us in E. rewrite ascii_eqb_N in E. change (N_of_ascii "-") with 45%N in E.
  destruct (N_of_ascii d' =? 45)%N eqn:E45.
  - subst d. change (N_of_ascii "_") with 95%N in Hd. lia.
  - subst d. lia.
Qed.

(** ** Fields *)

Section Fields.
Variables (names : list string) (input : list module) (b : bundle) (bm : bmodule) (d : definition)
  (k : member) (fuel : nat) (f : cfield).
Hypothesis C : config names input b.
Hypothesis Hbm : In bm (b_modules b).
Hypothesis Hd : In d (mod_defs (bm_mod bm)).
Hypothesis Hk : In k (members_of d).
Hypothesis Hf : field_for fuel (all_defs b) (simple_definition_list b bm) k f.

Lemma field_member : member_ok k = true /\ type_ok (m_type k) = true /\ ranges_ok (m_type k)
  /\ element (m_type k) <> TNull.
Proof.
  apply (accepted_member input b d k); [apply C|eapply config_accepted; exact C| |exact Hk].
  apply in_all_defs. eauto.
Qed.

Lemma field_key : cf_name f = c_name (m_key k) /\ cf_comment f = option_map item_comment (m_comment k)
  /\ cf_array f = match m_type k with TArray n _ => Some n | TString _ n => Some n | _ => None end.
Proof.
  destruct Hf as (sb & si & H). unfold convert_member in H.
  apply bind_ok in H. destruct H as (cm & _ & H).
  apply bind_ok in H. destruct H as ([[[bits ct] sb'] si'] & _ & H). injection H as <- _ _. simpl.
  split; [reflexivity|]. split; [reflexivity|]. unfold resolve.
  destruct (m_type k); try reflexivity; destruct (lookup_def _ _); reflexivity.
Qed.

Lemma lookup_here : forall x, In x (all_defs b) -> lookup_def (all_defs b) (def_name x) = Some x.
Proof.
  intros x Hx. apply lookup_unique; [|exact Hx].
  apply (accepted_same input b). eapply config_accepted. exact C.
Qed.

(** An inline INTEGER or REAL. *)
Lemma field_direct :
  match m_type k with TInteger _ | TReal _ => True | _ => False end ->
  exists cm, map_direct (m_type k) = Ok cm /\ cf_type f = cm_ctype cm /\ cf_bits f = cm_bits cm.
Proof.
  intros Ht. destruct Hf as (sb & si & H). unfold convert_member in H.
  assert (M : map_member fuel (all_defs b) (m_type k) = map_direct (m_type k)).
  { destruct (m_type k); try destruct Ht; reflexivity. }
  rewrite M in H. apply bind_ok in H. destruct H as (cm & Hcm & H). exists cm. split; [exact Hcm|].
  assert (L : exists ch r, cm_ctype cm = String ch r /\ is_upper ch = false /\ lowerize (cm_ctype cm) = cm_ctype cm).
  { clear H. unfold map_direct in Hcm. destruct (get_c_type (m_type k)) as [ct|]; [|discriminate].
    apply bind_ok in Hcm. destruct Hcm as (sz & _ & Hcm). apply bind_ok in Hcm. destruct Hcm as (u & _ & Hcm).
    destruct ct; try (injection Hcm as <-; do 2 eexists; repeat split; reflexivity).
    destruct (mem ("uint" ++ str_of_Z (next_bit_size sz) ++ "_t") POSIX_DEFINED_TYPES);
      injection Hcm as <-; do 2 eexists; repeat split; reflexivity. }
  destruct L as (ch & r & E & Hc & El).
  apply bind_ok in H. destruct H as ([[[bits ct] sb'] si'] & H1 & H2). injection H2 as <- _ _. simpl.
  rewrite El in H1. replace (if mem (cm_ctype cm) POSIX_DEFINED_TYPES then cm_ctype cm else cm_ctype cm)
    with (cm_ctype cm) in H1 by (destruct (mem _ _); reflexivity).
  rewrite E in H1. rewrite (sds_find_lower names input b bm ch r C Hbm Hc) in H1.
  injection H1 as <- <- _ _. auto.
Qed.

(** A name of a type. *)
Lemma map_member_named : forall n, type_name (m_type k) = n -> is_name_capital n = true ->
  map_member fuel (all_defs b) (m_type k) =
  match resolve (all_defs b) (m_type k) with
  | RDef (DEnumerated _ _ _) =>
      let* s := member_size fuel (all_defs b) (m_type k) in Ok (mkcmap (Some s) (c_name n) false false)
  | _ => Ok (mkcmap None (c_name n) false false)
  end.
Proof.
  intros n En Hn. unfold map_member. rewrite En.
  rewrite mem_false.
  - replace (String.eqb (c_name n) "BOOLEAN") with false; [reflexivity|].
    symmetry. apply String.eqb_neq. apply c_name_keyword; [exact Hn|]. simpl. tauto.
  - intros [E|[E|[]]]; symmetry in E; revert E; apply c_name_keyword; try exact Hn; simpl; tauto.
Qed.

(** A simple type with a name of its own, or an array of it. *)
Lemma field_simple : forall n t c, element (m_type k) = TName n -> In (DSimple n t c) (all_defs b) ->
  (In n POSIX_INTEGER_NAMES -> cf_type f = lowerize (c_name n) /\ cf_bits f = None)
  /\ (~ In n POSIX_INTEGER_NAMES ->
      exists cm, map_direct t = Ok cm /\ cf_type f = cm_ctype cm /\ cf_bits f = cm_bits cm).
Proof.
  intros n t c He Hn. assert (Hc := config_capital _ _ _ _ C Hn). simpl in Hc.
  destruct Hf as (sb & si & H). unfold convert_member in H.
  rewrite (map_member_named n (element_name _ _ He) Hc) in H.
  replace (match resolve (all_defs b) (m_type k) with
   | RDef (DEnumerated _ _ _) =>
       let* s := member_size fuel (all_defs b) (m_type k) in Ok (mkcmap (Some s) (c_name n) false false)
   | _ => Ok (mkcmap None (c_name n) false false) end)
    with (Ok (mkcmap None (c_name n) false false)) in H.
  2:{ unfold resolve. destruct (m_type k) as [r|r| | |s l|l e|n']; try discriminate; try reflexivity.
      simpl in He. injection He as ->. simpl.
      assert (L := lookup_here _ Hn). simpl in L. rewrite L. reflexivity. }
  cbn [bind cm_ctype cm_stdbool cm_stdint cm_bits orb] in H.
  apply bind_ok in H. destruct H as ([[[bits ct] sb'] si'] & H1 & H2). injection H2 as <- _ _. simpl.
  split; intros Hp.
  - apply (posix_lower n Hc) in Hp. apply mem_In in Hp. rewrite Hp in H1.
    assert (E : exists ch r, lowerize (c_name n) = String ch r /\ is_upper ch = false).
    { apply mem_In in Hp. simpl in Hp.
      repeat (destruct Hp as [<-|Hp]; [do 2 eexists; split; reflexivity|]). destruct Hp. }
    destruct E as (ch & r & E & Hu). rewrite E in H1.
    rewrite (sds_find_lower names input b bm ch r C Hbm Hu) in H1. injection H1 as <- <- _ _.
    rewrite E. auto.
  - rewrite mem_false in H1 by (rewrite (posix_lower n Hc); exact Hp).
    rewrite (sds_find names input b bm d k n t c C Hbm Hd Hk He Hn) in H1. cbn [snd] in H1.
    apply bind_ok in H1. destruct H1 as (cm & Hcm & H1). injection H1 as <- <- _ _. exists cm. auto.
Qed.

(** The fields of the other types. *)
Lemma field_lower : forall ch r bits,
  map_member fuel (all_defs b) (m_type k) = Ok (mkcmap bits (String ch r) false (mem (String ch r) POSIX_DEFINED_TYPES)) ->
  is_upper ch = false -> lowerize (String ch r) = String ch r ->
  cf_type f = String ch r /\ cf_bits f = bits.
Proof.
  intros ch r bits M Hc El. destruct Hf as (sb & si & H). unfold convert_member in H. rewrite M in H.
  cbn [bind cm_ctype cm_stdbool cm_stdint cm_bits] in H. rewrite El in H.
  apply bind_ok in H. destruct H as ([[[bits' ct] sb'] si'] & H1 & H2). injection H2 as <- _ _. simpl.
  replace (if mem (String ch r) POSIX_DEFINED_TYPES then String ch r else String ch r) with (String ch r) in H1
    by (destruct (mem _ _); reflexivity).
  rewrite (sds_find_lower names input b bm ch r C Hbm Hc) in H1. injection H1 as <- <- _ _. auto.
Qed.

Lemma field_boolean : element (m_type k) = TBoolean -> cf_type f = "uint8_t" /\ cf_bits f = Some 1%Z.
Proof.
  intros He. apply field_lower; try reflexivity. unfold map_member.
  assert (E : type_name (m_type k) = "BOOLEAN").
  { clear - He. induction (m_type k); simpl in *; try discriminate; auto. }
  rewrite E. reflexivity.
Qed.

Lemma field_string : forall sk len, element (m_type k) = TString sk len -> cf_type f = "char" /\ cf_bits f = None.
Proof.
  intros sk len He. apply field_lower; try reflexivity. unfold map_member.
  assert (E : c_name (type_name (m_type k)) = "char").
  { clear - He. induction (m_type k); simpl in *; try discriminate; auto. injection He as -> ->. destruct sk; reflexivity. }
  rewrite E. cbn [mem existsb String.eqb Ascii.eqb orb].
  replace (mem "char" ["INTEGER"; "REAL"]) with false by reflexivity.
  replace (String.eqb "char" "BOOLEAN") with false by reflexivity.
  replace (resolve (all_defs b) (m_type k)) with
    (match m_type k with TArray n e => RArray n e | TString _ n => RString n | _ => RNone end).
  { destruct (m_type k); reflexivity. }
  destruct (m_type k); simpl in He; try discriminate; reflexivity.
Qed.

(** A type that is defined but not simple. *)
Lemma field_named : forall n x, element (m_type k) = TName n -> In x (all_defs b) -> def_name x = n ->
  is_simple x = false -> ~ In n POSIX_INTEGER_NAMES ->
  cf_type f = c_name n
  /\ match x, m_type k with
     | DEnumerated _ _ _, TName _ =>
         exists w, member_size fuel (all_defs b) (m_type k) = Ok w /\ cf_bits f = Some w
     | _, _ => cf_bits f = None
     end.
Proof.
  intros n x He Hx Ex Hs Hp. assert (Hc := config_capital _ _ _ _ C Hx). rewrite Ex in Hc.
  destruct Hf as (sb & si & H). unfold convert_member in H.
  apply bind_ok in H. destruct H as (cm & Hm & H). rewrite (map_member_named n (element_name _ _ He) Hc) in Hm.
  assert (T : cm_ctype cm = c_name n).
  { destruct (resolve _ _) as [| |[]|]; try (injection Hm as <-; reflexivity).
    apply bind_ok in Hm. destruct Hm as (? & _ & Hm). injection Hm as <-. reflexivity. }
  rewrite T in H. rewrite mem_false in H by (rewrite (posix_lower n Hc); exact Hp).
  rewrite (sds_find_none names input) in H; try assumption.
  2:{ intros n' t c Hn' E. apply c_name_inj in E; [|apply capital_name; exact (config_capital _ _ _ _ C Hn')
        |apply capital_name; exact Hc].
      subst n'. assert (G := config_unique _ _ _ _ _ C Hn' Hx (eq_sym Ex)). subst x. discriminate. }
  apply bind_ok in H. destruct H as ([[[bits ct] sb'] si'] & H1 & H2). injection H2 as <- _ _. simpl.
  injection H1 as <- <- _ _. split; [reflexivity|].
  assert (L := lookup_here _ Hx). rewrite Ex in L.
  destruct (m_type k) as [r|r| | |s l|l e|n'] eqn:Et; simpl in He; try discriminate.
  - simpl in Hm. injection Hm as <-. destruct x; reflexivity.
  - injection He as ->. simpl in Hm. rewrite L in Hm.
    destruct x; try (injection Hm as <-; reflexivity).
    apply bind_ok in Hm. destruct Hm as (w & Hw & Hm). injection Hm as <-. exists w. auto.
Qed.
End Fields.

(** ** Direct mapping of integers *)

Lemma next_bit_size_small : forall w, (1 <= w <= 64)%Z ->
  smallest [8; 16; 32; 64]%Z (fun n => (w <= n)%Z) (next_bit_size w)
  /\ In (next_bit_size w, "uint" ++ str_of_Z (next_bit_size w) ++ "_t") UINT_TYPES
  /\ mem ("uint" ++ str_of_Z (next_bit_size w) ++ "_t") POSIX_DEFINED_TYPES = true.
Proof.
  intros w H.
  assert (E : next_bit_size w = (if w <=? 8 then 8 else if w <=? 16 then 16 else if w <=? 32 then 32 else 64)%Z).
  { unfold next_bit_size. destruct (w <=? 8)%Z eqn:E8; [reflexivity|].
    destruct (w <=? 16)%Z eqn:E16; [rewrite (Z.log2_up_unique w 4); [reflexivity|lia|simpl; lia]|].
    destruct (w <=? 32)%Z eqn:E32; [rewrite (Z.log2_up_unique w 5); [reflexivity|lia|simpl; lia]|].
    rewrite (Z.log2_up_unique w 6); [reflexivity|lia|simpl; lia]. }
  rewrite E.
  destruct (w <=? 8)%Z eqn:E8; [|destruct (w <=? 16)%Z eqn:E16; [|destruct (w <=? 32)%Z eqn:E32]];
    (split; [split; [simpl; tauto|]; split; [lia|]; intros m [<-|[<-|[<-|[<-|[]]]]] Hm; lia
            |split; [simpl; tauto|reflexivity]]).
Qed.

Lemma map_direct_unsigned : forall lo hi w, (0 <= lo <= hi)%Z -> least_width w hi -> (1 <= w <= 64)%Z ->
  exists n ct, smallest [8; 16; 32; 64]%Z (fun n => holds_unsigned n lo hi) n /\ In (n, ct) UINT_TYPES
  /\ exists si, map_direct (TInteger (Some (lo, hi)))
     = Ok (mkcmap (if existsb (Z.eqb w) [8; 16; 32; 64]%Z then None else Some w) ct false si).
Proof.
  intros lo hi w H Hw Hr. destruct (next_bit_size_small w Hr) as ((S1 & S2 & S3) & T & P).
  exists (next_bit_size w), ("uint" ++ str_of_Z (next_bit_size w) ++ "_t"). split.
  - assert (G : forall m, In m [8; 16; 32; 64]%Z -> (holds_unsigned m lo hi <-> (w <= m)%Z)).
    { intros m Hm. assert (Hm0 : (0 <= m)%Z) by (simpl in Hm; lia).
      rewrite unsigned_width by lia. destruct Hw as (W0 & W1 & W2). split.
      - intros X. apply W2; assumption.
      - intros X. apply Z.lt_le_trans with (2 ^ w)%Z; [exact W1|]. apply Z.pow_le_mono_r; lia. }
    split; [exact S1|]. split; [apply G; assumption|]. intros m Hm X. apply S3; [exact Hm|]. apply G; assumption.
  - split; [exact T|]. exists true. unfold map_direct. rewrite get_c_type_integer by lia.
    replace (0 <=? lo)%Z with true by lia. cbn [type_begin type_end get_bit_size bind].
    assert (E : bit_length hi = w) by (apply (least_width_unique hi); [apply bit_length_least; lia|exact Hw]).
    rewrite E. replace (negb (w <=? 0)%Z) with true by lia. cbn [assert bind]. rewrite P. reflexivity.
Qed.

(** ** Integer members *)

Lemma posix_integer : forall n lo hi, In n POSIX_INTEGER_NAMES -> posix_ok n (TInteger (Some (lo, hi))) ->
  exists w, (lo = - 2 ^ (w - 1) /\ hi = 2 ^ (w - 1) - 1 /\ In (w, lowerize (c_name n)) INT_TYPES)%Z
    \/ (lo = 0 /\ hi = 2 ^ w - 1 /\ In (w, lowerize (c_name n)) UINT_TYPES)%Z.
Proof.
  intros n lo hi Hn H. simpl in Hn.
  repeat (destruct Hn as [<-|Hn];
    [unfold posix_ok in H; simpl in H; destruct H as [H1 H2]; unfold QArith_base.Qeq in H1, H2; simpl in H1, H2;
     rewrite !Z.mul_1_r in H1, H2; subst lo hi;
     first [ exists 8%Z; solve [left; repeat split; simpl; tauto | right; repeat split; simpl; tauto]
           | exists 16%Z; solve [left; repeat split; simpl; tauto | right; repeat split; simpl; tauto]
           | exists 32%Z; solve [left; repeat split; simpl; tauto | right; repeat split; simpl; tauto]
           | exists 64%Z; solve [left; repeat split; simpl; tauto | right; repeat split; simpl; tauto] ]|]).
  destruct Hn.
Qed.

Lemma existsb_width : forall w, existsb (Z.eqb w) [8; 16; 32; 64]%Z = true <-> In w [8; 16; 32; 64]%Z.
Proof.
  intros w. rewrite existsb_exists. split.
  - intros (x & Hx & E). apply Z.eqb_eq in E. subst. exact Hx.
  - intros H. exists w. split; [exact H|]. apply Z.eqb_refl.
Qed.

Lemma least_width_full : forall w, (0 <= w)%Z -> least_width w (2 ^ w - 1).
Proof.
  intros w Hw. split; [exact Hw|]. split; [lia|]. intros w' Hw' H.
  destruct (Z.le_gt_cases w w') as [G|G]; [exact G|]. exfalso.
  assert (2 ^ w' < 2 ^ w)%Z by (apply Z.pow_lt_mono_r; lia). lia.
Qed.

Lemma unsigned_field : forall names input b bm d k fuel f lo hi w,
  config names input b -> In bm (b_modules b) -> In d (mod_defs (bm_mod bm)) -> In k (members_of d) ->
  field_for fuel (all_defs b) (simple_definition_list b bm) k f ->
  integer_type (definitions input) (m_type k) lo hi -> (0 <= lo)%Z -> least_width w hi -> (1 <= w <= 64)%Z ->
  exists n, smallest [8; 16; 32; 64]%Z (fun n => holds_unsigned n lo hi) n /\ In (n, cf_type f) UINT_TYPES
    /\ (In w [8; 16; 32; 64]%Z -> cf_bits f = None) /\ (~ In w [8; 16; 32; 64]%Z -> cf_bits f = Some w).
Proof.
  intros names input b bm d k fuel f lo hi w C Hbm Hd Hk Hf Hi Hlo Hw Hr.
  destruct (field_member names input b bm d k C Hbm Hd Hk) as (_ & _ & Rg & _).
  assert (DIRECT : (lo <= hi)%Z ->
    (exists cm, map_direct (TInteger (Some (lo, hi))) = Ok cm /\ cf_type f = cm_ctype cm /\ cf_bits f = cm_bits cm) ->
    exists n, smallest [8; 16; 32; 64]%Z (fun n => holds_unsigned n lo hi) n /\ In (n, cf_type f) UINT_TYPES
    /\ (In w [8; 16; 32; 64]%Z -> cf_bits f = None) /\ (~ In w [8; 16; 32; 64]%Z -> cf_bits f = Some w)).
  { intros Hlh (cm & Hcm & Et & Eb).
    destruct (map_direct_unsigned lo hi w ltac:(lia) Hw Hr) as (n & ct & S & T & si & E).
    rewrite E in Hcm. exists n. rewrite Et, Eb.
    destruct (existsb (Z.eqb w) [8; 16; 32; 64]%Z) eqn:X; injection Hcm as <-; cbn [cm_ctype cm_bits];
      (split; [exact S|]; split; [exact T|]).
    - split; [reflexivity|]. apply existsb_width in X. contradiction.
    - split; [|reflexivity]. intros G. apply existsb_width in G. congruence. }
  destruct Hi as [Et|(n & c & Et & Hin)].
  - apply DIRECT.
    + rewrite Et in Rg. exact (Forall_inv Rg).
    + destruct (field_direct names input b bm k fuel f C Hbm Hf) as (cm & Hcm & G); [rewrite Et; exact I|].
      rewrite Et in Hcm. exists cm. auto.
  - assert (A := config_accepted _ _ _ C). destruct (accepted_same _ _ A) as (_ & Hs & _).
    apply (same_simple _ _ n _ c Hs) in Hin.
    destruct (accepted_simple _ _ _ _ _ (proj1 C) A Hin) as (_ & Hr' & _ & Hp).
    assert (Hlh := Forall_inv Hr'). simpl in Hlh.
    assert (He : element (m_type k) = TName n) by (rewrite Et; reflexivity).
    destruct (field_simple names input b bm d k fuel f C Hbm Hd Hk Hf n _ c He Hin) as [F1 F2].
    destruct (in_dec string_dec n POSIX_INTEGER_NAMES) as [P|P]; [|apply DIRECT; auto].
    destruct (F1 P) as [-> ->].
    destruct (posix_integer n lo hi P Hp) as (x & [(L & _ & T)|(L & H & T)]).
    { exfalso. assert (G : (0 < 2 ^ (x - 1))%Z) by (simpl in T;
        repeat (destruct T as [T|T]; [injection T as <- _; reflexivity|]); destruct T). lia. }
    exists x. assert (X : In x [8; 16; 32; 64]%Z /\ w = x).
    { split.
      - simpl in T. repeat (destruct T as [T|T]; [injection T as <- _; simpl; tauto|]). destruct T.
      - apply (least_width_unique hi); [exact Hw|]. subst hi.
        simpl in T; repeat (destruct T as [T|T]; [injection T as <- _; apply least_width_full; lia|]); destruct T. }
    destruct X as [X1 X2]. subst x. split; [|split; [exact T|split; [reflexivity|contradiction]]].
    destruct (map_direct_unsigned lo hi w ltac:(lia) Hw Hr) as (n' & ct & S & _).
    assert (n' = w); [|subst n'; exact S].
    destruct S as (S1 & S2 & S3). apply Z.le_antisymm.
    + apply S3; [exact X1|]. intros v Hv. split; [lia|]. destruct Hw as (_ & W & _). lia.
    + destruct Hw as (_ & _ & W). apply W; [simpl in S1; lia|]. apply (S2 hi). lia.
Qed.

Lemma map_direct_signed : forall lo hi w, (lo <= hi)%Z -> (lo < 0)%Z ->
  get_bit_size A_INT (Some (NInt lo)) (Some (NInt hi)) = Ok w ->
  map_direct (TInteger (Some (lo, hi))) = Ok (mkcmap None "int" false false).
Proof.
  intros lo hi w H Hlo Hw. unfold map_direct. rewrite get_c_type_integer by exact H.
  replace (0 <=? lo)%Z with false by lia. cbn [type_begin type_end]. rewrite Hw. cbn [bind].
  assert (G := signed_size_spec lo hi H). rewrite Hw in G. destruct G as (G & _).
  replace (negb (w <=? 0)%Z) with true by (simpl in G; lia). reflexivity.
Qed.

Lemma qval_too_wide : forall lo hi w m e, (lo <= hi)%Z ->
  get_bit_size A_INT (Some (NInt lo)) (Some (NInt hi)) = Ok w ->
  QArith_base.Qeq (QArith_base.inject_Z lo) (qval true m e) -> (2 ^ 52 <= m)%N -> (12 <= e)%Z -> False.
Proof.
  intros lo hi w m e H Hw Hq Hm He. rewrite qval_signed, <- pow2_Z in Hq by lia.
  rewrite <- QArith_base.inject_Z_mult in Hq. apply (proj1 (QArith_base.inject_Z_injective _ _)) in Hq.
  assert (G := signed_size_spec lo hi H). rewrite Hw in G. destruct G as (G1 & G2 & _).
  specialize (G2 lo ltac:(lia)).
  assert (B : (2 ^ (w - 1) <= 2 ^ 63)%Z) by (apply Z.pow_le_mono_r; [reflexivity|simpl in G1; lia]).
  unfold signed in Hq.
  assert (P : (2 ^ 12 <= 2 ^ e)%Z) by (apply Z.pow_le_mono_r; lia).
  assert (M : (2 ^ 52 <= Z.of_N m)%Z)
    by (change (2 ^ 52)%Z with (Z.of_N (2 ^ 52)%N); apply N2Z.inj_le; exact Hm).
  assert (Q : (2 ^ 52 * 2 ^ 12 <= Z.of_N m * 2 ^ e)%Z) by (apply Z.mul_le_mono_nonneg; lia).
  rewrite Z.mul_opp_l in Hq. revert G2 B Q Hq. generalize (Z.of_N m * 2 ^ e)%Z (2 ^ (w - 1))%Z.
  intros x y. change (2 ^ 63)%Z with 9223372036854775808%Z.
  change (2 ^ 52 * 2 ^ 12)%Z with 18446744073709551616%Z. lia.
Qed.

Lemma signed_field : forall names input b bm d k fuel fuel' f lo hi w,
  config names input b -> In bm (b_modules b) -> In d (mod_defs (bm_mod bm)) -> In k (members_of d) ->
  field_for fuel (all_defs b) (simple_definition_list b bm) k f ->
  integer_type (definitions input) (m_type k) lo hi -> (lo < 0)%Z ->
  member_size (S fuel') (all_defs b) (m_type k) = Ok w ->
  cf_bits f = None
  /\ ((exists n, m_type k = TName n /\ posix_bounds n <> None) -> In (w, cf_type f) INT_TYPES)
  /\ ((forall n, m_type k = TName n -> posix_bounds n = None) -> cf_type f = "int").
Proof.
  intros names input b bm d k fuel fuel' f lo hi w C Hbm Hd Hk Hf Hi Hlo Hw.
  assert (A := config_accepted _ _ _ C).
  assert (MT : member_type (definitions input) (m_type k)).
  { destruct (accepted_same _ _ A) as (_ & Hs & _).
    assert (Hd' : In d (all_defs b)) by (apply in_all_defs; eauto).
    destruct (Forall2_in_r _ _ _ _ _ _ Hs Hd') as (d0 & Hd0 & E).
    exists d0, k. split; [exact Hd0|]. rewrite <- (same_definition_members _ _ E). auto. }
  destruct (integer_member_size input b (m_type k) lo hi fuel' (proj1 C) A MT Hi) as [Hlh E].
  rewrite Hw in E. rewrite base_size_signed in E by assumption. symmetry in E.
  assert (M := map_direct_signed lo hi w Hlh Hlo E).
  destruct Hi as [Et|(n & c & Et & Hin)].
  - destruct (field_direct names input b bm k fuel f C Hbm Hf) as (cm & Hcm & T1 & T2); [rewrite Et; exact I|].
    rewrite Et, M in Hcm. injection Hcm as <-. simpl in *.
    split; [exact T2|]. split; [|auto]. intros (n & X & _). congruence.
  - destruct (accepted_same _ _ A) as (_ & Hs & _).
    apply (same_simple _ _ n _ c Hs) in Hin.
    destruct (accepted_simple _ _ _ _ _ (proj1 C) A Hin) as (_ & _ & _ & Hp).
    assert (He : element (m_type k) = TName n) by (rewrite Et; reflexivity).
    destruct (field_simple names input b bm d k fuel f C Hbm Hd Hk Hf n _ c He Hin) as [F1 F2].
    destruct (in_dec string_dec n POSIX_INTEGER_NAMES) as [P|P].
    + destruct (F1 P) as [T B]. split; [exact B|]. split.
      * intros _. destruct (posix_integer n lo hi P Hp) as (x & [(L & H & I)|(L & _ & _)]); [|lia].
        rewrite T. assert (X : x = w); [|subst x; exact I].
        simpl in I. repeat (destruct I as [I|I];
          [injection I as <- _; subst lo hi; vm_compute in E; injection E as <-; reflexivity|]). destruct I.
      * intros G. specialize (G n Et). exfalso. simpl in P.
        repeat (destruct P as [<-|P]; [discriminate|]). destruct P.
    + destruct (F2 P) as (cm & Hcm & T1 & T2). rewrite M in Hcm. injection Hcm as <-. simpl in *.
      split; [exact T2|]. split; [|auto]. intros (n' & X & Y). exfalso. rewrite Et in X. injection X as <-.
      (* the remaining names are Float and Double, whose range has no size *)
      destruct (string_dec n "Float") as [->|N1].
      { destruct Hp as [Hp _]. apply (qval_too_wide lo hi w 8999725064576941 75); try assumption; lia. }
      destruct (string_dec n "Double") as [->|N2].
      { destruct Hp as [Hp _]. apply (qval_too_wide lo hi w 9007199254740991 971); try assumption; lia. }
      apply Y. unfold posix_bounds.
      assert (Z8 : forall s, In s POSIX_INTEGER_NAMES -> String.eqb n s = false).
      { intros s Hs'. apply String.eqb_neq. intros ->. contradiction. }
      rewrite !Z8 by (simpl; tauto).
      rewrite (proj2 (String.eqb_neq _ _) N1), (proj2 (String.eqb_neq _ _) N2). reflexivity.
Qed.

(** The range 0..0 has no C field. *)
Lemma zero_field : forall names input b bm d k fuel f,
  config names input b -> In bm (b_modules b) -> In d (mod_defs (bm_mod bm)) -> In k (members_of d) ->
  field_for fuel (all_defs b) (simple_definition_list b bm) k f ->
  integer_type (definitions input) (m_type k) 0 0 -> False.
Proof.
  intros names input b bm d k fuel f C Hbm Hd Hk Hf Hi.
  assert (M : map_direct (TInteger (Some (0, 0)%Z)) = Err ValueErr) by reflexivity.
  destruct Hi as [Et|(n & c & Et & Hin)].
  - destruct (field_direct names input b bm k fuel f C Hbm Hf) as (cm & Hcm & T1 & T2); [rewrite Et; exact I|].
    rewrite Et, M in Hcm. discriminate.
  - assert (A := config_accepted _ _ _ C). destruct (accepted_same _ _ A) as (_ & Hs & _).
    apply (same_simple _ _ n _ c Hs) in Hin.
    destruct (accepted_simple _ _ _ _ _ (proj1 C) A Hin) as (_ & _ & _ & Hp).
    assert (He : element (m_type k) = TName n) by (rewrite Et; reflexivity).
    destruct (field_simple names input b bm d k fuel f C Hbm Hd Hk Hf n _ c He Hin) as [F1 F2].
    destruct (in_dec string_dec n POSIX_INTEGER_NAMES) as [P|P].
    + destruct (posix_integer n 0 0 P Hp) as (x & [(L & H & I)|(L & H & I)]);
        simpl in I; repeat (destruct I as [I|I]; [injection I as <- _; vm_compute in H; discriminate|]); destruct I.
    + destruct (F2 P) as (cm & Hcm & _). rewrite M in Hcm. discriminate.
Qed.

(** ** The struct of a sequence *)

Lemma Forall2_nth : forall A B (R : A -> B -> Prop) l l' i x,
  Forall2 R l l' -> nth_error l i = Some x -> exists y, nth_error l' i = Some y /\ R x y.
Proof.
  intros A B R l l' i x H. revert i. induction H as [|a b' l l' Hab _ IH]; intros [|i] E; simpl in *; try discriminate.
  - injection E as <-. eauto.
  - apply IH. exact E.
Qed.

Lemma struct_fields : forall names input b bm fuel c n cm l cm' fields,
  config names input b -> In bm (b_modules b) -> generated fuel b bm c ->
  In (DSequence n cm l) (mod_defs (bm_mod bm)) -> In (CStruct cm' (c_name n) fields) (cd_data c) ->
  Forall2 (field_for fuel (all_defs b) (simple_definition_list b bm)) l fields.
Proof.
  intros names input b bm fuel c n cm l cm' fields C Hbm G Hd Hs.
  destruct (generated_decl_inv _ _ _ _ _ G Hs) as (d' & Hd' & D).
  assert (E : exists n' c', d' = DSequence n' c' (members_of d') /\ c_name n' = c_name n
     /\ Forall2 (field_for fuel (all_defs b) (simple_definition_list b bm)) (members_of d') fields).
  { inversion D; subst; eauto. }
  destruct E as (n' & c' & E & En & F).
  assert (A1 : In d' (all_defs b)) by (apply in_all_defs; eauto).
  assert (A2 : In (DSequence n cm l) (all_defs b)) by (apply in_all_defs; eauto).
  assert (X : n' = n).
  { apply c_name_inj; [| |exact En]; apply capital_name.
    - assert (Y := config_capital _ _ _ _ C A1). rewrite E in Y. exact Y.
    - exact (config_capital _ _ _ _ C A2). }
  assert (Y : d' = DSequence n cm l) by (apply (config_unique _ _ _ _ _ C A1 A2); rewrite E; exact X).
  rewrite Y in F. exact F.
Qed.

Lemma struct_field : forall names input b bm fuel c n cm l cm' fields i k,
  config names input b -> In bm (b_modules b) -> generated fuel b bm c ->
  In (DSequence n cm l) (mod_defs (bm_mod bm)) -> In (CStruct cm' (c_name n) fields) (cd_data c) ->
  nth_error l i = Some k ->
  exists f, nth_error fields i = Some f /\ In k l
    /\ field_for fuel (all_defs b) (simple_definition_list b bm) k f.
Proof.
  intros names input b bm fuel c n cm l cm' fields i k C Hbm G Hd Hs Hk.
  assert (F := struct_fields _ _ _ _ _ _ _ _ _ _ _ C Hbm G Hd Hs).
  destruct (Forall2_nth _ _ _ _ _ _ _ F Hk) as (f & H1 & H2). exists f. split; [exact H1|].
  split; [eapply nth_error_In; exact Hk|exact H2].
Qed.

(** ** Statements of the properties *)

Lemma unsigned_struct_field : forall names input b bm fuel c n cm l cm' fields i k lo hi w,
  Forall (fun m => grammatical m = true) input -> build_from_config names input = Ok b ->
  In bm (b_modules b) -> generated fuel b bm c ->
  In (DSequence n cm l) (mod_defs (bm_mod bm)) -> In (CStruct cm' (c_name n) fields) (cd_data c) ->
  nth_error l i = Some k ->
  integer_type (definitions input) (m_type k) lo hi -> (0 <= lo)%Z -> least_width w hi -> (1 <= w <= 64)%Z ->
  exists f size, nth_error fields i = Some f /\ cf_name f = c_name (m_key k) /\ cf_array f = None
    /\ In (size, cf_type f) UINT_TYPES
    /\ smallest [8; 16; 32; 64]%Z (fun s => holds_unsigned s lo hi) size
    /\ (In w [8; 16; 32; 64]%Z -> cf_bits f = None) /\ (~ In w [8; 16; 32; 64]%Z -> cf_bits f = Some w).
Proof.
  intros names input b bm fuel c n cm l cm' fields i k lo hi w Hg H Hbm G Hd Hs Hk Hi Hlo Hw Hr.
  assert (C : config names input b) by (split; assumption).
  destruct (struct_field _ _ _ _ _ _ _ _ _ _ _ _ _ C Hbm G Hd Hs Hk) as (f & Hf & Hk' & F).
  destruct (unsigned_field names input b bm _ k fuel f lo hi w C Hbm Hd Hk' F Hi Hlo Hw Hr) as (s & S1 & S2 & S3).
  destruct (field_key b bm k fuel f F) as (K1 & _ & K3).
  exists f, s. split; [exact Hf|]. split; [exact K1|]. split; [|auto].
  rewrite K3. destruct Hi as [->|(n' & c' & -> & _)]; reflexivity.
Qed.

Lemma signed_struct_field : forall names input b bm fuel fuel' c n cm l cm' fields i k lo hi w,
  Forall (fun m => grammatical m = true) input -> build_from_config names input = Ok b ->
  In bm (b_modules b) -> generated fuel b bm c ->
  In (DSequence n cm l) (mod_defs (bm_mod bm)) -> In (CStruct cm' (c_name n) fields) (cd_data c) ->
  nth_error l i = Some k ->
  integer_type (definitions input) (m_type k) lo hi -> (lo < 0)%Z ->
  member_size (S fuel') (all_defs b) (m_type k) = Ok w ->
  exists f, nth_error fields i = Some f /\ cf_name f = c_name (m_key k) /\ cf_array f = None
    /\ cf_bits f = None
    /\ ((exists n, m_type k = TName n /\ posix_bounds n <> None) -> In (w, cf_type f) INT_TYPES)
    /\ ((forall n, m_type k = TName n -> posix_bounds n = None) -> cf_type f = "int").
Proof.
  intros names input b bm fuel fuel' c n cm l cm' fields i k lo hi w Hg H Hbm G Hd Hs Hk Hi Hlo Hw.
  assert (C : config names input b) by (split; assumption).
  destruct (struct_field _ _ _ _ _ _ _ _ _ _ _ _ _ C Hbm G Hd Hs Hk) as (f & Hf & Hk' & F).
  assert (S := signed_field names input b bm _ k fuel fuel' f lo hi w C Hbm Hd Hk' F Hi Hlo Hw).
  destruct (field_key b bm k fuel f F) as (K1 & _ & K3).
  exists f. split; [exact Hf|]. split; [exact K1|]. split; [|exact S].
  rewrite K3. destruct Hi as [->|(n' & c' & -> & _)]; reflexivity.
Qed.

Lemma zero_range_fails : forall names input b bm fuel n cm l k,
  Forall (fun m => grammatical m = true) input -> build_from_config names input = Ok b ->
  In bm (b_modules b) -> In (DSequence n cm l) (mod_defs (bm_mod bm)) -> In k l ->
  integer_type (definitions input) (m_type k) 0 0 -> forall c, ~ generated fuel b bm c.
Proof.
  intros names input b bm fuel n cm l k Hg H Hbm Hd Hk Hi c G.
  assert (C : config names input b) by (split; assumption).
  destruct (generated_struct _ _ _ _ _ _ _ G Hd) as (fields & _ & F).
  destruct (Forall2_in_l _ _ _ _ _ _ F Hk) as (f & _ & Ff).
  exact (zero_field names input b bm _ k fuel f C Hbm Hd Hk Ff Hi).
Qed.
