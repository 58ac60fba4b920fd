(** * Proofs: when a generated C source compiles *)
From Coq Require Import List String ZArith Lia Bool Ascii Permutation.
Import ListNotations.
From Verif Require Import Base PyNum PyStr Ast Bundle CCommon GenC Main.
From Verif Require Import Spec_Grammar Spec_Check Spec_Bundle Spec_Gen Spec_Text Spec_Failures Spec_Inputs Spec_C Spec_Header Spec_Valid Spec_Init Spec_Place Spec_Unit Spec_Compile.
From Verif Require Import Str_proofs Text_proofs Lib_proofs Bundle_proofs Gen_proofs Field_proofs Name_proofs C_proofs Header3_proofs Valid_proofs Init_proofs Inputs_proofs Place_proofs Order_files_proofs Unit_proofs Unit2_proofs.
Open Scope string_scope.
Open Scope list_scope.

Lemma rounds_perm : forall m order, in_rounds m order -> Permutation order (mod_defs m).
Proof.
  intros m order (rounds & places & _ & P & _ & E).
  assert (F : forall l : list definition, flat_map (fun x : option definition => match x with Some d => [d] | None => [] end) (map Some l) = l)
    by (induction l as [|x l IH]; [reflexivity|]; cbn; rewrite IH; reflexivity).
  assert (S : map Some (mod_defs m) = map (nth_error (mod_defs m)) (seq 0 (length (mod_defs m)))).
  { generalize (mod_defs m) as l. induction l as [|x l IH]; [reflexivity|]. cbn [length seq map]. f_equal.
    rewrite <- seq_shift, map_map. exact IH. }
  rewrite <- (F order), E. apply Permutation_trans with (flat_map (fun x : option definition => match x with Some d => [d] | None => [] end) (map Some (mod_defs m)));
    [|rewrite F; apply Permutation_refl].
  rewrite S. apply flat_map_perm, Permutation_map, P.
Qed.

Lemma ends_dec : forall order, ends_with_clause order \/ ~ ends_with_clause order.
Proof.
  intros order. induction order as [|d l IH] using rev_ind; [right; intros (a & d & b & E & _); destruct a; discriminate|].
  destruct (def_clauses d) as [|x r] eqn:C.
  - destruct (is_simple d) eqn:S.
    + destruct IH as [(a & y & b & -> & Hy & Hb)|IH].
      * left. exists a, y, (b ++ [d]). split; [rewrite <- app_assoc; reflexivity|]. split; [exact Hy|].
        apply Forall_app. auto.
      * right. intros (a & y & b & Q & Hy & Hb). destruct b as [|z b _] using rev_ind.
        -- apply app_inj_tail in Q. destruct Q as [_ <-]. congruence.
        -- change (y :: b ++ [z]) with ((y :: b) ++ [z]) in Q. rewrite app_assoc in Q. apply app_inj_tail in Q. destruct Q as [-> _].
           apply IH. exists a, y, b. split; [reflexivity|]. split; [exact Hy|]. apply Forall_app in Hb. tauto.
    + right. intros (a & y & b & Q & Hy & Hb). destruct b as [|z b _] using rev_ind.
      * apply app_inj_tail in Q. destruct Q as [_ <-]. congruence.
      * change (y :: b ++ [z]) with ((y :: b) ++ [z]) in Q. rewrite app_assoc in Q. apply app_inj_tail in Q. destruct Q as [_ <-].
        apply Forall_app in Hb. destruct Hb as [_ Hb]. inversion Hb; congruence.
  - left. exists l, d, []. split; [reflexivity|]. split; [congruence|constructor].
Qed.

(** ** Words *)
Lemma words_of : forall n k w text, is_name_capital n = true -> initialises (n, k, w) text ->
  type_word text = c_name n /\ variable_word text = lowerize (c_name n).
Proof.
  intros n k w text C (body & sub & -> & _). unfold type_word, variable_word.
  assert (S : all_chars (fun c => negb (Ascii.eqb c " ")) (c_name n) = true) by (apply solid_no_space, c_name_solid, capital_name, C).
  assert (S' : all_chars (fun c => negb (Ascii.eqb c " ")) (lowerize (c_name n)) = true).
  { rewrite lowerize_c_name by exact C. apply solid_no_space, c_name_solid, lower_name, lowerize_name, C. }
  change (" " ++ lowerize (c_name n) ++ " = {" ++ NL ++ body ++ "};" ++ NL)%string
    with (String " " (lowerize (c_name n) ++ String " " ("= {" ++ NL ++ body ++ "};" ++ NL)))%string.
  rewrite split_on_solid by exact S. cbn [nth]. rewrite split_on_solid by exact S'. auto.
Qed.

(** ** One module on its own *)
Section alone.
Variables (names : list string) (fuel : nat) (input : list module) (fs fs' : folder) (m : module).
Hypothesis Hg : Forall (fun m => grammatical m = true) input.
Hypothesis HR : run fuel (GenerateC names) input fs = (fs', Ok tt).
Hypothesis Hm : In m input.
Hypothesis Hq : quiet m.
Hypothesis Ni : mod_imports m = [].
Hypothesis NP : forall d, In d (mod_defs m) -> is_simple d = false -> ~ In (def_name d) (map fst POSIX_NAMES).
Let HC : forall names, config_command names (GenerateC names) := fun _ => or_intror (or_introl eq_refl).
Let one := [mod_name m].

Lemma alone_runs : exists fuel1 fs1, run fuel1 (GenerateC one) [m] [] = (fs1, Ok tt).
Proof.
  assert (S : self_contained [m] input).
  { split; [intros x [<-|[]]; exact Hm|repeat constructor; intros []|]. intros x it [<-|[]] Hit. rewrite Ni in Hit. destruct Hit. }
  destruct (part_succeeds one names (GenerateC one) (GenerateC names) [m] input fuel fs (HC one) (HC names) Logic.I Hg S) as (F & R).
  - repeat constructor. intros [].
  - split; apply incl_refl.
  - rewrite HR. reflexivity.
  - specialize (R F [] (le_n F)). destruct (run F (GenerateC one) [m] []) as [fs1 r] eqn:E. cbn [snd] in R. subst r. eauto.
Qed.

Lemma header_same : forall fuel1 fs1, run fuel1 (GenerateC one) [m] [] = (fs1, Ok tt) ->
  folder_get fs1 (header_name (GenerateC one) (mod_name m)) = folder_get fs' (header_name (GenerateC names) (mod_name m)).
Proof.
  intros fuel1 fs1 R.
  destruct (others_same one names (GenerateC one) (GenerateC names) [m] input fuel1 fuel [] fs fs1 fs' m (c_name (mod_name m) ++ ".h")%string) as (text & A & B); try exact Logic.I; auto.
  - intros x [<-|[]]. exact Hm.
  - left. reflexivity.
  - left. reflexivity.
  - exact (eq_trans A (eq_sym B)).
Qed.

Lemma variables_words : forall order texts, Permutation order (mod_defs m) -> Forall2 initialises (flat_map def_clauses order) texts ->
  map (fun t => XVar (type_word t) (variable_word t)) texts = variables_said (GenerateC names) order.
Proof.
  intros order texts P F. cbn [variables_said].
  assert (C : forall x, In x (flat_map def_clauses order) -> is_name_capital (fst (fst x)) = true).
  { intros x Hx. apply in_flat_map in Hx. destruct Hx as (d & Hd & Hx). apply (Permutation_in _ P) in Hd.
    assert (N : fst (fst x) = def_name d).
    { destruct d; simpl in Hx; try contradiction. apply in_flat_map in Hx. destruct Hx as (k & _ & Hx).
      destruct (m_with k); [|destruct Hx]. destruct Hx as [<-|[]]. reflexivity. }
    rewrite N. apply (caps (definitions input)); [apply grammatical_definitions, Hg|]. apply in_flat_map. eauto. }
  revert C F. generalize (flat_map def_clauses order) as l. intros l C F.
  induction F as [|[[n k] w] t l texts H F IH]; [reflexivity|]. cbn [map].
  destruct (words_of n k w t (C _ (or_introl eq_refl)) H) as [-> ->]. rewrite IH; [reflexivity|]. intros y Hy. apply C. right. exact Hy.
Qed.

Lemma compiles_alone : forall order texts, Permutation order (mod_defs m) -> Forall2 initialises (flat_map def_clauses order) texts ->
  (compiles fs' (includes_of (GenerateC names) [m]) texts <->
   distinct_names (GenerateC names) (mod_defs m) /\ Forall (fit_for_c (GenerateC names) (mod_defs m)) (mod_defs m)
   /\ Forall (member_clause_fits (mod_defs m)) (flat_map def_clauses (mod_defs m))).
Proof.
  intros order texts P F. destruct alone_runs as (fuel1 & fs1 & R1). assert (HS := header_same fuel1 fs1 R1).
  assert (G1 : Forall (fun m => grammatical m = true) [m]).
  { constructor; [|constructor]. rewrite Forall_forall in Hg. apply Hg, Hm. }
  assert (Q1 : Forall quiet [m]) by (constructor; [exact Hq|constructor]).
  assert (D1 : definitions [m] = mod_defs m) by (unfold definitions; cbn [flat_map]; apply app_nil_r).
  destruct (header_declares one (GenerateC one) fuel1 [m] [] fs1 m (HC one) G1 R1 (or_introl eq_refl) Hq)
    as (text & h & ho & dss & std & T & H & HG & I1 & S1 & E & Ph & _ & Fh).
  assert (SS : Forall (fun i => exists n, i = System n) std) by (destruct S1 as [(-> & _)|(-> & _)]; repeat constructor; eauto).
  assert (Hh : header_of (GenerateC one) fs1 m h) by (exists text; auto).
  assert (U : forall h', header_of (GenerateC one) fs1 m h' -> h' = h).
  { intros h' (t' & T' & H'). congruence. }
  assert (R : forall hs g, reads fs' [] (includes_of (GenerateC names) [m]) hs g <-> hs = [h] /\ g = [h_guard h]).
  { assert (RR : reads fs' [] (includes_of (GenerateC names) [m]) [h] [h_guard h]).
    { cbn [includes_of map]. apply (read_first fs' _ text h [] [] [] [h_guard h] [] [h_guard h]).
      - rewrite <- HS. exact T.
      - exact H.
      - intros [].
      - rewrite I1, Ni. cbn [map]. apply reads_systems; [exact SS|constructor].
      - constructor. }
    intros hs g. split; [|intros [-> ->]; exact RR]. intros X. apply (reads_unique _ _ _ _ _ RR) in X. destruct X as [-> ->]. auto. }
  assert (V := valid_unit_iff one (GenerateC one) fuel1 [m] [] fs1 (HC one) G1 R1).
  rewrite D1 in V. specialize (V NP [m] [h] (incl_refl _) Q1).
  assert (ND : NoDup [m]) by (repeat constructor; intros []).
  specialize (V ND (Forall2_cons _ _ Hh (Forall2_nil _))). rewrite D1 in V.
  assert (IF : imports_first [m] [m]).
  { intros a x b Ex im Him (it & Hit & _). destruct a as [|y a]; [|destruct a; discriminate]. injection Ex as <- <-. rewrite Ni in Hit. destruct Hit. }
  specialize (V IF).
  assert (CM : distinct_names (GenerateC one) (mod_defs m) <-> distinct_names (GenerateC names) (mod_defs m)).
  { unfold distinct_names, has_variable. split; intros (A & B & C); (split; [exact A|split]).
    - intros d Hd Hv. apply (B d Hd). destruct d; auto. destruct Hv as [_ Hv]. split; eauto.
    - intros _. apply C. eauto.
    - intros d Hd Hv. apply (B d Hd). destruct d; auto. destruct Hv as [_ Hv]. split; eauto.
    - intros _. apply C. eauto. }
  assert (FM : Forall (fit_for_c (GenerateC one) (mod_defs m)) (mod_defs m) <-> Forall (fit_for_c (GenerateC names) (mod_defs m)) (mod_defs m)).
  { assert (HV : forall a b d, has_variable (GenerateC a) d -> has_variable (GenerateC b) d).
    { intros a b d X. destruct d; auto. destruct X as [_ X]. split; eauto. }
    rewrite !Forall_forall. split; intros X d Hd; destruct (X d Hd) as (A & B & (C1 & C2) & D); (split; [exact A|split; [exact B|split; [|exact D]]]);
      (split; [exact C1|]); intros Y; apply C2; revert Y; apply HV. }
  rewrite CM, FM in V.
  (* the structs and enumerations of the header *)
  assert (St : forall s fields, struct_in [h] s fields <-> declares_struct (GenerateC one) fs1 [m] s fields).
  { intros s fields. unfold struct_in, declares_struct. cbn [flat_map]. rewrite app_nil_r. split.
    - intros (pk & X). exists m, h, pk. split; [left; reflexivity|]. auto.
    - intros (m' & h' & pk & [<-|[]] & X & Y). apply U in X. subst h'. eauto. }
  assert (En : forall s, enum_in [h] s <-> declares_enum (GenerateC one) fs1 [m] s).
  { intros s. unfold enum_in, declares_enum. cbn [flat_map]. rewrite app_nil_r. split.
    - intros (pk & its & X). exists m, h, pk, its. split; [left; reflexivity|]. auto.
    - intros (m' & h' & pk & its & [<-|[]] & X & Y). apply U in X. subst h'. eauto. }
  assert (VF : forall x t, In x (flat_map def_clauses order) -> initialises x t ->
    (variable_fits (struct_in [h]) (enum_in [h]) t <-> member_clause_fits (mod_defs m) x)).
  { intros x t Hx Ht. apply in_flat_map in Hx. destruct Hx as (d & Hd & Hx). apply (Permutation_in _ P) in Hd.
    destruct d as [n c l|n c l|n c l|n t' c]; simpl in Hx; try contradiction. apply in_flat_map in Hx. destruct Hx as (k & Hk & Hx).
    destruct (m_with k) as [w|] eqn:Ew; [|destruct Hx]. destruct Hx as [<-|[]].
    assert (ST := struct_declared one fuel1 [m] [] fs1 G1 R1 Q1). assert (EN := enum_declared one fuel1 [m] [] fs1 G1 R1 Q1).
    assert (EX := declared_struct one fuel1 [m] [] fs1 G1 R1 Q1). rewrite D1 in ST, EX.
    eapply (variable_fits_iff (mod_defs m) (struct_in [h]) (enum_in [h])) with (m := k); try eassumption; auto.
    - rewrite <- D1. exact (bv_names _ _ (Valid_proofs.run_valid one _ fuel1 [m] [] fs1 (HC one) G1 R1)).
    - rewrite <- D1. apply grammatical_definitions, G1.
    - intros s fields X. apply ST, St, X.
    - intros s. rewrite En, EN, D1. reflexivity.
    - intros n' c' ms' X. destruct (EX n' c' ms' X) as (fields & Y & Z). exists fields. split; [apply St, Y|exact Z]. }
  assert (VFs : Forall (variable_fits (struct_in [h]) (enum_in [h])) texts <-> Forall (member_clause_fits (mod_defs m)) (flat_map def_clauses (mod_defs m))).
  { assert (PC : Permutation (flat_map def_clauses order) (flat_map def_clauses (mod_defs m))) by (apply flat_map_perm, P).
    assert (Q : Forall (member_clause_fits (mod_defs m)) (flat_map def_clauses (mod_defs m)) <-> Forall (member_clause_fits (mod_defs m)) (flat_map def_clauses order)).
    { split; intros X; [exact (Permutation_Forall (Permutation_sym PC) X)|exact (Permutation_Forall PC X)]. }
    rewrite Q. clear Q PC. revert VF F. generalize (flat_map def_clauses order) as l. intros l VF F.
    induction F as [|x t l texts X F IH]; [split; constructor|]. rewrite !Forall_cons_iff, IH, (VF x t); auto; [reflexivity|left; reflexivity|].
    intros y t' Hy. apply VF. right. exact Hy. }
  assert (VS : Permutation (map (fun t => XVar (type_word t) (variable_word t)) texts) (variables_said (GenerateC one) ho)).
  { rewrite (variables_words order texts P F). cbn [variables_said]. apply Permutation_map, flat_map_perm.
    apply Permutation_trans with (mod_defs m); [exact P|apply Permutation_sym, Ph]. }
  unfold compiles. split.
  - intros (hs & g & X & A & B & _). apply R in X. destruct X as [-> _]. apply V in A. apply VFs in B. tauto.
  - intros (A & B & C). exists [h], [h_guard h]. split; [apply R; auto|]. assert (VU := proj2 V (conj A B)). split; [exact VU|].
    split; [apply VFs, C|]. split.
    + destruct VU as (_ & N & _). cbn [flat_map] in N. rewrite app_nil_r, E, flat_map_app in N.
      assert (N2 : NoDup (flat_map scope_names (variables_said (GenerateC one) ho))).
      { revert N. generalize (flat_map scope_names (concat dss)) as l. induction l; [auto|]. intros N. inversion N; auto. }
      apply (Permutation_NoDup (flat_map_perm _ _ scope_names _ _ (Permutation_sym VS))) in N2.
      replace (map variable_word texts) with (flat_map scope_names (map (fun t => XVar (type_word t) (variable_word t)) texts)); [exact N2|].
      clear. induction texts as [|t l IH]; [reflexivity|]. cbn. rewrite IH. reflexivity.
    + intros t Ht _. cbn [flat_map]. rewrite app_nil_r, E. apply in_or_app. right. apply (Permutation_in _ VS).
      apply (in_map (fun t => XVar (type_word t) (variable_word t))). exact Ht.
Qed.
End alone.

Lemma source_compiles : forall names fuel input fs fs' m, Forall (fun m => grammatical m = true) input ->
  run fuel (GenerateC names) input fs = (fs', Ok tt) -> In m input -> quiet m ->
  (forall d, In d (mod_defs m) -> is_simple d = false -> ~ In (def_name d) (map fst POSIX_NAMES)) ->
  (forall m', In m' input -> folder_get fs (c_name (mod_name m')) = None) ->
  exists order includes texts, in_rounds m order
    /\ (ends_with_clause order /\ includes = [Local (c_name (mod_name m) ++ ".h")%string] \/ ~ ends_with_clause order /\ includes = [])
    /\ folder_get fs' (c_name (mod_name m) ++ ".c") = Some (source_head m ++ include_lines includes ++ String.concat "" texts)%string
    /\ Forall2 initialises (flat_map def_clauses order) texts
    /\ (compiles fs' includes texts <->
        flat_map def_clauses (mod_defs m) = []
        \/ (ends_with_clause order /\ mod_imports m = []
            /\ distinct_names (GenerateC names) (mod_defs m)
            /\ Forall (fit_for_c (GenerateC names) (mod_defs m)) (mod_defs m)
            /\ Forall (member_clause_fits (mod_defs m)) (flat_map def_clauses (mod_defs m)))).
Proof.
  intros names fuel input fs fs' m Hg HR Hm Hq NP Em.
  destruct (sources_in_rounds names fuel input fs fs' m Hg HR Hm) as (order & inc & texts & IR & F & I1 & I2 & E).
  assert (P := rounds_perm m order IR).
  assert (PC : Permutation (flat_map def_clauses order) (flat_map def_clauses (mod_defs m))) by (apply flat_map_perm, P).
  assert (L : length texts = length (flat_map def_clauses (mod_defs m))).
  { rewrite <- (Permutation_length PC). symmetry. exact (Forall2_length _ _ _ _ _ F). }
  destruct (ends_dec order) as [X|X].
  - exists order, (includes_of (GenerateC names) [m]), texts. split; [exact IR|]. split; [left; split; [exact X|reflexivity]|]. split.
    { rewrite E, (I1 X). cbn [include_lines includes_of map String.concat header_name]. rewrite <- !string_app_assoc. reflexivity. }
    split; [exact F|].
    assert (NE : flat_map def_clauses (mod_defs m) <> []).
    { destruct X as (a & d & b & Eo & Hd & _). intros Y. rewrite Y in PC. apply Permutation_sym, Permutation_nil in PC.
      rewrite Eo, flat_map_app in PC. apply app_eq_nil in PC. destruct PC as [_ PC]. cbn [flat_map] in PC. apply app_eq_nil in PC. tauto. }
    split.
    + intros C. right. split; [exact X|].
      assert (NI : mod_imports m = []).
      { destruct C as (hs & g & R & _).
        assert (Y := proj1 (c_unit_iff names (GenerateC names) fuel input fs fs' (or_intror (or_introl eq_refl)) ltac:(discriminate) Hg HR Em [m]
          ltac:(intros x [<-|[]]; exact Hm) ltac:(constructor; [exact Hq|constructor])) (ex_intro _ hs (ex_intro _ g R))).
        inversion Y; assumption. }
      split; [exact NI|]. exact (proj1 (compiles_alone names fuel input fs fs' m Hg HR Hm Hq NI NP order texts P F) C).
    + intros [Y|(_ & NI & Y)]; [contradiction|].
      exact (proj2 (compiles_alone names fuel input fs fs' m Hg HR Hm Hq NI NP order texts P F) Y).
  - exists order, [], texts. split; [exact IR|]. split; [right; split; [exact X|reflexivity]|]. split; [rewrite E, (I2 X); reflexivity|]. split; [exact F|]. split.
    + intros (hs & g & R & _ & V & _). left. inversion R; subst. destruct texts as [|t l].
      * symmetry in L. apply length_zero_iff_nil in L. exact L.
      * apply Forall_inv in V. destruct V as (n & fl & body & trees & (pk & []) & _).
    + intros [Y|(Y & _)]; [|contradiction]. rewrite Y in L. apply length_zero_iff_nil in L. subst texts.
      exists [], []. split; [constructor|]. split.
      { split; [intros a h b Z; destruct a; discriminate|]. split; constructor. }
      split; [constructor|]. split; [constructor|]. intros t [].
Qed.
