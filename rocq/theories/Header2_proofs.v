(** * Reading generated headers: what the generators write *)
From Coq Require Import Permutation Lia.
From Verif Require Import Base PyNum PyStr Ast Size Processor Bundle Sorter CCommon GenCfs GenC GenBinary GenCosmos Main
  Spec_Grammar Spec_Check Spec_Enum Spec_Bundle Spec_Gen Spec_Text Spec_Files Spec_C Spec_Header
  Str_proofs Text_proofs Lib_proofs Bundle_proofs Gen_proofs Field_proofs Run_proofs Name_proofs Files_proofs Note_proofs
  Cdata_proofs Disk_proofs Cfs_proofs C_proofs Decl_proofs Header_proofs.
Open Scope string_scope.

(** ** Words *)
Lemma all_chars_forall : forall f s, all_chars f s = true <-> (forall c, In c (list_ascii_of_string s) -> f c = true).
Proof.
  intros f. induction s as [|c s IH]; simpl.
  - split; [intros _ c []|reflexivity].
  - rewrite andb_true_iff, IH. split.
    + intros (H1 & H2) x [<-|Hx]; auto.
    + intros H. auto.
Qed.
Lemma identifier_word : forall s, identifier s -> is_word s.
Proof.
  intros s ((c & r & E & _) & H). split; [rewrite E; discriminate|]. apply all_chars_forall. intros x Hx.
  unfold word_char. destruct (H x Hx) as [G|[G|[G|G]]]; rewrite ?G, ?orb_true_r; reflexivity.
Qed.
Lemma capital_word : forall n, is_name_capital n = true -> is_word (c_name n).
Proof. intros n H. apply identifier_word, c_name_identifier. auto. Qed.
Lemma lower_word : forall n, is_name_lower n = true -> is_word (c_name n).
Proof. intros n H. apply identifier_word, c_name_identifier. auto. Qed.
Lemma lowerize_word : forall s, is_word s -> is_word (lowerize s).
Proof.
  intros [|c s] [N H]; [congruence|]. split; [discriminate|]. cbn [lowerize all_chars] in *. apply andb_true_iff in H as [H1 H2].
  rewrite H2, andb_true_r. clear - H1. destruct c as [[] [] [] [] [] [] [] []]; try discriminate H1; reflexivity.
Qed.
Lemma word_app : forall a b, is_word a -> all_chars word_char b = true -> is_word (a ++ b).
Proof.
  intros a b [N H] B. split; [destruct a; [congruence|discriminate]|]. apply all_chars_forall.
  intros c Hc. rewrite list_ascii_app in Hc. apply in_app_or in Hc as [Hc|Hc].
  - revert c Hc. apply all_chars_forall. exact H.
  - revert c Hc. apply all_chars_forall. exact B.
Qed.
Lemma guard_word : forall m suf, is_name_lower m = true ->
  all_chars word_char (str_map (fun c => upper_char (dot (us c))) suf) = true -> is_word (guard_symbol (c_name m ++ suf)).
Proof.
  intros m suf Hm Hs. rewrite guard_core by exact Hm. split; [discriminate|]. apply all_chars_forall. intros c Hc.
  rewrite !list_ascii_app in Hc. repeat (apply in_app_or in Hc as [Hc|Hc]).
  - revert c Hc. apply all_chars_forall. reflexivity.
  - apply lower_name in Hm. rewrite list_ascii_map in Hc. apply in_map_iff in Hc as (x & <- & Hx).
    assert (A := all_chars_In _ _ _ (name_anychar _ Hm) Hx). clear - A.
    destruct x as [[] [] [] [] [] [] [] []]; try discriminate A; reflexivity.
  - revert c Hc. apply all_chars_forall. exact Hs.
  - revert c Hc. apply all_chars_forall. reflexivity.
Qed.
Lemma str_word : forall n, is_name n = true -> no_LF n.
Proof.
  intros n H. apply all_chars_forall. intros c Hc. assert (A := all_chars_In _ _ _ (name_anychar _ H) Hc). clear - A.
  destruct (Ascii.eqb_spec c LF) as [->|_]; [discriminate A|reflexivity].
Qed.

(** ** Comments *)
Lemma no_LF_app : forall a b, no_LF a -> no_LF b -> no_LF (a ++ b).
Proof.
  unfold no_LF. intros a b HA HB. rewrite all_chars_forall in *. intros c Hc. rewrite list_ascii_app in Hc.
  apply in_app_or in Hc as [Hc|Hc]; auto.
Qed.
Lemma comment_no_LF : forall s, all_chars comment_char s = true -> no_LF s.
Proof.
  unfold no_LF. intros s H. rewrite all_chars_forall in *. intros c Hc. apply H in Hc.
  destruct (Ascii.eqb_spec c LF) as [->|_]; [discriminate Hc|reflexivity].
Qed.
Lemma unit_no_LF : forall s, all_chars unit_char s = true -> no_LF s.
Proof.
  unfold no_LF. intros s H. rewrite all_chars_forall in *. intros c Hc. apply H in Hc.
  destruct (Ascii.eqb_spec c LF) as [->|_]; [discriminate Hc|reflexivity].
Qed.
Lemma item_comment_line : forall c, comment_opt_ok c = true -> opt_quiet no_last_backslash c -> opt_line (option_map item_comment c).
Proof.
  intros [c|] H Q; [|exact I]. cbn [comment_opt_ok opt_quiet option_map opt_line] in *. unfold comment_ok in H.
  apply andb_true_iff in H as [H1 H2]. unfold item_comment. split.
  - apply no_LF_app; [|apply comment_no_LF, H1]. destruct (String.eqb (cm_unit c) ""); [reflexivity|].
    apply (no_LF_app "["); [reflexivity|]. apply no_LF_app; [apply unit_no_LF, H2|reflexivity].
  - rewrite ends_app. destruct (String.eqb (cm_unit c) ""); [apply ends_false, Q|].
    rewrite !ends_app. change (ends_backslash ?b "] ") with false. apply ends_false, Q.
Qed.
Lemma def_comment_block : forall c, opt_quiet no_end_mark c -> opt_block (def_comment_text c).
Proof. intros [c|] Q; [|exact I]. cbn [def_comment_text]. destruct (String.eqb (cm_text c) ""); [exact I|exact Q]. Qed.

(** ** Types of fields *)
Lemma posix_word : forall s, In s POSIX_DEFINED_TYPES -> is_word s.
Proof. intros s H. simpl in H. repeat (destruct H as [<-|H]; [split; [discriminate|reflexivity]|]). destruct H. Qed.
Lemma map_direct_text : forall t cm, map_direct t = Ok cm -> c_type_text (cm_ctype cm).
Proof.
  intros t cm H. unfold map_direct in H. destruct (get_c_type t) as [ct|]; [|discriminate].
  apply bind_ok in H. destruct H as (w & _ & H). apply bind_ok in H. destruct H as (u & _ & H).
  destruct ct; try (injection H as <-; left; split; [discriminate|reflexivity]).
  destruct (mem _ _) eqn:E; injection H as <-; [left; apply posix_word, mem_In, E|right; reflexivity].
Qed.
Lemma type_name_word : forall t, type_ok t = true -> is_word (c_name (type_name t)).
Proof.
  induction t as [r|r| | |k n|n t IH|n]; intros H; try (split; [discriminate|reflexivity]).
  - destruct k; split; discriminate || reflexivity.
  - apply IH, H.
  - apply capital_word, H.
Qed.
Lemma map_member_text : forall fuel defs t cm, type_ok t = true -> map_member fuel defs t = Ok cm -> c_type_text (cm_ctype cm).
Proof.
  intros fuel defs t cm T H. unfold map_member in H. destruct (mem _ _); [eapply map_direct_text; exact H|].
  destruct (String.eqb _ _); [injection H as <-; left; split; [discriminate|reflexivity]|].
  assert (W : c_type_text (c_name (type_name t))) by (left; apply type_name_word, T).
  destruct (resolve defs t) as [| |[]|]; try (injection H as <-; exact W).
  apply bind_ok in H. destruct H as (s & _ & H). injection H as <-. exact W.
Qed.
Lemma convert_member_wf : forall fuel defs sds k f sb si, member_ok k = true -> opt_quiet no_last_backslash (m_comment k) ->
  convert_member fuel defs sds k = Ok (f, sb, si) -> field_wf f.
Proof.
  intros fuel defs sds k f sb si H Q C. unfold member_ok in H. repeat (apply andb_prop in H; destruct H as [H ?]).
  unfold convert_member in C. apply bind_ok in C. destruct C as (cm & Hm & C).
  apply bind_ok in C. destruct C as ([[[bits ct] sb'] si'] & C1 & C2). injection C2 as <- _ _.
  split; [|split]; cbn [cf_type cf_name cf_comment].
  - destruct (find _ _) as [[n t]|].
    + apply bind_ok in C1. destruct C1 as (cm' & Hd & C1). injection C1 as _ <- _ _. eapply map_direct_text. exact Hd.
    + destruct (mem (lowerize (cm_ctype cm)) POSIX_DEFINED_TYPES) eqn:E; injection C1 as _ <- _ _.
      * left. apply posix_word, mem_In, E.
      * eapply map_member_text; eassumption.
  - apply lower_word. assumption.
  - apply item_comment_line; assumption.
Qed.

(** ** Declarations *)
Definition good (d : definition) : Prop := definition_ok d = true /\ quiet_definition d.
Lemma declares_wf : forall fuel defs sds d ds, good d -> declares fuel defs sds d ds -> Forall decl_wf ds.
Proof.
  intros fuel defs sds d ds (K & Q) D. unfold definition_ok in K. destruct D as [n t c|n c l fields F|n c l|n c l]; [constructor| | |].
  - repeat (apply andb_prop in K; destruct K as [K ?]). destruct Q as (Qb & Ql). constructor; [|constructor]. split; [|split].
    + apply def_comment_block, Qb.
    + apply capital_word, K.
    + match goal with G : forallb member_ok l = true |- _ => rewrite forallb_forall in G; rename G into M end.
      rewrite Forall_forall in *. intros f Hf. destruct (Forall2_in_r _ _ _ _ _ _ F Hf) as (k & Hk & sb & si & Hc).
      eapply convert_member_wf; [apply M, Hk|apply Ql, Hk|exact Hc].
  - repeat (apply andb_prop in K; destruct K as [K ?]). destruct Q as (Qb & Ql). constructor; [|constructor]. split; [|split].
    + apply def_comment_block, Qb.
    + apply capital_word, K.
    + match goal with G : forallb enum_item_ok l = true |- _ => rewrite forallb_forall in G; rename G into M end.
      rewrite Forall_forall in *. intros x Hx. apply in_map_iff in Hx as (e & <- & He). cbn [fst snd].
      assert (E := M e He). unfold enum_item_ok in E. apply andb_true_iff in E as [E1 E2].
      split; [apply lower_word, E1|apply item_comment_line; [exact E2|apply Ql, He]].
  - repeat (apply andb_prop in K; destruct K as [K ?]). destruct Q as (Qb & Ql). constructor; [|constructor].
    split; [|split; [|split]].
    + apply def_comment_block, Qb.
    + apply capital_word, K.
    + apply lowerize_word, capital_word, K.
    + match goal with G : forallb member_ok l = true |- _ => rewrite forallb_forall in G; rename G into M end.
      rewrite Forall_forall in *. intros x Hx. apply in_map_iff in Hx as (k & <- & Hk). cbn [fst snd].
      assert (E := M k Hk). unfold member_ok in E. repeat (apply andb_prop in E; destruct E as [E ?]).
      split; [apply type_name_word; assumption|]. split; [apply lower_word; exact E|]. rewrite (Ql k Hk). reflexivity.
Qed.

Lemma good_same : forall d d', same_definition d d' -> good d -> good d'.
Proof.
  intros d d' S (K & Q). destruct d as [n c l|n c l|n c l|n t c]; simpl in S; try (subst d'; split; assumption).
  destruct S as (l' & -> & R1 & R2 & R3). unfold definition_ok in *. repeat (apply andb_prop in K; destruct K as [K ?]).
  destruct Q as (Qb & Ql).
  assert (L : length l' = length l). { apply (f_equal (@length Z)) in R1. unfold upto in R1. rewrite !map_length, seq_length in R1. exact R1. }
  assert (X : forall e', In e' l' -> exists e, In e l /\ label e' = label e).
  { intros e' He. destruct (Z.eq_dec (fold_right Z.add 0%Z (map number l)) 0) as [E|E].
    - destruct (R2 E) as (G & _). apply (in_map label) in He. rewrite G in He. apply in_map_iff in He as (e & E1 & E2). exists e. auto.
    - exists e'. split; [|reflexivity]. apply (Permutation_in _ (Permutation_sym (R3 E))), He. }
  split.
  - apply andb_true_iff. split; [apply andb_true_iff; split; [apply andb_true_iff; split; assumption|]|].
    + destruct l, l'; try reflexivity; discriminate.
    + apply forallb_forall. intros e' He. destruct (X e' He) as (e & I & E). unfold label in E. injection E as E1 E2.
      match goal with G : forallb enum_item_ok l = true |- _ => rewrite forallb_forall in G; specialize (G e I) end.
      unfold enum_item_ok in *. rewrite E1, E2. assumption.
  - split; [exact Qb|]. rewrite Forall_forall in *. intros e' He. destruct (X e' He) as (e & I & E). unfold label in E.
    injection E as E1 E2. rewrite E2. apply Ql, I.
Qed.

(** ** Includes and notes *)
Lemma whole_app0 : forall a b, whole a [] -> whole b [] -> whole (a ++ b) [].
Proof. intros a b HA HB. exact (whole_app a b [] [] HA HB). Qed.
Definition clean (s : string) : Prop := all_chars (fun c => negb (Ascii.eqb c LF) && negb (Ascii.eqb c "\")) s = true.
Lemma clean_app : forall a b, clean a -> clean b -> clean (a ++ b).
Proof.
  unfold clean. intros a b HA HB. rewrite all_chars_forall in *. intros c Hc. rewrite list_ascii_app in Hc.
  apply in_app_or in Hc as [Hc|Hc]; auto.
Qed.
Lemma clean_name : forall n, is_name n = true -> clean n.
Proof.
  intros n H. apply all_chars_forall. intros c Hc. assert (A := all_chars_In _ _ _ (name_anychar _ H) Hc). clear - A.
  destruct (Ascii.eqb_spec c LF) as [->|_]; [discriminate A|]. destruct (Ascii.eqb_spec c "\") as [->|_]; [discriminate A|reflexivity].
Qed.
Lemma clean_concat : forall sep l, clean sep -> Forall clean l -> clean (String.concat sep l).
Proof.
  intros sep l S F. induction F as [|x l H F IH]; [reflexivity|]. destruct l as [|y l]; [exact H|].
  change (clean (x ++ sep ++ String.concat sep (y :: l))). apply clean_app; [exact H|]. apply clean_app; assumption.
Qed.
Lemma run_clean : forall s, clean s -> run_mode (LineComment false) s = ([], LineComment false).
Proof.
  unfold clean. induction s as [|c s IH]; intros H; [reflexivity|]. simpl in H. apply andb_true_iff in H as [H1 H2].
  apply andb_true_iff in H1 as [H1 H3]. apply negb_true_iff in H1, H3. cbn [run_mode token_step]. rewrite H1, H3.
  cbn [fst snd app]. rewrite (IH H2). reflexivity.
Qed.
Lemma clean_line : forall s, clean s -> whole (("//" ++ s) ++ NL) [].
Proof.
  intros s H. apply whole_empty. rewrite <- string_app_assoc. refine (run_app "//" _ Code [] (LineComment false) _ _ eq_refl _).
  refine (run_app _ _ _ [] _ _ _ (run_clean s H) _). reflexivity.
Qed.
Definition quiet_note (b : bundle) (note : string -> asn_type -> result (option string)) : Prop :=
  forall n t s, is_name_capital n = true -> note n t = Ok (Some s) -> whole (s ++ NL) [].
Lemma embedded_note : forall n, is_name_capital n = true ->
  whole ((NL ++ "// NOTE: " ++ n ++ " is embedded directly where it is used. " ++ "Rationale: Bitfields cannot be typedef'd.") ++ NL) [].
Proof.
  intros n Hn.  rewrite <- string_app_assoc. apply whole_app0; [apply whole_NL|].
  apply (clean_line (" NOTE: " ++ n ++ " is embedded directly where it is used. Rationale: Bitfields cannot be typedef'd.")).
  apply clean_app; [reflexivity|]. apply clean_app; [apply clean_name, capital_name, Hn|reflexivity].
Qed.
Lemma c_note_quiet : forall b, quiet_note b c_note.
Proof. intros b n t s Hn H. injection H as <-. apply embedded_note, Hn. Qed.
Lemma bin_note_quiet : forall b, quiet_note b bin_note.
Proof. intros b n t s Hn H. unfold bin_note in H. destruct (mem _ _); [discriminate|]. injection H as <-. apply embedded_note, Hn. Qed.
Lemma cfs_note_quiet : forall names input b, Forall (fun m => grammatical m = true) input ->
  build_from_config names input = Ok b -> quiet_note b (cfs_note b).
Proof.
  intros names input b Hg Hb n t s Hn H. unfold cfs_note in H. destruct (find _ _) as [[k users]|] eqn:F; [|discriminate].
  apply bind_ok in H. destruct H as (z & _ & H). apply (f_equal (fun r => match r with Ok (Some x) => x | _ => s end)) in H. cbv beta iota in H. rewrite <- H.
  match goal with |- whole ((_ ++ ?x) ++ NL) [] =>
    apply (clean_line (" NOTE: The simple type '" ++ x)) end.
  apply clean_app; [reflexivity|]. apply clean_app; [apply clean_name, capital_name, Hn|]. apply clean_app; [reflexivity|].
  apply clean_app; [destruct (existsb _ _); reflexivity|]. apply clean_app; [reflexivity|]. apply clean_concat; [reflexivity|].
  apply Forall_forall. intros q Hq. apply in_map_iff in Hq as (u & <- & Hu). apply (clean_app "'"); [reflexivity|].
  apply clean_app; [|reflexivity]. apply (Permutation_in _ (Permutation_sym (sort_names_perm users))) in Hu.
  apply find_some in F as (F & _). destruct (recorded_users names input b Hg Hb) as (_ & R).
  destruct (proj1 (R k u)) as (m & Hm & -> & _); [exists users; auto|].
  apply clean_name, lower_name. rewrite Forall_forall in Hg. specialize (Hg m Hm). unfold grammatical in Hg.
  repeat (apply andb_prop in Hg; destruct Hg as [Hg ?]). exact Hg.
Qed.

Lemma run_quotes : forall f q, all_chars (fun c => negb (Ascii.eqb c DQ)) f = true -> run_mode (InQuotes q) f = ([], InQuotes (q ++ f)).
Proof.
  induction f as [|c f IH]; intros q H; [cbn; rewrite string_app_nil; reflexivity|]. simpl in H. apply andb_true_iff in H as [H1 H2].
  apply negb_true_iff in H1. cbn [run_mode token_step]. rewrite H1. cbn [fst snd app]. rewrite (IH _ H2). cbn [fst snd].
  rewrite <- string_app_assoc. reflexivity.
Qed.
Lemma include_file_line : forall f, all_chars (fun c => negb (Ascii.eqb c DQ)) f = true ->
  whole (quoted_include f ++ NL) [include_lines (Local f)].
Proof.
  intros f H. apply whole_line; [|puncts|discriminate]. unfold quoted_include. rewrite <- !string_app_assoc.
  refine (run_app "#include " _ Code [Punct "#"; Word "include"] Code [Quoted f; EndOfLine] _ eq_refl _).
  refine (run_app DQUOTE _ Code [] (InQuotes "") _ _ eq_refl _).
  refine (run_app _ _ _ [] _ _ _ (run_quotes f "" H) _). reflexivity.
Qed.
Lemma word_no_DQ : forall s, all_chars word_char s = true -> all_chars (fun c => negb (Ascii.eqb c DQ)) s = true.
Proof.
  intros s H. rewrite all_chars_forall in *. intros c Hc. apply H in Hc. destruct (Ascii.eqb_spec c DQ) as [->|_]; [discriminate Hc|reflexivity].
Qed.
Lemma no_DQ_app : forall a b, all_chars (fun c => negb (Ascii.eqb c DQ)) a = true ->
  all_chars (fun c => negb (Ascii.eqb c DQ)) b = true -> all_chars (fun c => negb (Ascii.eqb c DQ)) (a ++ b) = true.
Proof.
  intros a b HA HB. rewrite all_chars_forall in *. intros c Hc. rewrite list_ascii_app in Hc. apply in_app_or in Hc as [Hc|Hc]; auto.
Qed.
Lemma concat_map_app : forall A (f : A -> string) a b, concat_map_str f (a ++ b) = concat_map_str f a ++ concat_map_str f b.
Proof.
  intros A f. induction a as [|x a IH]; intros b; [reflexivity|]. cbn [app]. rewrite !concat_map_cons, IH, string_app_assoc. reflexivity.
Qed.

Lemma includes_whole : forall (inc : string -> string) m note sorted iss b,
  (forall it, In it (mod_imports m) -> all_chars (fun c => negb (Ascii.eqb c DQ)) (inc (imp_module it)) = true) ->
  comment_opt_ok (mod_comment_import m) = true -> opt_quiet no_last_backslash (mod_comment_import m) ->
  quiet_note b note -> Forall good sorted -> Forall2 (notes note) sorted iss ->
  whole (concat_map_str (fun i => render_include i ++ NL) (initial_includes inc m ++ concat iss))
    (map include_lines (map (fun it => Local (inc (imp_module it))) (mod_imports m))).
Proof.
  intros inc m note sorted iss b HI HC HQ HN G F. unfold initial_includes. rewrite !concat_map_app.
  rewrite <- (app_nil_r (map include_lines _)). apply whole_app; [change (map include_lines ?x) with ([] ++ map include_lines x)%list; apply whole_app|].
  - destruct (mod_comment_import m) as [c|]; [|apply whole_nil]. rewrite concat_map_cons.
     apply whole_app0; [|apply whole_nil]. apply whole_empty.
    cbn [comment_opt_ok opt_quiet] in *. unfold comment_ok in HC. apply andb_true_iff in HC as [HC _].
    apply run_comment_line; [apply comment_no_LF, HC|apply ends_false, HQ].
  - revert HI. generalize (mod_imports m) as l. induction l as [|it l IH]; intros HI; [apply whole_nil|]. cbn [map].
    rewrite concat_map_cons. refine (whole_app _ _ [_] _ _ _); [apply include_file_line, HI; left; reflexivity|].
    apply IH. intros x Hx. apply HI. right. exact Hx.
  - clear - HN G F. induction F as [|d is sorted iss H F IH]; [apply whole_nil|]. inversion G as [|? ? G1 G2]; subst.
    cbn [concat]. rewrite concat_map_app.  apply whole_app0; [|apply IH, G2].
    destruct d as [n c l|n c l|n c l|n t c]; cbn [notes] in H; try (subst is; apply whole_nil).
    destruct H as (s & Hs & ->). destruct s as [s|]; [|apply whole_nil]. rewrite concat_map_cons.
     apply whole_app0; [|apply whole_nil].
    destruct G1 as (K & _). cbn [definition_ok] in K. repeat (apply andb_prop in K; destruct K as [K ?]).
    apply (HN n t s K Hs).
Qed.

(** ** No <stdbool.h> *)
Lemma convert_member_bool : forall fuel defs sds k f sb si, convert_member fuel defs sds k = Ok (f, sb, si) -> sb = false.
Proof.
  assert (D : forall t cm, map_direct t = Ok cm -> cm_stdbool cm = false).
  { intros t cm H. unfold map_direct in H. destruct (get_c_type t) as [ct|]; [|discriminate].
    apply bind_ok in H. destruct H as (w & _ & H). apply bind_ok in H. destruct H as (u & _ & H).
    destruct ct; try (injection H as <-; reflexivity). destruct (mem _ _); injection H as <-; reflexivity. }
  intros fuel defs sds k f sb si H. unfold convert_member in H. apply bind_ok in H. destruct H as (cm & Hm & H).
  apply bind_ok in H. destruct H as ([[[bits ct] sb'] si'] & H1 & H2). injection H2 as _ <- _.
  assert (M : cm_stdbool cm = false).
  { unfold map_member in Hm. destruct (mem _ _); [eapply D; exact Hm|]. destruct (String.eqb _ _); [injection Hm as <-; reflexivity|].
    destruct (resolve _ _) as [| |[]|]; try (injection Hm as <-; reflexivity).
    apply bind_ok in Hm. destruct Hm as (s & _ & Hm). injection Hm as <-. reflexivity. }
  rewrite M in H1. destruct (find _ _) as [[n t]|].
  - apply bind_ok in H1. destruct H1 as (cm' & Hd & H1). injection H1 as _ _ <- _. apply (D _ _ Hd).
  - injection H1 as _ _ <- _. reflexivity.
Qed.
Lemma convert_members_bool : forall fuel defs sds wch name, (forall n k c, wch n k = Ok c -> cd_stdbool c = false) ->
  forall l fields acc fields' acc', convert_members fuel defs sds wch name l fields acc = Ok (fields', acc') ->
  cd_stdbool acc' = cd_stdbool acc.
Proof.
  intros fuel defs sds wch name Hw. induction l as [|k l IH]; intros fields acc fields' acc' H; simpl in H.
  - injection H as <- <-. reflexivity.
  - apply bind_ok in H. destruct H as ([[f sb] si] & Hc & H). apply bind_ok in H. destruct H as (acc1 & Ha & H).
    rewrite (IH _ _ _ _ H). apply convert_member_bool in Hc. subst sb. destruct (m_with k).
    + apply bind_ok in Ha. destruct Ha as (c & Hx & Ha). injection Ha as <-. simpl. rewrite (Hw _ _ _ Hx), !orb_false_r. reflexivity.
    + injection Ha as <-. simpl. rewrite orb_false_r. reflexivity.
Qed.
Lemma module_bool : forall fuel b bm inc note wch c, (forall n k c, wch n k = Ok c -> cd_stdbool c = false) ->
  module_cdata fuel b bm inc note wch = Ok c -> cd_stdbool c = false.
Proof.
  intros fuel b bm inc note wch c Hw H. unfold module_cdata in H. apply bind_ok in H. destruct H as (sorted & _ & H).
  apply bind_ok in H. destruct H as (c1 & Hc & H).
  assert (G : forall l acc acc', convert_definitions fuel (all_defs b) (simple_definition_list b bm) note wch l acc = Ok acc' ->
    cd_stdbool acc' = cd_stdbool acc).
  { clear - Hw. induction l as [|d l IH]; intros acc acc' H; simpl in H; [injection H as <-; reflexivity|].
    apply bind_ok in H. destruct H as (a & Ha & H). rewrite (IH _ _ H). destruct d as [n c ms|n c ms|n c ms|n t c]; simpl in Ha.
    - apply bind_ok in Ha. destruct Ha as (x & Hx & Ha). injection Ha as <-. simpl. unfold convert_sequence in Hx.
      apply bind_ok in Hx. destruct Hx as ([fields a] & Hc & Hx). apply bind_ok in Hx. destruct Hx as (u & _ & Hx).
      injection Hx as <-. simpl. rewrite (convert_members_bool _ _ _ _ _ Hw _ _ _ _ _ Hc). apply orb_false_r.
    - injection Ha as <-. simpl. apply orb_false_r.
    - injection Ha as <-. simpl. apply orb_false_r.
    - apply bind_ok in Ha. destruct Ha as (s & _ & Ha). injection Ha as <-. destruct s; reflexivity. }
  apply G in Hc. injection H as <-. destruct (mod_comment (bm_mod bm)) as [x|]; [|exact Hc].
  destruct (String.eqb (cm_text x) ""); exact Hc.
Qed.
Lemma cfs_wch_bool : forall n k c, cfs_with_components n k = Ok c -> cd_stdbool c = false.
Proof.
  intros n k c H. unfold cfs_with_components in H. destruct (m_with k).
  - apply bind_ok in H. destruct H as (ds & _ & H). injection H as <-. reflexivity.
  - injection H as <-. reflexivity.
Qed.
Lemma c_wch_bool : forall mn n k c, c_with_components mn n k = Ok c -> cd_stdbool c = false.
Proof. intros mn n k c H. unfold c_with_components in H. destruct (m_with k); injection H as <-; reflexivity. Qed.
Lemma bin_wch_bool : forall fuel e defs m n k c, bin_with_components fuel e defs m n k = Ok c -> cd_stdbool c = false.
Proof.
  intros fuel e defs m n k c H. unfold bin_with_components in H. destruct (m_with k).
  - apply bind_ok in H. destruct H as (? & _ & H). apply bind_ok in H. destruct H as (? & _ & H). injection H as <-. reflexivity.
  - injection H as <-. reflexivity.
Qed.

(** ** The header of a module *)
Definition clause_var (x : string * string * wcomps) : string * string :=
  (c_name (fst (fst x)), lowerize (c_name (fst (fst x)))).
Definition clause_vars (cmd : command) (l : list definition) : list (string * string) :=
  match cmd with GenerateC _ => map clause_var (flat_map def_clauses l) | _ => [] end.

Lemma good_module : forall m m', same_module m m' -> grammatical m = true -> quiet m ->
  Forall good (mod_defs m')
  /\ no_end_mark (match mod_comment m' with Some cm => cm_text cm | None => "" end)
  /\ comment_opt_ok (mod_comment_import m') = true /\ opt_quiet no_last_backslash (mod_comment_import m')
  /\ is_name_lower (mod_name m') = true /\ forall it, In it (mod_imports m') -> is_name_lower (imp_module it) = true.
Proof.
  intros m m' (Sn & (Sc & Si) & Sim & Sd) G (Q1 & Q2 & Q3). unfold grammatical in G.
  repeat (apply andb_prop in G; destruct G as [G ?]). rewrite Sc, Si, Sn, Sim. split; [|split; [|split; [|split; [|split]]]].
  - match goal with H : forallb definition_ok _ = true |- _ => rewrite forallb_forall in H; rename H into D end.
    rewrite Forall_forall in *. intros d' Hd. destruct (Forall2_in_r _ _ _ _ _ _ Sd Hd) as (d & I & S).
    apply (good_same _ _ S). split; [apply D, I|apply Q3, I].
  - destruct (mod_comment m) as [c|]; [exact Q1|]. intros a b E. destruct a; discriminate E.
  - assumption.
  - exact Q2.
  - exact G.
  - intros it Hi. match goal with H : forallb import_ok _ = true |- _ => rewrite forallb_forall in H; specialize (H it Hi); rename H into D end.
    unfold import_ok in D. repeat (apply andb_prop in D; destruct D as [D ?]). assumption.
Qed.

Lemma guard_text : forall m suf t, is_name_lower m = true -> str_map (fun c => upper_char (dot (us c))) suf = t ->
  guard_symbol (c_name m ++ suf) = "ASN1_PARSER_" ++ upper (c_name m) ++ t ++ "_INCLUDED".
Proof.
  intros m suf t H E. rewrite guard_core, E, <- string_app_assoc by exact H. unfold upper. rewrite c_name_eq by (apply lower_name, H).
  rewrite str_map_comp. reflexivity.
Qed.

Lemma rendered_reads : forall m fn inc note wch fuel b bm c h vs suf,
  same_module m (bm_mod bm) -> grammatical m = true -> quiet m ->
  fn = c_name (mod_name m) ++ suf -> all_chars word_char (str_map (fun c => upper_char (dot (us c))) suf) = true ->
  (forall n k c, wch n k = Ok c -> cd_includes c = []) -> (forall n k c, wch n k = Ok c -> cd_data c = []) ->
  (forall n k c, wch n k = Ok c -> cd_stdbool c = false) -> quiet_note b note ->
  (forall n, is_name_lower n = true -> all_chars (fun c => negb (Ascii.eqb c DQ)) (inc n) = true) ->
  module_cdata fuel b bm inc note wch = Ok c -> is_msgids h = false ->
  coded (if is_stored_data h then
           if is_nil (cd_predefs c) then "" else concat_map_str (fun p => p ++ NL) (cd_predefs c) ++ NL
         else "") (flat_map var_tokens vs) -> Forall (fun x => capital (fst x)) vs ->
  read_header (render_header c fn h)
  = Some (mkheader (guard_symbol fn)
      ((if cd_stdint c then [System "stdint"] else []) ++ map (fun it => Local (inc (imp_module it))) (mod_imports m))
      (map said (cd_data c) ++ map (fun x => XVar (fst x) (snd x)) vs)).
Proof.
  intros m fn inc note wch fuel b bm c h vs suf S G Q Ef Hs Hwi Hwd Hwb HN HI Hc Hh P V.
  destruct (good_module _ _ S G Q) as (GD & GM & GI & GQ & GL & GIM).
  assert (Hb := module_bool _ _ _ _ _ _ _ Hwb Hc). assert (Hm := module_header_comment _ _ _ _ _ _ _ Hwi Hc).
  destruct (module_collects _ _ _ _ _ _ _ Hwi Hc) as (sorted & css & iss & Hso & _ & _ & _ & _ & N & Ei & _).
  destruct (module_cdata_data _ _ _ _ _ _ _ Hwd Hc) as (sorted' & dss & Hso' & Ed & F).
  rewrite Hso in Hso'. injection Hso' as <-.
  assert (GS : Forall good sorted).
  { rewrite Forall_forall in *. intros d Hd. apply GD. apply (Permutation_in _ (sorted_perm _ _ _ Hso)), Hd. }
  assert (W : Forall decl_wf (cd_data c)).
  { rewrite Ed. clear - GS F. induction F as [|d ds l dss H F IH]; [constructor|]. inversion GS; subst. simpl.
    apply Forall_app. split; [eapply declares_wf; eassumption|apply IH; assumption]. }
  destruct S as (Sn & _ & Sim & _). rewrite Sim in *. rewrite Sn in *.
  assert (GW : is_word (guard_symbol fn)) by (rewrite Ef; apply guard_word; [exact GL|exact Hs]).
  assert (IW := includes_whole inc (bm_mod bm) note sorted iss b). rewrite Sim in IW.
  specialize (IW (fun it H => HI _ (GIM it H)) GI GQ HN GS N). rewrite <- Ei in IW.
  rewrite <- Hm in GM.
  assert (R := header_reads _ _ (cd_stdint c) _ _ _ _ _ GW GM W V IW P).
  rewrite <- R. unfold render_header, guard_open, guard_close. rewrite Hh, Hb. rewrite <- !string_app_assoc. reflexivity.
Qed.

Lemma predefs_coded : forall vs, Forall (fun x => is_word (fst x) /\ is_word (snd x)) vs ->
  coded (if is_nil vs then "" else concat_map_str (fun p => p ++ NL) (map (fun x => fst x ++ " " ++ snd x ++ ";") vs) ++ NL)
    (flat_map var_tokens vs).
Proof.
  intros vs F. assert (G : coded (concat_map_str (fun p => p ++ NL) (map (fun x => fst x ++ " " ++ snd x ++ ";") vs)) (flat_map var_tokens vs)).
  { induction F as [|[t v] l (H1 & H2) F IH]; [apply coded_nil|]. cbn [map flat_map fst snd] in *. rewrite concat_map_cons.
    apply coded_app; [|exact IH]. apply coded_line; [|puncts|exact I]. rewrite <- !string_app_assoc.
    apply run_word_then; [exact H1|]. refine (run_app " " _ (InWord t) [Word t] Code [Word v; Punct ";"; EndOfLine] _ eq_refl _).
    apply run_word_then; [exact H2|reflexivity]. }
  destruct vs as [|v vs]; [apply coded_nil|]. cbn [is_nil]. rewrite <- (app_nil_r (flat_map var_tokens _)).
  apply coded_app; [exact G|apply coded_empty; reflexivity].
Qed.

Lemma header_of_run : forall names cmd fuel input fs fs' m, config_command names cmd ->
  Forall (fun m => grammatical m = true) input -> run fuel cmd input fs = (fs', Ok tt) -> In m input -> quiet m ->
  exists b bm c sorted text, config names input b /\ In bm (b_modules b) /\ same_module m (bm_mod bm)
    /\ generated fuel b bm c /\ sorted_definitions fuel (bm_mod bm) = Ok sorted
    /\ folder_get fs' (header_name cmd (mod_name m)) = Some text
    /\ read_header text
       = Some (mkheader (header_guard cmd (mod_name m))
           ((if cd_stdint c then [System "stdint"] else [])
              ++ map (fun it => Local (included_file cmd (imp_module it))) (mod_imports m))
           (map said (cd_data c) ++ map (fun x => XVar (fst x) (snd x)) (clause_vars cmd sorted))).
Proof.
  intros names cmd fuel input fs fs' m HC Hg H Hm Q.
  destruct (run_input_written names cmd fuel input fs fs' m HC Hg H Hm) as (b & bm & fl & C & Hbm & S & Hfl & R).
  assert (G : grammatical m = true) by (rewrite Forall_forall in Hg; apply Hg, Hm).
  assert (GN : is_name_lower (mod_name m) = true) by (unfold grammatical in G; repeat (apply andb_prop in G; destruct G as [G ?]); exact G).
  assert (Sn : bm_name bm = mod_name m) by apply S.
  destruct HC as [->|[->|(e & ->)]]; cbn [module_files] in Hfl; apply bind_ok in Hfl; destruct Hfl as (c & Hc & E).
  - exists b, bm, c. assert (Hc' := Hc). unfold cfs_cdata in Hc. destruct (module_collects _ _ _ _ _ _ _ cfs_wch_includes Hc) as (sorted & _ & _ & Hso & _).
    exists sorted. eexists. split; [exact C|]. split; [exact Hbm|]. split; [exact S|]. split; [left; exact Hc'|]. split; [exact Hso|].
    split; [apply R; injection E as <-; left; unfold msg_filename; rewrite Sn; cbn [header_name]; rewrite <- string_app_assoc; reflexivity|].
    rewrite (rendered_reads m _ (fun n => msg_filename n ++ ".h") (cfs_note b) cfs_with_components fuel b bm c MSG [] "_msg.h"); try assumption; try reflexivity.
    + f_equal. f_equal.
      * unfold msg_filename. rewrite ?Sn, <- ?string_app_assoc. unfold header_guard. apply guard_text; [exact GN|reflexivity].
      * f_equal. apply map_ext. intros it. unfold msg_filename. rewrite <- string_app_assoc. reflexivity.
    + exact cfs_wch_includes.
    + exact cfs_wch_data.
    + exact cfs_wch_bool.
    + eapply cfs_note_quiet; [exact Hg|apply C].
    + intros n Hn. apply no_DQ_app; [|reflexivity]. apply no_DQ_app; [|reflexivity]. apply word_no_DQ, lower_word, Hn.
    + apply coded_nil.
    + constructor.
  - exists b, bm, c. assert (Hc' := Hc). unfold c_cdata in Hc. destruct (module_collects _ _ _ _ _ _ _ (c_wch_includes _) Hc) as (sorted & css & _ & Hso & Hh & _ & _ & Ep & _).
    exists sorted. eexists. split; [exact C|]. split; [exact Hbm|]. split; [exact S|]. split; [right; left; exact Hc'|]. split; [exact Hso|].
    split; [apply R; injection E as <-; left; unfold c_filename; rewrite Sn; reflexivity|].
    assert (EV : cd_predefs c = map (fun x => fst x ++ " " ++ snd x ++ ";") (clause_vars (GenerateC names) sorted)).
    { rewrite Ep. clear - Hh. cbn [clause_vars]. induction Hh as [|d cs l css H F IH]; [reflexivity|]. simpl.
      rewrite flat_map_app, map_app, map_app, IH. f_equal. clear - H. unfold handled in H.
      destruct d as [n c l| | |]; simpl in *; try (inversion H; reflexivity).
      revert cs H. induction l as [|k l IH]; intros cs H; simpl in *; [inversion H; reflexivity|].
      unfold has_clause at 1 in H. destruct (m_with k) as [w|] eqn:E; [|apply IH; exact H].
      inversion H as [|? x ? q Hx F]; subst. simpl. unfold c_with_components in Hx. rewrite E in Hx. injection Hx as <-.
      simpl. f_equal. apply IH. exact F. }
    assert (VW : Forall (fun x => is_word (fst x) /\ is_word (snd x) /\ capital (fst x)) (clause_vars (GenerateC names) sorted)).
    { cbn [clause_vars]. apply Forall_forall. intros v Hv. apply in_map_iff in Hv as (x & <- & Hx). apply in_flat_map in Hx as (d & Hd & Hx).
      assert (N : is_name_capital (def_name d) = true).
      { apply (config_capital _ _ _ _ C). apply in_all_defs. exists bm. split; [exact Hbm|]. apply (Permutation_in _ (sorted_perm _ _ _ Hso)), Hd. }
      assert (En : fst (fst x) = def_name d).
      { destruct d; try destruct Hx. cbn [def_clauses] in Hx. apply in_flat_map in Hx as (k & _ & Hx). destruct (m_with k); [|destruct Hx].
        destruct Hx as [<-|[]]. reflexivity. }
      unfold clause_var. cbn [fst snd]. rewrite En. split; [apply capital_word, N|]. split; [apply lowerize_word, capital_word, N|].
      destruct (c_name (def_name d)) as [|a r] eqn:Ea; [apply capital_word in N; destruct N; congruence|].
      exists a, r. split; [reflexivity|]. exact (first_char _ _ _ N Ea). }
    rewrite (rendered_reads m _ c_filename c_note (c_with_components (bm_name bm)) fuel b bm c STORED_DATA (clause_vars (GenerateC names) sorted) ".h"); try assumption; try reflexivity.
    + f_equal. f_equal. unfold header_guard. apply guard_text; [exact GN|reflexivity].
    + apply c_wch_includes.
    + apply c_wch_data.
    + apply c_wch_bool.
    + apply c_note_quiet.
    + intros n Hn. apply word_no_DQ, lower_word, Hn.
    + cbn [is_stored_data]. rewrite EV.
      assert (PC := predefs_coded (clause_vars (GenerateC names) sorted)).
      destruct (clause_vars (GenerateC names) sorted) as [|v vs]; (apply PC; eapply Forall_impl; [|exact VW]; intros x (A & B & _); auto).
    + eapply Forall_impl; [|exact VW]. intros x (_ & _ & A). exact A.
  - exists b, bm, c. assert (Hc' := Hc). unfold bin_cdata in Hc. destruct (module_collects _ _ _ _ _ _ _ (bin_wch_includes _ _ _ _) Hc) as (sorted & _ & _ & Hso & _).
    exists sorted. eexists. split; [exact C|]. split; [exact Hbm|]. split; [exact S|]. split; [right; right; exists e; exact Hc'|]. split; [exact Hso|].
    split; [apply R; injection E as <-; left; unfold bin_filename; rewrite Sn; reflexivity|].
    rewrite (rendered_reads m _ bin_filename bin_note (bin_with_components fuel e (all_defs b) (bm_mod bm)) fuel b bm c STORED_DATA_BINARY [] ".h"); try assumption; try reflexivity.
    + f_equal. f_equal. unfold header_guard. apply guard_text; [exact GN|reflexivity].
    + apply bin_wch_includes.
    + apply bin_wch_data.
    + apply bin_wch_bool.
    + apply bin_note_quiet.
    + intros n Hn. apply word_no_DQ, lower_word, Hn.
    + apply coded_nil.
    + constructor.
Qed.
