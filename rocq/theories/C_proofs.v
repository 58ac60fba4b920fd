(** * Proofs: initialisers generated by the c command *)
From Coq Require Import Permutation DecimalString DecimalZ DecimalFacts.
From Verif Require Import Base PyNum PyStr Ast Processor Bundle Sorter CCommon GenC Main Spec_Grammar Spec_Text
  Spec_Gen Spec_C Lib_proofs Str_proofs Name_proofs Check_proofs Field_proofs Gen_proofs Cdata_proofs Text_proofs
  Files_proofs Run_proofs Spec_Bundle Bundle_proofs Accept_proofs Disk_proofs Cfs_proofs Float_proofs.
Open Scope string_scope.
Open Scope list_scope.

(** ** Characters of names and values *)

Definition solid (c : ascii) : bool := negb (Ascii.eqb c " ") && negb (Ascii.eqb c LF).
Definition solid_str (s : string) : Prop := all_chars solid s = true.

Lemma all_chars_app : forall P a b, all_chars P (a ++ b) = all_chars P a && all_chars P b.
Proof. intros P. induction a as [|x a IH]; intros b; simpl; [reflexivity|]. rewrite IH. apply andb_assoc. Qed.

Lemma solid_codes : forall c, solid c = true <-> (N_of_ascii c <> 32 /\ N_of_ascii c <> 10)%N.
Proof.
  intros c. unfold solid. rewrite !ascii_eqb_N. change (N_of_ascii " ") with 32%N. change (N_of_ascii LF) with 10%N. lia.
Qed.

Lemma digit_solid : forall b c d, digit_value b c = Some d -> (b <= 16)%Z -> solid c = true.
Proof.
  intros b c d H Hb. apply solid_codes. unfold digit_value, code in H.
  destruct ((48 <=? Z.of_N (N_of_ascii c)) && (Z.of_N (N_of_ascii c) <=? 57))%Z eqn:E1; [lia|].
  destruct ((65 <=? Z.of_N (N_of_ascii c)) && (Z.of_N (N_of_ascii c) <=? 90))%Z eqn:E2; [lia|].
  rewrite Z.ltb_irrefl in H. discriminate.
Qed.

Lemma digits_solid : forall b s acc z, read_digits b acc s = Some z -> (b <= 16)%Z -> solid_str s.
Proof.
  intros b. induction s as [|c s IH]; intros acc z H Hb; [reflexivity|]. simpl in H.
  destruct (digit_value b c) as [d|] eqn:E; [|discriminate]. unfold solid_str. simpl.
  rewrite (digit_solid _ _ _ E Hb). exact (IH _ _ H Hb).
Qed.

Lemma int_solid : forall s z, read_int s = Some z -> solid_str s.
Proof.
  intros s z H. assert (U : forall s z, read_unsigned 10 s = Some z -> solid_str s).
  { clear. intros s z H. destruct s; [discriminate|]. eapply digits_solid; [exact H|lia]. }
  destruct s as [|c s]; [discriminate|]. unfold read_int in H.
  assert (D : c = "-"%char \/ c <> "-"%char) by (destruct (ascii_dec c "-"); auto).
  destruct D as [->|D].
  - destruct (read_unsigned 10 s) as [z'|] eqn:E; [|discriminate]. exact (U _ _ E).
  - apply (U _ z). rewrite <- H. destruct c as [[] [] [] [] [] [] [] []]; try reflexivity. congruence.
Qed.

Lemma c_name_solid : forall n, is_name n = true -> solid_str (c_name n).
Proof.
  intros n H. rewrite c_name_eq by exact H. assert (A := name_anychar _ H). unfold solid_str.
  assert (G : forall c, anychar c = true -> solid (us c) = true).
  { intros c Hc. apply solid_codes. unfold us. rewrite ascii_eqb_N. change (N_of_ascii "-") with 45%N.
    unfold anychar in Hc. apply orb_prop in Hc. destruct (N.eqb_spec (N_of_ascii c) 45); [split; discriminate|].
    destruct Hc as [Hc|Hc]; [apply nchar_codes in Hc|apply upper_codes in Hc]; lia. }
  clear H. induction n as [|c n IH]; [reflexivity|]. simpl in *. apply andb_prop in A. rewrite G by apply A. apply IH. apply A.
Qed.

Lemma float_solid : forall s, all_chars float_char s = true -> solid_str s.
Proof.
  intros s. apply all_chars_impl. intros c H. apply solid_codes. unfold float_char in H. rewrite !ascii_eqb_N in H.
  change (N_of_ascii ".") with 46%N in H. change (N_of_ascii "+") with 43%N in H. change (N_of_ascii "-") with 45%N in H.
  unfold is_digit, is_lower in H. lia.
Qed.

(** ** Splitting and lines *)

Lemma split_on_solid : forall ch s t, all_chars (fun c => negb (Ascii.eqb c ch)) s = true ->
  split_on ch (s ++ String ch t) = s :: split_on ch t.
Proof.
  intros ch. induction s as [|c s IH]; intros t H; simpl in *.
  - rewrite Ascii.eqb_refl. reflexivity.
  - apply andb_prop in H. destruct H as (Hc & H). apply negb_true_iff in Hc. rewrite Hc, IH by exact H. reflexivity.
Qed.

Lemma split_on_end : forall ch s, all_chars (fun c => negb (Ascii.eqb c ch)) s = true -> split_on ch s = [s].
Proof.
  intros ch. induction s as [|c s IH]; intros H; simpl in *; [reflexivity|].
  apply andb_prop in H. destruct H as (Hc & H). apply negb_true_iff in Hc. rewrite Hc, IH by exact H. reflexivity.
Qed.

Lemma solid_no_space : forall s, solid_str s -> all_chars (fun c => negb (Ascii.eqb c " ")) s = true.
Proof. intros s. apply all_chars_impl. unfold solid. intros c H. apply andb_prop in H. apply H. Qed.
Lemma solid_no_LF : forall s, solid_str s -> all_chars (fun c => negb (Ascii.eqb c LF)) s = true.
Proof. intros s. apply all_chars_impl. unfold solid. intros c H. apply andb_prop in H. apply H. Qed.

Lemma skip_level : forall n s, skip_spaces (repeat_str n C_SPACES ++ s) = skip_spaces s.
Proof. induction n as [|n IH]; intros s; [reflexivity|]. simpl. apply IH. Qed.

Lemma chop_app : forall s, chop_comma (s ++ ",") = Some s.
Proof.
  induction s as [|c s IH]; [reflexivity|]. change ((String c s ++ ",")%string) with (String c (s ++ ",")).
  cbn [chop_comma]. destruct (s ++ ",")%string eqn:E; [destruct s; discriminate|]. rewrite IH. reflexivity.
Qed.

Lemma read_open : forall n k, solid_str k -> read_line (repeat_str n C_SPACES ++ "." ++ k ++ " = {") = Some (Open k).
Proof.
  intros n k Hk. unfold read_line. rewrite skip_level.
  replace (skip_spaces ("." ++ k ++ " = {")) with (("." ++ k) ++ String " " ("=" ++ String " " "{"))%string
    by (cbn; reflexivity).
  rewrite split_on_solid by (simpl; apply solid_no_space; exact Hk). rewrite split_on_solid by reflexivity.
  reflexivity.
Qed.

Lemma read_assign : forall n k v, solid_str k -> solid_str v ->
  read_line (repeat_str n C_SPACES ++ "." ++ k ++ " = " ++ v ++ ",") = Some (Assign k v).
Proof.
  intros n k v Hk Hv. unfold read_line. rewrite skip_level.
  replace (skip_spaces ("." ++ k ++ " = " ++ v ++ ",")) with (("." ++ k) ++ String " " ("=" ++ String " " (v ++ ",")))%string
    by (cbn; reflexivity).
  rewrite split_on_solid by (simpl; apply solid_no_space; exact Hk). rewrite split_on_solid by reflexivity.
  rewrite split_on_end by (rewrite all_chars_app, (solid_no_space _ Hv); reflexivity).
  cbn [append]. destruct (String.eqb_spec (v ++ ",") "{") as [E|_]; [|rewrite chop_app; reflexivity].
  exfalso. apply (f_equal chop_comma) in E. rewrite chop_app in E. discriminate.
Qed.

Lemma read_close : forall n, read_line (repeat_str n C_SPACES ++ "},") = Some Close.
Proof. intros n. unfold read_line. rewrite skip_level. reflexivity. Qed.

(** ** Texts that read as lines *)

Definition parses (text : string) (ls : list line) : Prop :=
  forall t ls', read_lines (split_on LF t) = Some ls' -> read_lines (split_on LF (text ++ t)) = Some (ls ++ ls').

Lemma parses_nil : parses "" [].
Proof. intros t ls' H. exact H. Qed.

Lemma parses_app : forall a l b m, parses a l -> parses b m -> parses (a ++ b) (l ++ m).
Proof.
  intros a l b m Ha Hb t ls' H. rewrite <- string_app_assoc, <- app_assoc. apply Ha. apply Hb. exact H.
Qed.

Lemma parses_line : forall s x, read_line s = Some x -> all_chars (fun c => negb (Ascii.eqb c LF)) s = true ->
  parses (s ++ NL) [x].
Proof.
  intros s x Hs Hn t ls' H. rewrite <- string_app_assoc. unfold NL. cbn [append].
  rewrite split_on_solid by exact Hn. cbn [read_lines]. rewrite Hs, H. destruct s; [discriminate Hs|reflexivity].
Qed.

Lemma parses_read : forall s ls t, parses s ls -> build_tree ls [] [] = Some t -> read_init s = Some t.
Proof.
  intros s ls t H E. unfold read_init. specialize (H "" [] eq_refl). rewrite string_app_nil, app_nil_r in H.
  rewrite H. exact E.
Qed.

Lemma level_no_LF : forall n, all_chars (fun c => negb (Ascii.eqb c LF)) (repeat_str n C_SPACES) = true.
Proof. induction n as [|n IH]; [reflexivity|]. exact IH. Qed.

Lemma decimal_not_octal : forall z s, decimal z s -> not_octal s.
Proof. intros z s (_ & H) sign r Hs E. exact (proj2 (H sign r Hs E)). Qed.

Lemma init_value_text : forall v, wval_ok v = true -> (forall w, v <> VWith w) ->
  c_value v (init_value v) /\ solid_str (init_value v).
Proof.
  intros v Hv Hn. destruct v as [z|f|b|w]; [| | |exfalso; eapply Hn; reflexivity].
  - assert (R := read_str_of_Z z). split; [apply decimal_str_of_Z|]. eapply int_solid. exact R.
  - split; [reflexivity|]. apply float_solid. exact (proj1 (float_ok_chars f Hv)).
  - split; [reflexivity|]. destruct b; reflexivity.
Qed.

Lemma init_components_eq : forall level c l, init_components level (WC c l) =
  concat_map_str (fun i => match i with WI k v _ =>
    match v with
    | VWith w' => repeat_str level C_SPACES ++ "." ++ c_name k ++ " = {" ++ NL
                  ++ init_components (S level) w' ++ repeat_str level C_SPACES ++ "}," ++ NL
    | _ => repeat_str level C_SPACES ++ "." ++ c_name k ++ " = " ++ init_value v ++ "," ++ NL
    end%string end) l.
Proof.
  intros level c. induction l as [|[k v cm] r IH]; [reflexivity|]. rewrite concat_map_str_cons, <- IH. reflexivity.
Qed.

Lemma level_more : forall n, repeat_str (S n) C_SPACES = (repeat_str n C_SPACES ++ "  ")%string.
Proof.
  induction n as [|n IH]; [reflexivity|]. cbn [repeat_str] in *. rewrite IH at 1. rewrite string_app_assoc. reflexivity.
Qed.

Lemma tree_texts_cons : forall x (l : list string), String.concat "" (x :: l) = (x ++ String.concat "" l)%string.
Proof. intros x [|y l]; simpl; [symmetry; apply string_app_nil|reflexivity]. Qed.

Lemma init_spec : forall w level, wcomps_ok w = true ->
  exists ls t, parses (init_components level w) ls /\ mirrors (wc_items w) t
    /\ (forall cur open tail, build_tree (ls ++ tail) cur open = build_tree tail (cur ++ t) open)
    /\ init_components level w = String.concat "" (map (tree_text (repeat_str level C_SPACES)) t).
Proof.
  induction w as [c l IH] using clause_ind. intros level H. apply wcomps_ok_items in H. cbn [wc_items] in *.
  rewrite init_components_eq. induction H as [|[k v cm] l Hi F IHl].
  - exists [], []. split; [exact parses_nil|]. split; [constructor|]. split; [|reflexivity]. intros. rewrite app_nil_r. reflexivity.
  - destruct IHl as (ls & t & P & M & B & TX). { intros k' w' cm' Hin. apply (IH k' w' cm'). right. exact Hin. }
    simpl in Hi. apply andb_prop in Hi. destruct Hi as (Hi & _). apply andb_prop in Hi. destruct Hi as (Hk & Hv).
    assert (Sk : solid_str (c_name k)) by (apply c_name_solid, lower_name; exact Hk).
    rewrite concat_map_str_cons. set (rest := concat_map_str _ l) in *. clearbody rest.
    assert (Leaf_case : (forall w, v <> VWith w) ->
      exists ls' t', parses ((repeat_str level C_SPACES ++ "." ++ c_name k ++ " = " ++ init_value v ++ "," ++ NL) ++ rest) ls'
        /\ mirrors (WI k v cm :: l) t'
        /\ (forall cur open tail, build_tree (ls' ++ tail) cur open = build_tree tail (cur ++ t') open)
        /\ ((repeat_str level C_SPACES ++ "." ++ c_name k ++ " = " ++ init_value v ++ "," ++ NL) ++ rest)%string
           = String.concat "" (map (tree_text (repeat_str level C_SPACES)) t')).
    { intros Hn. destruct (init_value_text v Hv Hn) as (V & Sv).
      exists ([Assign (c_name k) (init_value v)] ++ ls), (Leaf (c_name k) (init_value v) :: t).
      split; [apply parses_app; [|exact P]|].
      - rewrite !string_app_assoc. rewrite <- (string_app_assoc _ "." (c_name k)).
        rewrite <- !string_app_assoc.
        replace (repeat_str level C_SPACES ++ "." ++ c_name k ++ " = " ++ init_value v ++ "," ++ NL)%string
          with ((repeat_str level C_SPACES ++ "." ++ c_name k ++ " = " ++ init_value v ++ ",") ++ NL)%string
          by (rewrite <- !string_app_assoc; reflexivity).
        apply parses_line; [apply read_assign; assumption|].
        rewrite !all_chars_app, level_no_LF, (solid_no_LF _ Sk), (solid_no_LF _ Sv). reflexivity.
      - split; [constructor; assumption|]. split; [intros cur open tail; cbn [app build_tree]; rewrite B, <- app_assoc; reflexivity|].
        cbn [map]. rewrite tree_texts_cons, <- TX. reflexivity. }
    destruct v as [z|f|b|w]; try (apply Leaf_case; discriminate). clear Leaf_case.
    destruct (IH k w cm (or_introl eq_refl) (S level) Hv) as (ls1 & t1 & P1 & M1 & B1 & TX1).
    exists (([Open (c_name k)] ++ ls1 ++ [Close]) ++ ls), (Node (c_name k) t1 :: t).
    split; [apply parses_app; [|exact P]|].
    + replace (repeat_str level C_SPACES ++ "." ++ c_name k ++ " = {" ++ NL
                 ++ init_components (S level) w ++ repeat_str level C_SPACES ++ "}," ++ NL)%string
        with (((repeat_str level C_SPACES ++ "." ++ c_name k ++ " = {") ++ NL)
                 ++ init_components (S level) w ++ (repeat_str level C_SPACES ++ "},") ++ NL)%string
        by (rewrite <- !string_app_assoc; reflexivity).
      apply parses_app; [|apply parses_app; [exact P1|]].
      * apply parses_line; [apply read_open; exact Sk|]. rewrite !all_chars_app, level_no_LF, (solid_no_LF _ Sk). reflexivity.
      * apply parses_line; [apply read_close|]. rewrite all_chars_app, level_no_LF. reflexivity.
    + split; [constructor; assumption|]. split.
      * intros cur open tail. rewrite <- !app_assoc. cbn [app build_tree].
        rewrite B1. cbn [app build_tree]. rewrite B, <- app_assoc. reflexivity.
      * cbn [map]. rewrite tree_texts_cons, <- TX. cbn [tree_text]. rewrite <- (level_more level), <- TX1. reflexivity.
Qed.

Lemma init_start_spec : forall n k w, is_name_lower k = true -> wcomps_ok w = true ->
  initialises (n, k, w) (init_start (c_name n) k w).
Proof.
  intros n k w Hk Hw. destruct (init_spec w 2 Hw) as (ls & t & P & M & B & TX).
  assert (Sk : solid_str (c_name k)) by (apply c_name_solid, lower_name; exact Hk).
  exists (((repeat_str 1 C_SPACES ++ "." ++ c_name k ++ " = {") ++ NL) ++ init_components 2 w ++ (repeat_str 1 C_SPACES ++ "},") ++ NL)%string, t.
  split; [unfold init_start; rewrite <- !string_app_assoc; reflexivity|]. split; [|split; [exact M|]].
  2:{ cbn [tree_text]. change ("  " ++ "  ")%string with (repeat_str 2 C_SPACES). rewrite <- TX, <- !string_app_assoc. reflexivity. }
  apply (parses_read _ ([Open (c_name k)] ++ ls ++ [Close])).
  - apply parses_app; [|apply parses_app; [exact P|]].
    + apply parses_line; [apply read_open; exact Sk|]. rewrite !all_chars_app, level_no_LF, (solid_no_LF _ Sk). reflexivity.
    + apply parses_line; [apply read_close|]. reflexivity.
  - cbn [app build_tree]. rewrite B. reflexivity.
Qed.

(** The components can be read back from the tree. *)
Lemma mirrors_agree : forall l t, mirrors l t -> forall l', mirrors l' t ->
  Forall (fun i => witem_ok i = true) l -> Forall (fun i => witem_ok i = true) l' -> agree l l'.
Proof.
  intros l t M. induction M as [|k v cm r s t V M IH|k w cm r sub t M1 IH1 M2 IH2]; intros l' M' F F'.
  - inversion M'; subst. constructor.
  - inversion M' as [|k' v' cm' r' s' t' V' M'' E1 [E2 E3 E4]|]; subst. inversion F as [|? ? Fk Fr]; subst. inversion F' as [|? ? Fk' Fr']; subst.
    assert (Ek : k = k').
    { apply c_name_inj; [| |symmetry; exact E2]; apply lower_name; [simpl in Fk; apply andb_prop in Fk; destruct Fk as (Fk & _); apply andb_prop in Fk; apply Fk
        |simpl in Fk'; apply andb_prop in Fk'; destruct Fk' as (Fk' & _); apply andb_prop in Fk'; apply Fk']. }
    subst k'. constructor; [eauto|]. apply IH; assumption.
  - inversion M' as [| |k' w' cm' r' sub' t' M1' M2' E1 [E2 E3 E4]]; subst. inversion F as [|? ? Fk Fr]; subst. inversion F' as [|? ? Fk' Fr']; subst.
    simpl in Fk, Fk'. apply andb_prop in Fk; destruct Fk as (Fk & _); apply andb_prop in Fk; destruct Fk as (Fk & Fw).
    apply andb_prop in Fk'; destruct Fk' as (Fk' & _); apply andb_prop in Fk'; destruct Fk' as (Fk' & Fw').
    assert (Ek : k = k') by (apply c_name_inj; [apply lower_name; assumption|apply lower_name; assumption|symmetry; exact E2]).
    subst k'. constructor; [apply IH1; [assumption|apply wcomps_ok_items; assumption..]|apply IH2; assumption].
Qed.

(** ** The .c file in the output folder *)

Lemma module_header_comment : forall fuel b bm inc note wch c,
  (forall n k c, wch n k = Ok c -> cd_includes c = []) ->
  module_cdata fuel b bm inc note wch = Ok c ->
  cd_header_comment c = match mod_comment (bm_mod bm) with Some cm => cm_text cm | None => "" end.
Proof.
  intros fuel b bm inc note wch c Hw H. unfold module_cdata in H.
  apply bind_ok in H. destruct H as (sorted & Hs & H).
  apply bind_ok in H. destruct H as (c1 & Hc & H).
  apply (convert_definitions_collects _ _ _ _ _ Hw) in Hc.
  destruct Hc as (css & iss & F & _ & N & C4 & C5 & _). simpl in C5. injection H as <-.
  destruct (mod_comment (bm_mod bm)) as [cm|]; [|exact C5].
  destruct (String.eqb_spec (cm_text cm) ""); [congruence|reflexivity].
Qed.

Lemma c_definition_inits : forall mn d cs, handled (c_with_components mn) d cs ->
  flat_map cd_inits cs = map (fun x => let '(n, k, w) := x in init_start (c_name n) k w) (def_clauses d).
Proof.
  intros mn d cs H. unfold handled in H. destruct d as [n c l| | |]; simpl in *; try (inversion H; reflexivity).
  revert cs H. induction l as [|k l IH]; intros cs H; simpl in *; [inversion H; reflexivity|].
  unfold has_clause at 1 in H. destruct (m_with k) as [w|] eqn:E; [|apply IH; exact H].
  inversion H as [|? x ? q Hx F]; subst. simpl. unfold c_with_components in Hx. rewrite E in Hx. injection Hx as <-.
  simpl. f_equal. apply IH. exact F.
Qed.

Lemma same_clauses : forall d d', same_definition d d' -> def_clauses d' = def_clauses d.
Proof.
  intros d d' H. destruct d; simpl in H; try (subst; reflexivity). destruct H as (l' & -> & _). reflexivity.
Qed.

Lemma same_simple : forall d d', same_definition d d' -> is_simple d' = is_simple d.
Proof.
  intros d d' H. destruct d; simpl in H; try (subst; reflexivity). destruct H as (l' & -> & _). reflexivity.
Qed.

Lemma clause_ok : forall d x, definition_ok d = true -> In x (def_clauses d) ->
  is_name_lower (snd (fst x)) = true /\ wcomps_ok (snd x) = true.
Proof.
  intros d x Hd Hx. destruct d as [n c l| | |]; simpl in Hx; try contradiction.
  apply in_flat_map in Hx. destruct Hx as (k & Hk & Hx). destruct (m_with k) as [w|] eqn:E; [|contradiction].
  destruct Hx as [<-|[]]. simpl. simpl in Hd. apply andb_prop in Hd. destruct Hd as (_ & Hd).
  rewrite forallb_forall in Hd. specialize (Hd k Hk). unfold member_ok in Hd. rewrite E in Hd.
  repeat (apply andb_prop in Hd; destruct Hd as (Hd & ?)). auto.
Qed.

(** The include line of the last definition that is not a simple type. *)
Fixpoint include_after (inc cur : string) (ds : list definition) : string :=
  match ds with
  | [] => cur
  | d :: r => include_after inc (if is_simple d then cur else if is_nil (def_clauses d) then "" else inc) r
  end.

Lemma c_last_include : forall mn ds css cur, Forall2 (handled (c_with_components mn)) ds css ->
  last_include cur ds css = include_after (quoted_include (c_filename mn ++ ".h")) cur ds.
Proof.
  intros mn. induction ds as [|d ds IH]; intros css cur H; inversion H as [|? cs ? q Hd F]; subst; [reflexivity|].
  simpl. rewrite IH by exact F. f_equal.
  unfold handled in Hd. destruct d as [n c l|n c l|n c l|n t c]; simpl in Hd |- *; try (inversion Hd; reflexivity); try reflexivity.
  assert (G : Forall (fun c => cd_init_include c = quoted_include (c_filename mn ++ ".h")) cs
              /\ is_nil (flat_map (fun k => match m_with k with Some w => [(n, m_key k, w)] | None => [] end) l) = is_nil cs).
  { clear - Hd. revert cs Hd. induction l as [|k l IH]; intros cs H; simpl in *; [inversion H; split; [constructor|reflexivity]|].
    unfold has_clause at 1 in H. destruct (m_with k) as [w|] eqn:E; [|apply IH; exact H].
    inversion H as [|? x ? q Hx F]; subst. unfold c_with_components in Hx. rewrite E in Hx. injection Hx as <-.
    split; [constructor; [reflexivity|]; apply (IH _ F)|reflexivity]. }
  destruct G as (G & ->). destruct cs as [|x cs]; [reflexivity|]. cbn [is_nil].
  inversion G as [|? ? G1 G2]; subst. cbn [map]. rewrite last_cons.
  clear - G1 G2. revert x G1. induction cs as [|y cs IH]; intros x G1; [exact G1|].
  inversion G2; subst. cbn [map]. rewrite last_cons. apply IH; assumption.
Qed.

Lemma include_after_iff : forall inc ds cur, inc <> "" ->
  (ends_with_clause ds -> include_after inc cur ds = inc)
  /\ (~ ends_with_clause ds -> include_after inc cur ds = if forallb is_simple ds then cur else "").
Proof.
  intros inc ds cur Hinc. revert cur. induction ds as [|d ds IH] using rev_ind; intros cur.
  - split; [|reflexivity]. intros (a & d & b & E & _). destruct a; discriminate.
  - assert (A : forall l x cur, include_after inc cur (l ++ [x])
        = if is_simple x then include_after inc cur l else if is_nil (def_clauses x) then "" else inc).
    { clear. induction l as [|y l IHl]; intros x cur; [reflexivity|]. simpl. apply IHl. }
    rewrite A, forallb_app. simpl. rewrite andb_true_r.
    destruct (is_simple d) eqn:Es.
    + assert (E : ends_with_clause (ds ++ [d]) <-> ends_with_clause ds).
      { split.
        - intros (a & x & b & E & Hx & Hb). destruct b as [|y b] using rev_ind.
          + apply app_inj_tail in E. destruct E as (-> & ->). destruct x; try discriminate. simpl in Hx. congruence.
          + clear IHb. rewrite app_comm_cons, app_assoc in E. apply app_inj_tail in E. destruct E as (-> & ->).
            apply Forall_app in Hb. exists a, x, b. tauto.
        - intros (a & x & b & -> & Hx & Hb). exists a, x, (b ++ [d]). split; [rewrite <- app_assoc; reflexivity|].
          split; [exact Hx|]. apply Forall_app. split; [exact Hb|]. constructor; [exact Es|constructor]. }
      rewrite E, andb_true_r. apply IH.
    + rewrite andb_false_r. destruct (def_clauses d) as [|x xs] eqn:Ed; simpl.
      * split; [|reflexivity]. intros (a & y & b & E & Hy & Hb). exfalso. destruct b as [|z b] using rev_ind.
        -- apply app_inj_tail in E. destruct E as (-> & ->). congruence.
        -- clear IHb. rewrite app_comm_cons, app_assoc in E. apply app_inj_tail in E. destruct E as (-> & ->).
           apply Forall_app in Hb. destruct Hb as (_ & Hb). inversion Hb. congruence.
      * split; [reflexivity|]. intros N. exfalso. apply N. exists ds, d, []. split; [reflexivity|].
        split; [congruence|constructor].
Qed.

Lemma same_ends : forall order order', Forall2 same_definition order order' ->
  (ends_with_clause order <-> ends_with_clause order').
Proof.
  intros order order' F. split.
  - intros (a & d & b & -> & Hd & Hb). apply Forall2_app_inv_l in F. destruct F as (a' & q & Fa & Fq & ->).
    inversion Fq as [|? d' ? b' Sd Fb]; subst. exists a', d', b'. split; [reflexivity|].
    split; [rewrite (same_clauses _ _ Sd); exact Hd|]. apply Forall_forall. intros x Hx.
    destruct (Forall2_in_r _ _ _ _ _ _ Fb Hx) as (y & Hy & S). rewrite (same_simple _ _ S).
    rewrite Forall_forall in Hb. apply Hb. exact Hy.
  - intros (a & d & b & -> & Hd & Hb). apply Forall2_app_inv_r in F. destruct F as (a' & q & Fa & Fq & ->).
    inversion Fq as [|d' ? b' ? Sd Fb]; subst. exists a', d', b'. split; [reflexivity|].
    split; [rewrite <- (same_clauses _ _ Sd); exact Hd|]. apply Forall_forall. intros x Hx.
    destruct (Forall2_in_l _ _ _ _ _ _ Fb Hx) as (y & Hy & S). rewrite <- (same_simple _ _ S).
    rewrite Forall_forall in Hb. apply Hb. exact Hy.
Qed.

Lemma source_written_of : forall names fuel input fs fs' m,
  Forall (fun m => grammatical m = true) input -> run fuel (GenerateC names) input fs = (fs', Ok tt) -> In m input ->
  exists b bm sorted order include texts, config names input b /\ In bm (b_modules b) /\ same_module m (bm_mod bm)
    /\ sorted_definitions fuel (bm_mod bm) = Ok sorted /\ Forall2 same_definition order sorted
    /\ Permutation order (mod_defs m)
    /\ Forall2 initialises (flat_map def_clauses order) texts
    /\ (ends_with_clause order -> include = ("#include """ ++ c_name (mod_name m) ++ ".h""" ++ NL ++ NL)%string)
    /\ (~ ends_with_clause order -> include = "")
    /\ folder_get fs' (c_name (mod_name m) ++ ".c")
       = Some (source_head m ++ include ++ String.concat "" texts)%string.
Proof.
  intros names fuel input fs fs' m Hg H Hm.
  destruct (run_input_written names (GenerateC names) fuel input fs fs' m) as (b & bm & fl & C & Hbm & S & Hfl & R);
    [right; left; reflexivity|assumption|assumption|assumption|].
  cbn [module_files] in Hfl. apply bind_ok in Hfl. destruct Hfl as (c & Hc & E). injection E as <-.
  unfold c_cdata in Hc. assert (Hh := module_header_comment _ _ _ _ _ _ _ (c_wch_includes _) Hc).
  destruct (module_collects _ _ _ _ _ _ _ (c_wch_includes _) Hc) as (sorted & css & iss & Hs & F & _ & Ei & _ & _ & _ & El & _).
  assert (P := sorted_perm _ _ _ Hs). destruct (order_of_input _ _ _ S P) as (order & P' & F').
  rewrite (c_last_include _ _ _ _ F) in El.
  exists b, bm, sorted, order, (if String.eqb (cd_init_include c) "" then "" else cd_init_include c ++ NL ++ NL)%string, (cd_inits c).
  split; [exact C|]. split; [exact Hbm|]. split; [exact S|]. split; [exact Hs|]. split; [exact F'|].
  split; [exact P'|]. destruct S as (Sn & Sc & _). split; [|split; [|split]].
  - assert (E : flat_map def_clauses sorted = flat_map def_clauses order).
    { clear - F'. induction F' as [|d d' l l' H F IH]; [reflexivity|]. simpl. rewrite IH, (same_clauses _ _ H). reflexivity. }
    assert (I : cd_inits c = map (fun x => let '(n, k, w) := x in init_start (c_name n) k w) (flat_map def_clauses order)).
    { rewrite Ei, <- E. clear - F. induction F as [|d cs l css H F IH]; [reflexivity|]. simpl.
      rewrite flat_map_app, map_app, IH, (c_definition_inits _ _ _ H). reflexivity. }
    rewrite I. assert (O : Forall (fun x => is_name_lower (snd (fst x)) = true /\ wcomps_ok (snd x) = true) (flat_map def_clauses order)).
    { rewrite Forall_forall in *. intros x Hx. apply in_flat_map in Hx. destruct Hx as (d & Hd & Hx).
      eapply clause_ok; [|exact Hx]. assert (G := grammatical_defs m (Hg m Hm)). rewrite Forall_forall in G. apply G.
      apply (Permutation_in _ P'). exact Hd. }
    clear - O. induction O as [|[[n k] w] l (Hk & Hw) _ IH]; [constructor|]. cbn [map]. constructor; [|exact IH].
    apply init_start_spec; assumption.
  - intros En. apply (same_ends _ _ F') in En.
    destruct (include_after_iff (quoted_include (c_filename (bm_name bm) ++ ".h")) sorted "") as (I & _); [discriminate|].
    rewrite El, (I En). unfold bm_name. rewrite Sn. unfold quoted_include, c_filename. rewrite <- !string_app_assoc. reflexivity.
  - intros En. rewrite (same_ends _ _ F') in En.
    destruct (include_after_iff (quoted_include (c_filename (bm_name bm) ++ ".h")) sorted "") as (_ & I); [discriminate|].
    rewrite El, (I En). destruct (forallb is_simple sorted); reflexivity.
  - rewrite <- Sn. rewrite (R _ (render_source c)).
    + unfold render_source, source_head, file_header. rewrite Hh, (proj1 Sc). rewrite <- !string_app_assoc.
      destruct (mod_comment m) as [cm|]; [|reflexivity]. destruct (String.eqb (cm_text cm) ""); reflexivity.
    + right. left. reflexivity.
Qed.

Lemma source_written : forall names fuel input fs fs' m,
  Forall (fun m => grammatical m = true) input -> run fuel (GenerateC names) input fs = (fs', Ok tt) -> In m input ->
  exists order include texts, Permutation order (mod_defs m)
    /\ Forall2 initialises (flat_map def_clauses order) texts
    /\ (ends_with_clause order -> include = ("#include """ ++ c_name (mod_name m) ++ ".h""" ++ NL ++ NL)%string)
    /\ (~ ends_with_clause order -> include = "")
    /\ folder_get fs' (c_name (mod_name m) ++ ".c")
       = Some (source_head m ++ include ++ String.concat "" texts)%string.
Proof.
  intros names fuel input fs fs' m Hg H Hm.
  destruct (source_written_of names fuel input fs fs' m Hg H Hm) as (b & bm & sorted & order & include & texts & _ & _ & _ & _ & _ & X).
  exists order, include, texts. exact X.
Qed.

Lemma ends_with_clause_all : forall l, (exists d, In d l /\ def_clauses d <> []) ->
  (forall d, In d l -> is_simple d = true \/ def_clauses d <> []) -> ends_with_clause l.
Proof.
  induction l as [|d l IH] using rev_ind; intros (x & Hx & Nx) H; [destruct Hx|].
  assert (C : def_clauses d = [] \/ def_clauses d <> []) by (destruct (def_clauses d); [left; reflexivity|right; discriminate]).
  destruct C as [C|C].
  - destruct IH as (a & y & b & -> & Hy & Hb).
    + apply in_app_or in Hx. destruct Hx as [Hx|[<-|[]]]; [eauto|congruence].
    + intros y Hy. apply H. apply in_or_app. left. exact Hy.
    + exists a, y, (b ++ [d]). split; [rewrite <- app_assoc; reflexivity|]. split; [exact Hy|].
      apply Forall_app. split; [exact Hb|]. constructor; [|constructor].
      destruct (H d ltac:(apply in_or_app; right; left; reflexivity)) as [E|E]; [exact E|congruence].
  - exists l, d, []. split; [reflexivity|]. split; [exact C|constructor].
Qed.

Lemma header_included : forall names fuel input fs fs' m,
  Forall (fun m => grammatical m = true) input -> run fuel (GenerateC names) input fs = (fs', Ok tt) -> In m input ->
  (exists d, In d (mod_defs m) /\ def_clauses d <> []) ->
  (forall d, In d (mod_defs m) -> is_simple d = true \/ def_clauses d <> []) ->
  exists rest, folder_get fs' (c_name (mod_name m) ++ ".c")
    = Some (source_head m ++ "#include """ ++ c_name (mod_name m) ++ ".h""" ++ NL ++ NL ++ rest)%string.
Proof.
  intros names fuel input fs fs' m Hg H Hm (d & Hd & Nd) Ha.
  destruct (source_written _ _ _ _ _ _ Hg H Hm) as (order & inc & texts & P & _ & I & _ & E).
  rewrite I in E.
  - eexists. rewrite E. rewrite <- !string_app_assoc. reflexivity.
  - apply ends_with_clause_all.
    + exists d. split; [apply (Permutation_in _ (Permutation_sym P)); exact Hd|exact Nd].
    + intros x Hx. apply Ha. apply (Permutation_in _ P). exact Hx.
Qed.

(** The text determines sequence, member and clause. *)
Lemma text_determines : forall n k w n' k' w' text,
  is_name_capital n = true -> is_name_lower k = true -> wcomps_ok w = true ->
  is_name_capital n' = true -> is_name_lower k' = true -> wcomps_ok w' = true ->
  initialises (n, k, w) text -> initialises (n', k', w') text ->
  n = n' /\ k = k' /\ agree (wc_items w) (wc_items w').
Proof.
  intros n k w n' k' w' text Hn Hk Hw Hn' Hk' Hw' (body & sub & E & R & M & _) (body' & sub' & E' & R' & M' & _).
  assert (N : c_name n = c_name n').
  { rewrite E in E'. apply (f_equal (split_on " ")) in E'.
    cbn [append] in E'.
    rewrite (split_on_solid " " (c_name n)), (split_on_solid " " (c_name n')) in E'
      by (apply solid_no_space, c_name_solid, capital_name; assumption).
    apply (f_equal (hd "")) in E'. exact E'. }
  assert (n = n') by (apply c_name_inj; try (apply capital_name; assumption); exact N). subst n'.
  assert (B : body = body').
  { rewrite E in E'. do 4 apply string_app_inv_l in E'. apply string_app_inv_l in E'.
    apply string_app_inv_r in E'. exact E'. }
  subst body'. rewrite R in R'. injection R' as Ek <-.
  split; [reflexivity|]. split; [apply c_name_inj; try (apply lower_name; assumption); exact Ek|].
  apply (mirrors_agree _ sub M _ M'); apply wcomps_ok_items; assumption.
Qed.
