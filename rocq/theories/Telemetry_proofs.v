(** * Proofs: reading COSMOS telemetry files *)
From Coq Require Import Lia ZifyBool ZifyNat ZifyN.
From Verif Require Import Base PyNum PyStr Ast Size Bundle GenCosmos Main Spec_Enum Enum_proofs Spec_Grammar Spec_Num Spec_Check
  Spec_Bundle Spec_Size Spec_Text Text_proofs Str_proofs Name_proofs Cosmos_proofs Spec_Cosmos Cosmos_text_proofs Spec_Telemetry Lib_proofs Bundle_proofs Accept_proofs Float_proofs.
Open Scope string_scope.

(** ** Words *)

Lemma pieces_blank : forall a s, blank a -> pieces_of Between (a ++ s) = pieces_of Between s.
Proof.
  intros a s (_ & H). induction a as [|c a IH]; [reflexivity|]. cbn [append pieces_of].
  rewrite (H c (or_introl eq_refl)). cbn. apply IH. intros d Hd. apply H. right. exact Hd.
Qed.

Lemma pieces_in_bare : forall w u a s, plain w -> blank a ->
  pieces_of (InBare u) (w ++ a ++ s) = option_map (cons (Bare (u ++ w))) (pieces_of Between s).
Proof.
  induction w as [|c w IH]; intros u a s P B.
  - destruct (blank_head _ B) as (r & ->). cbn [append pieces_of]. cbn. rewrite string_app_nil.
    destruct B as (_ & B). f_equal. destruct r as [|d r]; [reflexivity|]. apply pieces_blank. split; [discriminate|].
    intros x Hx. apply B. right. exact Hx.
  - cbn [append pieces_of]. destruct P as (P1 & P2 & P3).
    destruct (Ascii.eqb_spec c " ") as [->|N]; [exfalso; apply P1; left; reflexivity|].
    rewrite IH; [|repeat split; intros X; [apply P1|apply P2|apply P3]; right; exact X|exact B].
    rewrite <- string_app_assoc. reflexivity.
Qed.

Lemma pieces_word : forall w a s, word w -> blank a ->
  pieces_of Between (w ++ a ++ s) = option_map (cons (Bare w)) (pieces_of Between s).
Proof.
  intros [|c w] a s (N & P1 & P2 & P3) B; [congruence|]. cbn [append pieces_of].
  destruct (Ascii.eqb_spec c " ") as [->|Na]; [exfalso; apply P1; left; reflexivity|].
  destruct (Ascii.eqb_spec c DQ) as [->|Nb]; [exfalso; apply P2; left; reflexivity|].
  rewrite pieces_in_bare; [reflexivity| |exact B]. repeat split; intros X; [apply P1|apply P2|apply P3]; right; exact X.
Qed.

Lemma pieces_last : forall w, word w -> pieces_of Between w = Some [Bare w].
Proof.
  assert (G : forall w u, plain w -> pieces_of (InBare u) w = Some [Bare (u ++ w)]).
  { induction w as [|c w IH]; intros u (P1 & P2 & P3); [cbn; rewrite string_app_nil; reflexivity|]. cbn [pieces_of].
    destruct (Ascii.eqb_spec c " ") as [->|N]; [exfalso; apply P1; left; reflexivity|].
    rewrite IH; [rewrite <- string_app_assoc; reflexivity|repeat split; intros X; [apply P1|apply P2|apply P3]; right; exact X]. }
  intros [|c w] (N & P1 & P2 & P3); [congruence|]. cbn [pieces_of].
  destruct (Ascii.eqb_spec c " ") as [->|Na]; [exfalso; apply P1; left; reflexivity|].
  destruct (Ascii.eqb_spec c DQ) as [->|Nb]; [exfalso; apply P2; left; reflexivity|].
  rewrite G; [reflexivity|]. repeat split; intros X; [apply P1|apply P2|apply P3]; right; exact X.
Qed.

Lemma pieces_quote : forall c s, ~ has_char DQ c -> ~ has_char "\" c ->
  pieces_of Between (DQUOTE ++ c ++ DQUOTE ++ s) = option_map (cons (Quote c)) (pieces_of Between s).
Proof.
  intros c s. unfold DQUOTE at 1. cbn [append pieces_of].
  change (Ascii.eqb DQ " ") with false. rewrite (proj2 (Ascii.eqb_eq DQ DQ) eq_refl). cbn [append].
  enough (G : forall c u, ~ has_char DQ c -> ~ has_char "\" c ->
    pieces_of (InQuote u) (c ++ DQUOTE ++ s) = option_map (cons (Quote (u ++ c))) (pieces_of Between s)) by (apply (G c "")).
  clear c. induction c as [|x c IH]; intros u H1 H2.
  - unfold DQUOTE. cbn [append pieces_of]. rewrite (proj2 (Ascii.eqb_eq DQ DQ) eq_refl), string_app_nil. reflexivity.
  - cbn [append pieces_of]. destruct (Ascii.eqb_spec x DQ) as [->|N]; [exfalso; apply H1; left; reflexivity|].
    destruct (Ascii.eqb_spec x "\") as [->|N']; [exfalso; apply H2; left; reflexivity|].
    rewrite IH; [rewrite <- string_app_assoc; reflexivity|intros X; apply H1; right; exact X|intros X; apply H2; right; exact X].
Qed.

(** ** Lines *)

Lemma lines_from_app : forall s cur r, ~ has_char LF s -> lines_from cur (s ++ NL ++ r) = (cur ++ s) :: lines_from "" r.
Proof.
  induction s as [|c s IH]; intros cur r H.
  - unfold NL. cbn [append lines_from]. rewrite (proj2 (Ascii.eqb_eq LF LF) eq_refl), string_app_nil. reflexivity.
  - cbn [append lines_from]. destruct (Ascii.eqb_spec c LF) as [->|N]; [exfalso; apply H; left; reflexivity|].
    rewrite IH; [|intros X; apply H; right; exact X]. rewrite <- string_app_assoc. reflexivity.
Qed.

Lemma text_lines_line : forall s r, ~ has_char LF s -> speaks s = true -> text_lines (s ++ NL ++ r) = s :: text_lines r.
Proof. intros s r H S. unfold text_lines. rewrite lines_from_app by exact H. cbn [append filter]. rewrite S. reflexivity. Qed.

Lemma lines_from_some : forall s cur, lines_from cur s <> [].
Proof. induction s as [|c s IH]; intros cur; cbn [lines_from]; [discriminate|]. destruct (Ascii.eqb c LF); [discriminate|apply IH]. Qed.

Lemma lines_from_ended : forall a cur b, lines_from cur (a ++ NL ++ b) = (removelast (lines_from cur (a ++ NL)) ++ lines_from "" b)%list.
Proof.
  induction a as [|c a IH]; intros cur b.
  - unfold NL. cbn [append lines_from]. rewrite (proj2 (Ascii.eqb_eq LF LF) eq_refl). reflexivity.
  - cbn [append lines_from]. destruct (Ascii.eqb c LF); rewrite IH; [|reflexivity].
    cbn [removelast]. destruct (lines_from "" (a ++ NL)) eqn:E; [|reflexivity].
    exfalso. exact (lines_from_some _ _ E).
Qed.

Lemma text_lines_ended : forall a b, ended a -> text_lines (a ++ b) = (text_lines a ++ text_lines b)%list.
Proof.
  intros a b [->|(r & ->)]; [reflexivity|]. unfold text_lines. rewrite <- string_app_assoc, lines_from_ended, filter_app. f_equal.
  assert (E := lines_from_ended r "" ""). rewrite string_app_nil in E. rewrite E at 2. rewrite filter_app. cbn. rewrite app_nil_r. reflexivity.
Qed.

(** ** Item lines *)

Lemma read_little : forall b : bool, exists ps, pieces_of Between (if b then " LITTLE_ENDIAN" else "") = Some ps /\ endian ps = Some b.
Proof. intros [|]; eexists; (split; [reflexivity|reflexivity]). Qed.

(** What an item line says. *)
Definition role_text (r : role) (kw v : string) : Prop :=
  match r with
  | Value => kw = "APPEND_ITEM" /\ v = ""
  | Id x => kw = "APPEND_ID_ITEM" /\ v = x /\ word x
  | Array n => kw = "APPEND_ARRAY_ITEM" /\ v = str_of_Z n
  end.

Lemma laid_out_read : forall s f r z, laid_out s f -> role_text r (fd_keyword f) (fd_value f) ->
  fd_bits f = str_of_Z z -> ~ has_char DQ (fd_comment f) -> ~ has_char "\" (fd_comment f) ->
  exists l ps, s = l ++ NL /\ ~ has_char LF l /\ speaks l = true /\ pieces_of Between l = Some ps
    /\ read_tline ps = Some (LItem r (fd_name f) z (fd_type f) (fd_comment f) (fd_little f)).
Proof.
  intros s f r z (K & N & B & T & C & a0 & a1 & a2 & a3 & a4 & a5 & B0 & B1 & B2 & B3 & B4 & B5 & E) R Ez Q1 Q2.
  destruct (read_little (fd_little f)) as (pl & Hpl & El).
  assert (V : plain (fd_value f)).
  { destruct r as [|x|n]; cbn in R; [destruct R as (_ & ->)|destruct R as (_ & -> & (_ & W)); exact W|destruct R as (_ & ->)].
    - repeat split; intros [].
    - apply str_of_Z_word. }
  exists (a0 ++ fd_keyword f ++ a1 ++ fd_name f ++ a2 ++ fd_bits f ++ a3 ++ fd_type f ++ a4 ++ fd_value f ++ a5 ++ DQUOTE
          ++ fd_comment f ++ DQUOTE ++ (if fd_little f then " LITTLE_ENDIAN" else "")).
  rewrite pieces_blank, !pieces_word by assumption.
  assert (P : exists qs, pieces_of Between (fd_value f ++ a5 ++ DQUOTE ++ fd_comment f ++ DQUOTE ++ (if fd_little f then " LITTLE_ENDIAN" else ""))
     = Some (match r with Value => qs | _ => Bare (fd_value f) :: qs end) /\ qs = Quote (fd_comment f) :: pl).
  { eexists. split; [|reflexivity]. destruct r as [|x|n]; cbn in R.
    - destruct R as (_ & ->). cbn [append]. rewrite pieces_blank, pieces_quote, Hpl by assumption. reflexivity.
    - destruct R as (_ & -> & W). rewrite pieces_word, pieces_quote, Hpl by assumption. reflexivity.
    - destruct R as (_ & ->). rewrite pieces_word, pieces_quote, Hpl; auto. apply str_of_Z_word. }
  destruct P as (qs & P & ->). rewrite P. cbn [option_map]. eexists. split; [|split; [|split; [|split; [reflexivity|]]]].
  - rewrite E. rewrite <- !string_app_assoc. reflexivity.
  - rewrite !has_char_app.
    assert (X1 := blank_no_LF _ B0). assert (X2 := blank_no_LF _ B1). assert (X3 := blank_no_LF _ B2). assert (X4 := blank_no_LF _ B3).
    assert (X5 := blank_no_LF _ B4). assert (X6 := blank_no_LF _ B5). assert (X7 := word_no_LF _ K). assert (X8 := word_no_LF _ N).
    assert (X9 := word_no_LF _ B). assert (X10 := word_no_LF _ T). assert (X11 : ~ has_char LF (fd_value f)) by apply V.
    assert (X12 : ~ has_char LF DQUOTE) by (intros [Y|[]]; discriminate).
    assert (X13 : ~ has_char LF (if fd_little f then " LITTLE_ENDIAN" else "")).
    { destruct (fd_little f); intros X; vm_compute in X; intuition discriminate. }
    tauto.
  - destruct (blank_head _ B0) as (x & ->). reflexivity.
  - rewrite Ez. assert (RZ := read_str_of_Z z). destruct r as [|x|n]; cbn in R.
    + destruct R as (-> & _). cbn [read_tline]. rewrite RZ, El. reflexivity.
    + destruct R as (-> & -> & _). cbn [read_tline]. rewrite RZ, El. reflexivity.
    + destruct R as (-> & ->). cbn [read_tline]. rewrite RZ, read_str_of_Z, El. reflexivity.
Qed.

(** ** Texts and what their lines say *)

Definition line_says (l : string) (t : tline) : Prop := exists ps, pieces_of Between l = Some ps /\ read_tline ps = Some t.

Definition says (s : string) (ts : list tline) : Prop :=
  ended s /\ exists ls, (forall r, text_lines (s ++ r) = (ls ++ text_lines r)%list) /\ Forall2 line_says ls ts.

Lemma ended_app : forall a b, ended a -> ended b -> ended (a ++ b).
Proof.
  intros a b Ha [->|(r & ->)]; [rewrite string_app_nil; exact Ha|]. right. exists (a ++ r). apply string_app_assoc.
Qed.

Lemma says_nil : says "" [].
Proof. split; [left; reflexivity|]. exists []. split; [reflexivity|constructor]. Qed.

Lemma says_app : forall a b ts ts', says a ts -> says b ts' -> says (a ++ b) (ts ++ ts').
Proof.
  intros a b ts ts' (Ea & ls & A1 & A2) (Eb & ls' & B1 & B2). split; [apply ended_app; assumption|].
  exists (ls ++ ls')%list. split; [|apply Forall2_app; assumption].
  intros r. rewrite <- string_app_assoc, A1, B1, app_assoc. reflexivity.
Qed.

Lemma says_line : forall l t, ~ has_char LF l -> speaks l = true -> line_says l t -> says (l ++ NL) [t].
Proof.
  intros l t H S L. split; [right; eexists; reflexivity|]. exists [l]. split; [|repeat constructor; exact L].
  intros r. rewrite <- string_app_assoc, text_lines_line by assumption. reflexivity.
Qed.

Lemma says_silent : forall l, ~ has_char LF l -> speaks l = false -> says (l ++ NL) [].
Proof.
  intros l H S. split; [right; eexists; reflexivity|]. exists []. split; [|constructor].
  intros r. rewrite <- string_app_assoc. unfold text_lines. rewrite lines_from_app by exact H.
  cbn [append filter app]. rewrite S. reflexivity.
Qed.

Fixpoint puts (ts : list tline) (r : rest) : option rest :=
  match ts with
  | [] => Some r
  | t :: ts => match puts ts r with Some r => put t r | None => None end
  end.

Lemma puts_app : forall a b r r', puts b r = Some r' -> puts (a ++ b) r = puts a r'.
Proof. induction a as [|t a IH]; intros b r r' H; [exact H|]. cbn [puts app]. rewrite (IH _ _ _ H). reflexivity. Qed.

Lemma assemble_says : forall ls ts, Forall2 line_says ls ts -> forall r x, assemble r = Some x ->
  assemble (ls ++ r) = puts ts x.
Proof.
  intros ls ts F r x E. induction F as [|l t ls ts (ps & P & R) F IH]; [exact E|]. cbn [app assemble puts]. rewrite IH, P, R.
  destruct (puts ts x); reflexivity.
Qed.

(** ** The lines of an entry *)

Lemma says_states : forall l i, Forall word l -> says (state_lines i l) (map (fun x => LState (fst x) (snd x)) (numbered i l)).
Proof.
  induction l as [|s l IH]; intros i F; [apply says_nil|]. inversion F as [|? ? W F']; subst. cbn [state_lines numbered map].
  assert (A := IH (i + 1)%Z F').
  replace (INDENT ++ INDENT ++ "STATE " ++ ljust 31 s ++ " " ++ str_of_Z i ++ NL ++ state_lines (i + 1) l)
    with (((INDENT ++ INDENT) ++ "STATE" ++ " " ++ s ++ (repeat_str (31 - String.length s) " " ++ " ") ++ str_of_Z i) ++ NL ++ state_lines (i + 1) l)
    by (unfold ljust; rewrite <- !string_app_assoc; reflexivity).
  rewrite string_app_assoc. refine (says_app _ _ [_] _ _ A). clear A.
  assert (WZ := str_of_Z_word i). assert (BL := blank_repeat (31 - String.length s)).
  apply says_line.
  - rewrite !has_char_app. assert (X1 := word_no_LF _ W). assert (X2 := word_no_LF _ WZ).
    assert (X3 := blank_no_LF _ BL). rewrite has_char_app in X3. cbn [fst snd].
    assert (X4 : ~ has_char LF INDENT) by (intros X; vm_compute in X; intuition discriminate).
    assert (X5 : ~ has_char LF "STATE") by (intros X; vm_compute in X; intuition discriminate).
    assert (X6 : ~ has_char LF " ") by (intros X; vm_compute in X; intuition discriminate). tauto.
  - reflexivity.
  - exists [Bare "STATE"; Bare s; Bare (str_of_Z i)]. split.
    + rewrite pieces_blank by (split; [discriminate|intros c H; vm_compute in H; intuition congruence]).
      rewrite pieces_word; [|split; [discriminate|apply pchar_plain; reflexivity]|apply (blank_repeat 0)].
      rewrite pieces_word, pieces_last by assumption. reflexivity.
    + cbn [read_tline]. rewrite read_str_of_Z. reflexivity.
Qed.

Definition num_words (r : option (num * num)) : Prop := match r with Some (b, e) => word (str_num b) /\ word (str_num e) | None => True end.

Definition range_text (r : option (num * num)) : option (string * string * string * string) :=
  match r with Some (b, e) => Some (str_num b, str_num b, str_num e, str_num e) | None => None end.

Lemma says_limits : forall r, num_words r ->
  says (limits_line r) (match range_text r with Some (a, b, c, d) => [LLimits a b c d] | None => [] end).
Proof.
  intros [[b e]|] W; [|apply says_nil]. destruct W as (Wb & We). cbn [limits_line range_text].
  replace (INDENT ++ INDENT ++ "LIMITS DEFAULT 5 ENABLED " ++ str_num b ++ " " ++ str_num b ++ " " ++ str_num e ++ " " ++ str_num e ++ NL)
    with (("        LIMITS DEFAULT 5 ENABLED " ++ str_num b ++ " " ++ str_num b ++ " " ++ str_num e ++ " " ++ str_num e) ++ NL)
    by (rewrite <- !string_app_assoc; reflexivity).
  assert (BL : blank " ") by apply (blank_repeat 0). apply says_line.
  - rewrite !has_char_app. assert (X1 := word_no_LF _ Wb). assert (X2 := word_no_LF _ We). assert (X3 := blank_no_LF _ BL).
    assert (X4 : ~ has_char LF "        LIMITS DEFAULT 5 ENABLED ") by (intros X; vm_compute in X; intuition discriminate). tauto.
  - reflexivity.
  - exists [Bare "LIMITS"; Bare "DEFAULT"; Bare "5"; Bare "ENABLED"; Bare (str_num b); Bare (str_num b); Bare (str_num e); Bare (str_num e)].
    split; [|reflexivity].
    assert (X : forall s, pieces_of Between ("        LIMITS DEFAULT 5 ENABLED " ++ s)
      = option_map (fun l => Bare "LIMITS" :: Bare "DEFAULT" :: Bare "5" :: Bare "ENABLED" :: l) (pieces_of Between s)).
    { intros s. cbn. destruct (pieces_of Between s); reflexivity. }
    rewrite X, !pieces_word, pieces_last by assumption. reflexivity.
Qed.

Lemma says_unit : forall u, u = "" \/ word u ->
  says (units_line u) (match u with "" => [] | _ => [LUnit u] end).
Proof.
  intros u [->|W]; [apply says_nil|]. unfold units_line. destruct (String.eqb_spec u "") as [->|N]; [apply says_nil|].
  destruct u as [|c u0] eqn:E; [congruence|]. rewrite <- E in *.
  replace (INDENT ++ INDENT ++ "UNITS " ++ u ++ " " ++ u ++ NL) with (("        UNITS " ++ u ++ " " ++ u) ++ NL)
    by (rewrite <- !string_app_assoc; reflexivity).
  assert (BL : blank " ") by apply (blank_repeat 0). apply says_line.
  - rewrite !has_char_app. assert (X1 := word_no_LF _ W). assert (X3 := blank_no_LF _ BL).
    assert (X4 : ~ has_char LF "        UNITS ") by (intros X; vm_compute in X; intuition discriminate). tauto.
  - reflexivity.
  - exists [Bare "UNITS"; Bare u; Bare u]. split; [|cbn; rewrite String.eqb_refl; reflexivity].
    assert (X : forall s, pieces_of Between ("        UNITS " ++ s) = option_map (fun l => Bare "UNITS" :: l) (pieces_of Between s)).
    { intros s. cbn. destruct (pieces_of Between s); reflexivity. }
    rewrite X, !pieces_word, pieces_last by assumption. reflexivity.
Qed.

Definition opt_unit (u : string) : option string := match u with "" => None | _ => Some u end.

Definition entry_item (r : role) (e : entry) : titem :=
  mktitem r (te_name e) (te_bits e) (cosmos_type (te_type e)) (te_comment e) (te_little e)
          (numbered 0 (te_states e)) (range_text (te_range e)) (opt_unit (te_unit e)).

Lemma says_entry : forall r e, word (te_name e) -> ~ has_char LF (te_comment e) -> ~ has_char LF (cosmos_value e) ->
  role_text r (id_or_array e) (cosmos_value e) -> ~ has_char DQ (te_comment e) -> ~ has_char "\" (te_comment e) ->
  Forall word (te_states e) -> num_words (te_range e) -> (te_unit e = "" \/ word (te_unit e)) ->
  exists ts, says (entry_text e) ts /\ forall is ps, puts ts (mkrest [] None None is ps) = Some (mkrest [] None None (entry_item r e :: is) ps).
Proof.
  intros r e N C V R Q1 Q2 S L U.
  destruct (laid_out_read _ _ r (te_bits e) (item_line_laid_out e N C V) R eq_refl Q1 Q2) as (l & pl & E & A1 & A2 & A3 & A4).
  assert (X1 : says (item_line e) [LItem r (te_name e) (te_bits e) (cosmos_type (te_type e)) (te_comment e) (te_little e)]).
  { rewrite E. apply says_line; [exact A1|exact A2|]. exists pl. split; [exact A3|exact A4]. }
  assert (X2 := says_states _ 0%Z S). assert (X3 := says_limits _ L). assert (X4 := says_unit _ U).
  eexists. split; [exact (says_app _ _ _ _ X1 (says_app _ _ _ _ X2 (says_app _ _ _ _ X3 X4)))|].
  intros is ps. cbn [app puts].
  assert (P1 : puts (match te_unit e with "" => [] | _ => [LUnit (te_unit e)] end) (mkrest [] None None is ps)
    = Some (mkrest [] None (opt_unit (te_unit e)) is ps)) by (destruct (te_unit e); reflexivity).
  assert (P2 : puts (match range_text (te_range e) with Some (a, b, c, d) => [LLimits a b c d] | None => [] end
      ++ match te_unit e with "" => [] | _ => [LUnit (te_unit e)] end) (mkrest [] None None is ps)
    = Some (mkrest [] (range_text (te_range e)) (opt_unit (te_unit e)) is ps)).
  { rewrite (puts_app _ _ _ _ P1). destruct (range_text (te_range e)) as [[[[a b] c] d]|]; reflexivity. }
  rewrite (puts_app _ _ _ _ P2).
  assert (G : forall ss, puts (map (fun x => LState (fst x) (snd x)) ss) (mkrest [] (range_text (te_range e)) (opt_unit (te_unit e)) is ps)
    = Some (mkrest ss (range_text (te_range e)) (opt_unit (te_unit e)) is ps)).
  { induction ss as [|[s z] ss IH]; [reflexivity|]. cbn [map puts fst snd]. rewrite IH. reflexivity. }
  rewrite G. reflexivity.
Qed.

(** ** Roles *)

Lemma role_shown : forall lf e, shows lf e -> shows_value lf e -> one_clause lf ->
  Forall (fun k => member_ok k = true) (lf_path lf) ->
  exists r, role_of lf r /\ role_text r (id_or_array e) (cosmos_value e).
Proof.
  intros lf e S V (_ & O) Hp. assert (OK := fun v => fixed_ok lf v Hp).
  assert (PT : forall v, In v (fixed_values lf) -> word (plain_text v)).
  { intros v Hv. assert (NW : forall w, v <> VWith w) by (intros w ->; exact (O w Hv)).
    assert (W := value_word v (OK v Hv) NW). destruct v; try exact W. exfalso. exact (O _ Hv). }
  assert (K := sh_kind _ _ S). assert (A := sh_array _ _ S).
  assert (W0 : word "0") by (split; [discriminate|apply pchar_plain; reflexivity]).
  assert (W1 : word "1") by (split; [discriminate|apply pchar_plain; reflexivity]).
  assert (NE : forall z, String.eqb ("0x" ++ format_X 2 z) "True" = false).
  { intros z. apply String.eqb_neq. cbn [append]. intros X. discriminate X. }
  unfold id_or_array, cosmos_value, role_of. rewrite A, K. clear A K. unfold shows_value in V.
  destruct (m_type (lf_member lf)) as [rg|rg| | |k n|n t|n] eqn:Et; cbn [is_array]; cycle 5.
  { rewrite V. assert (T : String.eqb (str_of_Z (n * lf_bits lf)) "True" = false).
    { apply String.eqb_neq. intros X. assert (Y := read_str_of_Z (n * lf_bits lf)). rewrite X in Y. discriminate Y. }
    destruct (lf_kind lf); [exists (Array 0)|exists (Array (n * lf_bits lf))..]; rewrite ?T; cbn; auto. }
  all: destruct (String.eqb (m_key (lf_member lf)) "application-process-identifier").
  all: try (destruct V as (v & z & Ef & Ez & NF & Ev); rewrite Ef, Ev, ?NE;
    assert (WX := apid_text z); assert (NZ : String.eqb ("0x" ++ format_X 2 z) "" = false) by (apply String.eqb_neq, WX);
    assert (Hz : v = VInt z \/ (v = VBool true /\ z = 1%Z) \/ (v = VBool false /\ z = 0%Z))
      by (destruct v as [z'|f|[]|w]; subst z; auto; exfalso; [exact (NF f eq_refl)|apply (O w); rewrite Ef; left; reflexivity]);
    destruct (lf_kind lf); rewrite ?NZ;
    [exists (Id "0"); destruct v as [z'|f|[]|w]; cbn; auto
    |exists (Id ("0x" ++ format_X 2 z)); (split; [exists z; auto|cbn [role_text]; auto])..]).
  all: destruct (fixed_values lf) as [|v rest]; rewrite V.
  all: try (destruct (lf_kind lf); [exists (Id "0")|exists Value..]; cbn; auto; fail).
  all: assert (Wv := PT v (or_introl eq_refl)); assert (NV : String.eqb (plain_text v) "" = false) by (apply String.eqb_neq, Wv).
  all: destruct (lf_kind lf); [|rewrite NV; exists (Id (plain_text v)); cbn [role_text]; auto..].
  all: exists (Id (if String.eqb (plain_text v) "True" then "1" else "0")).
  all: (split; [|destruct (String.eqb (plain_text v) "True"); cbn; auto]).
  all: destruct v as [z|f|[|]|w]; cbn [plain_text]; try reflexivity.
  all: try (assert (X : String.eqb (str_of_Z z) "True" = false);
    [apply String.eqb_neq; intros X; assert (Y := read_str_of_Z z); rewrite X in Y; discriminate Y|rewrite X; reflexivity]).
  all: assert (F := OK _ (or_introl eq_refl)); cbn [wval_ok] in F; apply float_ok_chars in F; destruct F as (F & _).
  all: destruct (String.eqb_spec (frepr f) "True") as [X|X]; [rewrite X in F; discriminate F|reflexivity].
Qed.

(** ** Packets *)

Lemma concat_cons : forall a l, String.concat "" (a :: l) = a ++ String.concat "" l.
Proof. intros a [|b l]; cbn; [rewrite string_app_nil|]; reflexivity. Qed.

Definition entry_reads (e : entry) (t : titem) : Prop :=
  exists ts, says (entry_text e) ts /\ forall is ps, puts ts (mkrest [] None None is ps) = Some (mkrest [] None None (t :: is) ps).

Lemma says_entries : forall es its, Forall2 entry_reads es its ->
  exists ts, says (String.concat "" (map entry_text es)) ts
    /\ forall is ps, puts ts (mkrest [] None None is ps) = Some (mkrest [] None None (its ++ is) ps).
Proof.
  intros es its F. induction F as [|e t es its (ts & S & P) F (ts' & S' & P')].
  - exists []. split; [apply says_nil|reflexivity].
  - exists (ts ++ ts')%list. cbn [map]. rewrite concat_cons. split; [apply says_app; assumption|].
    intros is ps. rewrite (puts_app _ _ _ _ (P' is ps)). apply P.
Qed.

Definition packet_reads (target : string) (p : packet) (t : tpacket) : Prop :=
  exists ts, says (packet_text target p) ts /\ forall ps, puts ts (mkrest [] None None [] ps) = Some (mkrest [] None None [] (t :: ps)).

Lemma says_packet : forall target p its, word target -> word (pk_name p) ->
  ~ has_char LF (pk_comment p) -> ~ has_char DQ (pk_comment p) -> ~ has_char "\" (pk_comment p) ->
  Forall2 entry_reads (pk_entries p) its ->
  packet_reads target p (mktpacket target (pk_name p) (pk_comment p) its).
Proof.
  intros target p its Wt Wn C1 C2 C3 F. destruct (says_entries _ _ F) as (ts & S & P).
  exists (LPacket target (pk_name p) (pk_comment p) :: ts). split.
  - unfold packet_text, cosmos_telemetry.
    replace ("TELEMETRY " ++ target ++ " " ++ pk_name p ++ " BIG_ENDIAN " ++ DQUOTE ++ pk_comment p ++ DQUOTE ++ NL ++ String.concat "" (map entry_text (pk_entries p)))
      with ((("TELEMETRY " ++ target ++ " " ++ pk_name p ++ " BIG_ENDIAN " ++ DQUOTE ++ pk_comment p ++ DQUOTE ++ "") ++ NL) ++ String.concat "" (map entry_text (pk_entries p)))
      by (rewrite <- !string_app_assoc; reflexivity).
    refine (says_app _ _ [_] _ _ S). clear S P F.
    assert (BL : blank " ") by apply (blank_repeat 0). apply says_line.
    + rewrite !has_char_app. assert (X1 := word_no_LF _ Wt). assert (X2 := word_no_LF _ Wn). assert (X3 := blank_no_LF _ BL).
      assert (X4 : ~ has_char LF "TELEMETRY ") by (intros X; vm_compute in X; intuition discriminate).
      assert (X5 : ~ has_char LF " BIG_ENDIAN ") by (intros X; vm_compute in X; intuition discriminate).
      assert (X6 : ~ has_char LF DQUOTE) by (intros X; vm_compute in X; intuition discriminate). 
      assert (X7 : ~ has_char LF "") by (intros []). tauto.
    + reflexivity.
    + exists [Bare "TELEMETRY"; Bare target; Bare (pk_name p); Bare "BIG_ENDIAN"; Quote (pk_comment p)]. split; [|reflexivity].
      assert (X : forall s, pieces_of Between ("TELEMETRY " ++ s) = option_map (fun l => Bare "TELEMETRY" :: l) (pieces_of Between s)).
      { intros s. cbn. destruct (pieces_of Between s); reflexivity. }
      assert (Y : forall s, " BIG_ENDIAN " ++ s = " " ++ "BIG_ENDIAN" ++ " " ++ s) by reflexivity.
      assert (WB : word "BIG_ENDIAN") by (split; [discriminate|apply pchar_plain; reflexivity]).
      rewrite Y, X, (pieces_word target " "), (pieces_word (pk_name p) " "), (pieces_word "BIG_ENDIAN" " "), pieces_quote; auto.
  - intros ps. cbn [puts]. rewrite P. cbn [put]. rewrite app_nil_r. reflexivity.
Qed.

Lemma says_run : forall target ps tps, Forall2 (packet_reads target) ps tps ->
  exists ts, says (text_of_run (map (packet_text target) ps)) ts
    /\ forall qs, puts ts (mkrest [] None None [] qs) = Some (mkrest [] None None [] (tps ++ qs)).
Proof.
  intros target ps tps F. unfold text_of_run.
  assert (H : says ("# This file was autogenerated from ASN.1 model." ++ NL) []).
  { apply says_silent; [intros X; vm_compute in X; intuition discriminate|reflexivity]. }
  assert (G : exists ts, says (String.concat "" (map (fun t => NL ++ t) (map (packet_text target) ps))) ts
    /\ forall qs, puts ts (mkrest [] None None [] qs) = Some (mkrest [] None None [] (tps ++ qs))).
  { clear H. induction F as [|p t ps tps (ts & S & P) F (ts' & S' & P')].
    - exists []. split; [apply says_nil|reflexivity].
    - exists (ts ++ ts')%list. cbn [map]. rewrite concat_cons. split.
      + apply says_app; [|exact S']. refine (says_app _ _ [] _ _ S). apply (says_silent ""); [intros []|reflexivity].
      + intros qs. rewrite (puts_app _ _ _ _ (P' qs)). apply P. }
  destruct G as (ts & S & P). exists ts. split; [|exact P]. rewrite string_app_assoc. exact (says_app _ _ [] _ H S).
Qed.

(** Files are read run by run. *)
Lemma assemble_rest : forall ls r qs ls', assemble ls = Some r -> assemble ls' = Some (mkrest [] None None [] qs) ->
  assemble (ls ++ ls') = Some (mkrest (r_states r) (r_limits r) (r_unit r) (r_items r) (r_packets r ++ qs)).
Proof.
  induction ls as [|l ls IH]; intros r qs ls' H H'; [injection H as <-; exact H'|]. cbn [assemble app] in *.
  destruct (assemble ls) as [r'|] eqn:E; [|discriminate]. rewrite (IH _ _ _ eq_refl H').
  destruct (pieces_of Between l) as [ps|]; [|discriminate]. destruct (read_tline ps) as [t|]; [|discriminate].
  destruct r' as [ss li u its pks]; cbn [r_states r_limits r_unit r_items r_packets] in *.
  destruct t; cbn [put] in *; try (injection H as <-; reflexivity).
  - destruct ss, li, u; try discriminate. injection H as <-. reflexivity.
  - destruct li; try discriminate. injection H as <-. reflexivity.
  - destruct u; try discriminate. injection H as <-. reflexivity.
Qed.

Lemma says_text : forall s ts, says s ts -> exists ls, text_lines s = ls /\ Forall2 line_says ls ts.
Proof. intros s ts (_ & ls & A & B). exists ls. split; [|exact B]. assert (E := A ""). rewrite string_app_nil in E. rewrite E. cbn. apply app_nil_r. Qed.

Lemma read_run : forall target ps tps old before, Forall2 (packet_reads target) ps tps ->
  ended old -> read_telemetry old = Some before ->
  ended (old ++ text_of_run (map (packet_text target) ps))
  /\ read_telemetry (old ++ text_of_run (map (packet_text target) ps)) = Some (before ++ tps)%list.
Proof.
  intros target ps tps old before F En H. destruct (says_run _ _ _ F) as (ts & S & P).
  split; [apply ended_app; [exact En|apply S]|].
  unfold read_telemetry in *. rewrite text_lines_ended by exact En.
  destruct (assemble (text_lines old)) as [r|] eqn:E; [|discriminate].
  destruct (says_text _ _ S) as (ls & El & Fl). assert (A := assemble_says _ _ Fl [] _ eq_refl). rewrite app_nil_r in A.
  rewrite (P []), app_nil_r in A. rewrite El, (assemble_rest _ _ _ _ E A).
  destruct r as [[|? ?] [|] [|] [|? ?] pks]; try discriminate. injection H as <-. reflexivity.
Qed.

(** ** Words of a bundle *)

Lemma capital_plain : forall n, is_name_capital n = true -> word n.
Proof.
  intros n H. split; [intros ->; discriminate|]. apply pchar_plain. destruct (capital_chars _ H) as (c & r & -> & Hc & Hr).
  simpl. apply andb_true_intro. split.
  - apply pchar_codes. apply upper_codes in Hc. lia.
  - revert Hr. apply all_chars_impl. intros x Hx. apply pchar_codes. apply nchar_codes in Hx. lia.
Qed.

Lemma unit_word : forall c, comment_opt_ok c = true -> unit_of c = "" \/ word (unit_of c).
Proof.
  intros [c|] H; [|left; reflexivity]. cbn [unit_of]. destruct (cm_unit c) as [|x u] eqn:E; [left; reflexivity|right].
  split; [discriminate|]. cbn [comment_opt_ok] in H. unfold comment_ok in H. apply andb_prop in H. destruct H as (_ & H). rewrite E in H.
  apply pchar_plain. revert H. apply all_chars_impl. intros y Hy. apply pchar_codes. unfold unit_char, is_upper, is_lower, is_digit in Hy.
  rewrite !ascii_eqb_N in Hy. cbn in Hy. lia.
Qed.

Section Accepted.
Variables (input : list module) (bun : bundle).
Hypothesis Hg : Forall (fun m => grammatical m = true) input.
Hypothesis Ha : accepted input bun.
Let ms := all_modules bun.

Lemma bundle_source : forall d, In d (all_defs bun) -> exists d0, definition_ok d0 = true /\ same_definition d0 d.
Proof.
  intros d Hd. destruct (accepted_same _ _ Ha) as (_ & Hs & _).
  destruct (Forall2_in_r _ _ _ _ _ _ Hs Hd) as (d0 & Hd0 & E). exists d0. split; [|exact E].
  apply in_flat_map in Hd0. destruct Hd0 as (m & Hm & Hd0). rewrite Forall_forall in Hg.
  exact (Check_proofs.grammatical_defs m d0 (Hg m Hm) Hd0).
Qed.

Lemma states_words : forall i p l ls, packet_leaves ms i p l ls -> Forall (fun lf => Forall word (lf_states lf)) ls.
Proof.
  intros i p l ls H. induction H as [p|p m r u c w s ls I H IH|p m n cm l r ls ls' E V H1 IH1 H2 IH2].
  - constructor.
  - constructor; [|exact IH]. cbn [lf_states]. destruct I as [t c w| |k n| |t n cm l w E V L]; try constructor.
    + split; [discriminate|apply pchar_plain; reflexivity].
    + constructor; [|constructor]. split; [discriminate|apply pchar_plain; reflexivity].
    + destruct (bundle_source _ (visible_defs bun _ _ V)) as (d0 & OK & S). destruct d0 as [n0 c0 l0|n0 c0 l0|n0 c0 l0|n0 t0 c0]; cbn in S; try discriminate.
      destruct S as (l' & S & R). injection S as <- <- <-. apply renumbered_labels in R.
      cbn [definition_ok] in OK. apply andb_prop in OK. destruct OK as (_ & OK). rewrite forallb_forall in OK.
      apply Forall_forall. intros x Hx. apply in_map_iff in Hx. destruct Hx as (e & <- & He).
      assert (X : In (label e) (map label l0)) by (apply (Permutation.Permutation_in _ (Permutation.Permutation_sym R)), in_map, He).
      apply in_map_iff in X. destruct X as (e0 & X & He0). specialize (OK _ He0). unfold enum_item_ok in OK. apply andb_prop in OK.
      injection X as X _. rewrite <- X. apply lower_word, OK.
  - apply Forall_app. split; assumption.
Qed.

Lemma values_ok : forall i p l ls, packet_leaves ms i p l ls ->
  Forall (fun lf => member_ok (lf_member lf) = true -> type_ok (lf_values lf) = true) ls.
Proof.
  intros i p l ls H. induction H as [p|p m r u c w s ls I H IH|p m n cm l r ls ls' E V H1 IH1 H2 IH2].
  - constructor.
  - constructor; [|exact IH]. cbn [lf_values lf_member]. intros M. apply Check_proofs.member_ok_type in M.
    destruct I as [t c w| |k n|t n u cm c w E V L|t n cm l w E V L]; try exact M; try reflexivity.
    apply (accepted_simple _ _ _ _ _ Hg Ha (visible_defs bun _ _ V)).
  - apply Forall_app. split; assumption.
Qed.

Lemma message_words : forall i m n cm l, nth_error ms i = Some m -> In (DSequence n cm l) (mod_defs m) -> word n /\ comment_opt_ok cm = true.
Proof.
  intros i m n cm l Hm Hd. assert (Hdd : In (DSequence n cm l) (all_defs bun)).
  { apply in_flat_map. exists m. split; [eapply nth_error_In; exact Hm|exact Hd]. }
  destruct (bundle_source _ Hdd) as (d0 & OK & S). destruct d0 as [n0 c0 l0|n0 c0 l0|n0 c0 l0|n0 t0 c0]; cbn in S; try discriminate;
    [|destruct S as (l' & S & _); discriminate]. injection S as <- <- <-.
  cbn [definition_ok] in OK. repeat (apply andb_prop in OK; destruct OK as (OK & ?)). split; [apply capital_plain; exact OK|assumption].
Qed.

Lemma entry_item_of : forall lf e r, shows lf e -> role_of lf r -> item_of lf (entry_item r e).
Proof.
  intros lf e r S R. constructor; unfold entry_item; cbn.
  - exact (sh_name _ _ S).
  - exact R.
  - exact (sh_bits _ _ S).
  - rewrite (sh_kind _ _ S). apply cosmos_type_name.
  - exact (sh_comment _ _ S).
  - exact (sh_little _ _ S).
  - rewrite (sh_states _ _ S). reflexivity.
  - assert (L := sh_limits _ _ S). unfold limits in L. unfold limits_of.
    destruct (lf_values lf) as [[[b en]|]|rg| | |k n|n t|n]; try (rewrite L; reflexivity).
    destruct L as (L1 & L2). split; intros F; [rewrite (L1 F)|rewrite (L2 F)]; reflexivity.
  - rewrite (sh_unit _ _ S). unfold opt_unit. destruct (unit_of _); reflexivity.
Qed.

Lemma leaf_reads : forall lf e, shows lf e -> shows_value lf e -> one_clause lf ->
  Forall (fun k => member_ok k = true) (lf_path lf) -> member_ok (lf_member lf) = true ->
  Forall word (lf_states lf) -> quiet (m_comment (lf_member lf)) -> type_ok (lf_values lf) = true ->
  exists t, entry_reads e t /\ item_of lf t.
Proof.
  intros lf e S V O Hp Hm Hs (Q1 & Q2) Hu. destruct (role_shown _ _ S V O Hp) as (r & R1 & R2).
  exists (entry_item r e). split; [|apply entry_item_of; assumption].
  unfold member_ok in Hm. apply andb_prop in Hm. destruct Hm as [Hm _]. apply andb_prop in Hm. destruct Hm as [Hm Hc].
  apply andb_prop in Hm. destruct Hm as [Hk _].
  apply says_entry.
  - rewrite (sh_name _ _ S). apply lower_word. exact Hk.
  - rewrite (sh_comment _ _ S). apply comment_no_LF. exact Hc.
  - destruct r as [|x|n]; cbn in R2; [destruct R2 as (_ & ->); intros []|destruct R2 as (_ & -> & W); apply word_no_LF; exact W
      |destruct R2 as (_ & ->); apply word_no_LF, str_of_Z_word].
  - exact R2.
  - rewrite (sh_comment _ _ S). exact Q1.
  - rewrite (sh_comment _ _ S). exact Q2.
  - rewrite (sh_states _ _ S). exact Hs.
  - assert (L := sh_limits _ _ S). unfold limits in L.
    destruct (lf_values lf) as [[[b en]|]|rg| | |k n|n t|n]; try (rewrite L; exact I).
    destruct (te_range e) as [[x y]|] eqn:E; [|exact I]. destruct L as (L1 & L2). cbn [num_words].
    assert (F : ~ full_range (TReal (Some (b, en)))) by (intros F; discriminate (L1 F)). specialize (L2 F). injection L2 as -> ->.
    cbn [type_ok] in Hu. apply andb_prop in Hu. destruct Hu as (Hb & He).
    split; [apply (value_word (VFloat b))|apply (value_word (VFloat en))]; try assumption; discriminate.
  - rewrite (sh_unit _ _ S). apply unit_word. exact Hc.
Qed.
End Accepted.

Lemma first_named_unique : forall ms i m i' m', first_named ms i m -> first_named ms i' m' -> mod_name m = mod_name m' -> i = i' /\ m = m'.
Proof.
  intros ms i m i' m' (A1 & A2) (B1 & B2) E. assert (i = i'); [|subst; split; congruence].
  destruct (Nat.lt_trichotomy i i') as [L|[->|L]]; [|reflexivity|]; exfalso; [apply (B2 i m L A1)|apply (A2 i' m' L B1)]; congruence.
Qed.

Lemma run_reads0 : forall fuel mn msgs target input fs fs', Forall (fun m => grammatical m = true) input -> word target ->
  run fuel (GenerateCosmos mn msgs target) input fs = (fs', Ok tt) ->
  exists bun, accepted input bun
    /\ forall i m, let ms := all_modules bun in first_named ms i m -> mod_name m = mn -> one_clause_each ms i m msgs -> quiet_messages ms i m msgs ->
       exists ps, Forall2 (packet_of ms i m target) msgs ps
         /\ forall old before, match folder_get fs (target ++ ".txt") with Some t => t | None => "" end = old ->
            ended old -> read_telemetry old = Some before ->
            exists text, folder_get fs' (target ++ ".txt") = Some text /\ ended text
              /\ read_telemetry text = Some (before ++ ps)%list.
Proof.
  intros fuel mn msgs target input fs fs' Hg Wt H. destruct (cosmos_run_inv _ _ _ _ _ _ _ H) as (bun & pks & Hb & Hp & ->).
  assert (Ha : accepted input bun) by (right; exact Hb).
  exists bun. split; [exact Ha|]. intros i m ms Fm Em O Q. unfold ms in *. clear ms.
  assert (Hm := proj1 Fm).
  assert (P : packets fuel bun i msgs [] = Ok pks).
  { destruct (cosmos_packets_inv _ _ _ _ _ Hp) as [(-> & -> & N)|(i' & m' & Fm' & Em' & P)].
    - reflexivity.
    - destruct (first_named_unique _ _ _ _ _ Fm Fm') as (-> & ->); [congruence|]. exact P. }
  assert (S := packets_values _ _ Hg Ha _ _ _ _ _ Hm O P).
  assert (G : exists ps, Forall2 (packet_of (all_modules bun) i m target) msgs ps /\ Forall2 (packet_reads target) pks ps).
  { assert (O' : forall n, In n msgs -> forall cm l ls, In (DSequence n cm l) (mod_defs m) -> packet_leaves (all_modules bun) i [] l ls -> 
      Forall one_clause ls /\ quiet cm /\ Forall (fun lf => quiet (m_comment (lf_member lf))) ls).
    { intros n Hn cm l ls Hd Pl. split; [exact (O n cm l ls Hn Hd Pl)|exact (Q n cm l ls Hn Hd Pl)]. }
    clear O Q P Hp H. induction S as [|n p msgs pks (D & _) S IH]; [exists []; split; constructor|].
    destruct IH as (ps & A & B); [intros x Hx; apply O'; right; exact Hx|].
    destruct D as (cm & l & ls & Hd & En & Ec & Pl & F). destruct (O' n (or_introl eq_refl) cm l ls Hd Pl) as (O1 & (Q1 & Q2) & Q3).
    assert (Mo := leaves_ok _ _ Hg Ha _ _ _ _ _ _ Hm Hd Pl). assert (St := states_words _ _ Hg Ha _ _ _ _ Pl). assert (Vo := values_ok _ _ Hg Ha _ _ _ _ Pl).
    destruct (message_words _ _ Hg Ha _ _ _ _ _ Hm Hd) as (Wn & Cn).
    assert (I : exists its, Forall2 entry_reads (pk_entries p) its /\ Forall2 item_of ls its).
    { clear - F O1 Q3 Mo St Vo. induction F as [|lf e ls es (Sh & Sv) F IH]; [exists []; split; constructor|].
      inversion O1; subst. inversion Q3; subst. inversion Mo; subst. inversion St; subst. inversion Vo; subst.
      destruct IH as (its & A & B); [assumption..|].
      destruct (leaf_reads lf e) as (t & T1 & T2); try tauto. exists (t :: its). split; constructor; assumption. }
    destruct I as (its & I1 & I2).
    exists (mktpacket target n (text_of cm) its :: ps). split; constructor; try assumption.
    - exists cm, l, ls. cbn. auto 10.
    - rewrite <- En, <- Ec. apply says_packet; try assumption; rewrite ?En, ?Ec; try assumption. apply comment_no_LF. exact Cn. }
  destruct G as (ps & A & B). exists ps. split; [exact A|]. intros old before Eo En Rd.
  destruct (folder_append_get (target ++ ".txt", text_of_run (map (packet_text target) pks)) fs) as (F1 & _). cbn [fst snd] in F1.
  rewrite Eo in F1. exists (old ++ text_of_run (map (packet_text target) pks)). split; [exact F1|]. apply read_run; assumption.
Qed.

(** The parts of a run that hold of the bundle read. *)
Lemma run_bundle : forall fuel mn msgs target input fs fs', Forall (fun m => grammatical m = true) input -> word target ->
  run fuel (GenerateCosmos mn msgs target) input fs = (fs', Ok tt) -> folder_get fs (target ++ ".txt") = None ->
  exists bun, accepted input bun
    /\ forall i m, first_named (all_modules bun) i m -> mod_name m = mn -> one_clause_each (all_modules bun) i m msgs ->
       quiet_messages (all_modules bun) i m msgs ->
       exists text ps, folder_get fs' (target ++ ".txt") = Some text /\ read_telemetry text = Some ps
         /\ Forall2 (packet_of (all_modules bun) i m target) msgs ps.
Proof.
  intros fuel mn msgs target input fs fs' Hg Wt H N. destruct (run_reads0 _ _ _ _ _ _ _ Hg Wt H) as (bun & Ha & R).
  exists bun. split; [exact Ha|]. intros i m F E O Q. destruct (R i m F E O Q) as (ps & P & T). rewrite N in T.
  destruct (T "" [] eq_refl (or_introl eq_refl) eq_refl) as (text & A & _ & B). exists text, ps. auto.
Qed.

(** ** Valid packets *)

Lemma upper_lower_inj : forall a b, is_name_lower a = true -> is_name_lower b = true -> upper a = upper b -> a = b.
Proof.
  assert (I : forall x y, nchar x = true -> nchar y = true -> upper_char x = upper_char y -> x = y).
  { intros x y Hx Hy E. apply (f_equal N_of_ascii) in E. apply ascii_N_eq.
    assert (U : forall c, nchar c = true -> N_of_ascii (upper_char c) = if is_lower c then (N_of_ascii c - 32)%N else N_of_ascii c).
    { intros c Hc. destruct (is_lower c) eqn:Ec; [apply upper_char_lower; exact Ec|]. unfold upper_char. rewrite Ec. reflexivity. }
    rewrite !U in E by assumption. apply nchar_codes in Hx, Hy. destruct (is_lower x) eqn:Lx; destruct (is_lower y) eqn:Ly; unfold is_lower in Lx, Ly; lia. }
  assert (L : forall s, is_name_lower s = true -> all_chars nchar s = true).
  { intros s H. destruct (lower_chars _ H) as (c & r & -> & Hc & Hr). cbn [all_chars]. rewrite Hr, andb_true_r. apply nchar_codes. apply lower_codes in Hc. lia. }
  intros a b Ha Hb. apply (str_map_inj nchar _ I); apply L; assumption.
Qed.

Lemma distinct_iff : forall ls p, Forall2 item_of ls (p_items p) -> Forall (fun lf => member_ok (lf_member lf) = true) ls ->
  (distinct_items p <-> distinct_keys ls).
Proof.
  intros ls p F M. unfold distinct_items, distinct_keys.
  assert (E : map (fun t => upper (t_name t)) (p_items p) = map upper (map (fun lf => m_key (lf_member lf)) ls)).
  { rewrite map_map. clear M. induction F as [|lf t ls its A F IH]; [reflexivity|]. cbn [map]. rewrite (io_name _ _ A), IH. reflexivity. }
  rewrite E. assert (L : Forall (fun k => is_name_lower k = true) (map (fun lf => m_key (lf_member lf)) ls)).
  { apply Forall_map. revert M. apply Forall_impl. intros lf H. unfold member_ok in H. repeat (apply andb_prop in H; destruct H as (H & _)). exact H. }
  clear - L. induction L as [|k ks Hk L IH]; [cbn; split; constructor|]. cbn [map]. rewrite !NoDup_cons_iff, IH.
  split; intros (N & D); (split; [|exact D]); intros X; apply N; [apply in_map; exact X|].
  apply in_map_iff in X. destruct X as (k' & Ek & X). rewrite Forall_forall in L. apply upper_lower_inj in Ek; auto. subst. exact X.
Qed.

(** Widths of leaves. *)
Definition leaf_width (lf : leaf) : Prop :=
  match lf_kind lf with
  | A_BOOL => lf_bits lf = 1
  | A_UINT => True
  | A_INT => lf_bits lf = 8 \/ lf_bits lf = 16 \/ lf_bits lf = 32 \/ lf_bits lf = 64
  | A_STRING => (exists n, lf_bits lf = n * 8) /\ is_array (m_type (lf_member lf)) = false
  | A_FLOAT => lf_bits lf = 32
  | A_DOUBLE => lf_bits lf = 64
  end%Z.

Lemma leaf_widths : forall ms i p l ls, packet_leaves ms i p l ls -> Forall leaf_width ls.
Proof.
  intros ms i p l ls H. induction H as [p|p m r u c w s ls I H IH|p m n cm l r ls ls' E V H1 IH1 H2 IH2].
  - constructor.
  - constructor; [|exact IH]. unfold leaf_width. cbn [lf_kind lf_bits lf_member].
    assert (W : forall t c w, written_item t c w -> match c with A_BOOL => w = 1 | A_UINT => True
       | A_INT => w = 8 \/ w = 16 \/ w = 32 \/ w = 64 | A_STRING => False | A_FLOAT => w = 32 | A_DOUBLE => w = 64 end%Z).
    { intros t c' w' X. destruct X as [| |b e w' Hb (X & _)| |]; auto. cbn in X. intuition lia. }
    destruct I as [t c w _ _ X| |k n|t n u cm c w _ _ X|]; try reflexivity; try (apply W in X; destruct c; auto; contradiction); auto.
    split; [exists n; reflexivity|reflexivity].
  - apply Forall_app. split; assumption.
Qed.

Lemma read_number_str : forall z, read_number (str_of_Z z) = Some z.
Proof.
  intros z. assert (R := read_str_of_Z z). unfold read_number. destruct (str_of_Z z) as [|a [|b s]]; try exact R.
  - destruct a as [[] [] [] [] [] [] [] []]; exact R.
  - destruct a as [[] [] [] [] [] [] [] []]; try exact R. destruct b as [[] [] [] [] [] [] [] []]; try exact R. discriminate R.
Qed.

Lemma read_number_hex : forall z, (read_number ("0x" ++ format_X 2 z) = Some z <-> (0 <= z)%Z)
  /\ forall v, read_number ("0x" ++ format_X 2 z) = Some v -> (0 <= z)%Z.
Proof.
  intros z. cbn [append read_number].
  assert (N : (z < 0)%Z -> read_hex (format_X 2 z) = None).
  { intros L. unfold format_X. rewrite (proj2 (Z.ltb_lt _ _) L). reflexivity. }
  assert (P := read_format_X 2 z). split; [split; auto|]; intros; destruct (Z.ltb_spec z 0) as [L|L]; auto; rewrite (N L) in *; discriminate.
Qed.

Lemma hex_in : forall (P : Z -> Prop) z, (exists y, read_number ("0x" ++ format_X 2 z) = Some y /\ P y) <-> (0 <= z)%Z /\ P z.
Proof.
  intros P z. destruct (read_number_hex z) as (H1 & H2). split.
  - intros (y & Y1 & Y2). assert (Y3 := H2 _ Y1). rewrite (proj2 H1 Y3) in Y1. injection Y1 as <-. auto.
  - intros (A & B). exists z. split; [apply H1; exact A|exact B].
Qed.

Lemma valid_iff : forall lf t, item_of lf t -> leaf_width lf -> (forall w, ~ In (VWith w) (fixed_values lf)) ->
  (valid_item t <-> valid_leaf lf).
Proof.
  intros lf t Hi W NW. unfold valid_item, valid_leaf. assert (R := io_role _ _ Hi). rewrite (io_bits _ _ Hi), (io_type _ _ Hi).
  set (w := lf_bits lf) in *.
  assert (EQ : forall A B B' C C' : Prop, (A -> (B <-> B')) -> (A -> B -> (C <-> C')) -> (A /\ B /\ C <-> A /\ B' /\ C')) by tauto.
  apply EQ; [intros P|intros P B].
  { unfold leaf_width in W. fold w in W. destruct (lf_kind lf); cbn [kind_name].
    - split; [intros _ [X|X]; discriminate|intros _; lia].
    - split; [auto|intros X; apply X; auto].
    - split; [auto|intros X; apply X; auto].
    - destruct W as ((n & ->) & _). split; [intros _ [X|X]; discriminate|intros _; apply Z.mod_mul; lia].
    - split; [intros _ [X|X]; discriminate|auto].
    - split; [intros _ [X|X]; discriminate|auto]. }
  clear EQ. unfold role_of in R. fold w in R.
  destruct (m_type (lf_member lf)) as [rg|rg| | |k n|n u|n] eqn:Et; cycle 5.
  { destruct (lf_kind lf); rewrite R; fold w; [intuition lia|..];
      (assert (M : (n * w mod w = 0)%Z) by (apply Z.mod_mul; lia); assert (D : (0 < n * w <-> 0 < n)%Z) by nia; rewrite M, D; intuition discriminate). }
  all: destruct (lf_kind lf) eqn:Ek; cbn [kind_name].
  (* BOOLEAN *)
  all: try (unfold leaf_width in W; rewrite Ek in W; fold w in W; rewrite W;
    assert (RB : t_role t = Id "0" \/ t_role t = Id "1")
      by (destruct (fixed_values lf) as [|[z|f|[]|ww] rest]; auto; destruct (String.eqb _ _); auto);
    destruct RB as [RB|RB]; rewrite RB; cbn [valid_id]; (split; [intros _; exact I|intros _]);
    [exists 0%Z|exists 1%Z]; (split; [reflexivity|cbn; lia])).
  (* others than integers *)
  all: try (destruct (fixed_values lf) as [|v rest]; [rewrite R; tauto|]; destruct (String.eqb _ _); [destruct R as (z & _ & ->)|rewrite R];
    cbn [valid_id]; destruct v; tauto).
  all: destruct (fixed_values lf) as [|v rest]; [rewrite R; tauto|].
  all: destruct (String.eqb_spec (m_key (lf_member lf)) "application-process-identifier") as [Ka|Ka].
  all: try (destruct R as (z & Hz & ->); cbn [valid_id]; rewrite hex_in;
    assert (P1 : (0 < 2 ^ (w - 1))%Z) by (apply Z.pow_pos_nonneg; lia);
    assert (P2 : (2 ^ w = 2 * 2 ^ (w - 1))%Z) by (rewrite <- Z.pow_succ_r by lia; f_equal; lia);
    unfold leaf_width in W; rewrite Ek in W; fold w in W;
    destruct Hz as [->|[(-> & ->)|(-> & ->)]]; fold w; try (clear - Ka P1 P2; intuition lia);
    destruct W as [W|[W|[W|W]]]; rewrite W; cbn; intuition lia).
  all: try (rewrite R; cbn [valid_id]; destruct v as [z|f|b|ww]; cbn [plain_text]; fold w;
     [rewrite read_number_str; (split; [intros (y & [= <-] & Y); auto; tauto|intros X; exists z; tauto])
     |cbn [valid_id]; reflexivity
     |(split; [intros (y & Y & _); destruct b; discriminate Y|intros X; congruence])
     |exfalso; apply (NW ww); left; reflexivity]).
Qed.

Lemma run_reads : forall fuel mn msgs target input fs fs', Forall (fun m => grammatical m = true) input -> word target ->
  run fuel (GenerateCosmos mn msgs target) input fs = (fs', Ok tt) ->
  exists ms, Forall2 same_module input ms
    /\ forall i m, first_named ms i m -> mod_name m = mn -> one_clause_each ms i m msgs -> quiet_messages ms i m msgs ->
       exists ps, Forall2 (packet_of ms i m target) msgs ps
         /\ forall old before, match folder_get fs (target ++ ".txt") with Some t => t | None => "" end = old ->
            ended old -> read_telemetry old = Some before ->
            exists text, folder_get fs' (target ++ ".txt") = Some text /\ ended text
              /\ read_telemetry text = Some (before ++ ps)%list.
Proof.
  intros fuel mn msgs target input fs fs' Hg Wt H. destruct (run_reads0 _ _ _ _ _ _ _ Hg Wt H) as (bun & Ha & R).
  exists (all_modules bun). split; [apply (accepted_same _ _ Ha)|exact R].
Qed.

Lemma run_valid : forall fuel mn msgs target input fs fs', Forall (fun m => grammatical m = true) input -> word target ->
  run fuel (GenerateCosmos mn msgs target) input fs = (fs', Ok tt) -> folder_get fs (target ++ ".txt") = None ->
  exists ms, Forall2 same_module input ms
    /\ forall i m, first_named ms i m -> mod_name m = mn -> one_clause_each ms i m msgs -> quiet_messages ms i m msgs ->
       exists text ps, folder_get fs' (target ++ ".txt") = Some text /\ read_telemetry text = Some ps
         /\ Forall2 (fun n p => forall cm l ls, In (DSequence n cm l) (mod_defs m) -> packet_leaves ms i [] l ls ->
              (distinct_items p <-> distinct_keys ls)
              /\ (Forall valid_item (p_items p) <-> Forall valid_leaf ls)) msgs ps.
Proof.
  intros fuel mn msgs target input fs fs' Hg Wt H N. destruct (run_bundle _ _ _ _ _ _ _ Hg Wt H N) as (bun & Ha & R).
  exists (all_modules bun). split; [apply (accepted_same _ _ Ha)|]. intros i m F E O Q.
  destruct (R i m F E O Q) as (text & ps & T1 & T2 & P). exists text, ps. split; [exact T1|]. split; [exact T2|].
  assert (Hm := proj1 F).
  assert (O' : forall n, In n msgs -> forall cm l ls, In (DSequence n cm l) (mod_defs m) -> packet_leaves (all_modules bun) i [] l ls -> Forall one_clause ls).
  { intros n Hn cm l ls Hd Pl. exact (O n cm l ls Hn Hd Pl). }
  clear O Q R H T1 T2. induction P as [|n p msgs ps (cm & l & ls & Hd & Pl & _ & _ & _ & It) P IH]; [constructor|].
  constructor; [|apply IH; intros x Hx; apply O'; right; exact Hx].
  intros cm' l' ls' Hd' Pl'.
  assert (V : forall c x, In (DSequence n c x) (mod_defs m) -> visible (all_modules bun) i (DSequence n c x)).
  { intros c x Hx. exists i, m. split; [apply reach_here|auto]. }
  assert (X := visible_unique _ _ Ha i _ _ (V _ _ Hd) (V _ _ Hd') eq_refl). injection X as <- <-.
  assert (X := leaves_unique _ _ Ha _ _ _ _ _ Pl Pl'). subst ls'.
  assert (M := leaves_ok _ _ Hg Ha _ _ _ _ _ _ Hm Hd Pl).
  split.
  - apply distinct_iff; [exact It|]. revert M. apply Forall_impl. tauto.
  - assert (W := leaf_widths _ _ _ _ _ Pl). assert (O1 := O' n (or_introl eq_refl) cm l ls Hd Pl). clear - It W O1.
    induction It as [|lf t ls its A It IH]; [split; constructor|]. inversion W; subst. inversion O1 as [|? ? (_ & Nw) ?]; subst.
    rewrite !Forall_cons_iff, IH, (valid_iff lf t) by assumption. reflexivity.
Qed.

Lemma run_distinct : forall fuel mn msgs target input fs fs', Forall (fun m => grammatical m = true) input -> word target ->
  run fuel (GenerateCosmos mn msgs target) input fs = (fs', Ok tt) -> folder_get fs (target ++ ".txt") = None ->
  exists ms, Forall2 same_module input ms
    /\ forall i m, first_named ms i m -> mod_name m = mn -> one_clause_each ms i m msgs -> quiet_messages ms i m msgs ->
       exists text ps, folder_get fs' (target ++ ".txt") = Some text /\ read_telemetry text = Some ps
         /\ Forall2 (fun n p => forall cm l ls, In (DSequence n cm l) (mod_defs m) -> packet_leaves ms i [] l ls ->
              (distinct_items p <-> distinct_keys ls)) msgs ps.
Proof.
  intros fuel mn msgs target input fs fs' Hg W H N. destruct (run_valid _ _ _ _ _ _ _ Hg W H N) as (ms & S & R).
  exists ms. split; [exact S|]. intros i m F E O Q. destruct (R i m F E O Q) as (text & ps & A & B & C). exists text, ps.
  split; [exact A|]. split; [exact B|]. clear - C. induction C as [|n p msgs ps X C IH]; constructor; [|exact IH]. intros cm l ls Hd P. apply (X cm l ls Hd P).
Qed.

Lemma run_items : forall fuel mn msgs target input fs fs', Forall (fun m => grammatical m = true) input -> word target ->
  run fuel (GenerateCosmos mn msgs target) input fs = (fs', Ok tt) -> folder_get fs (target ++ ".txt") = None ->
  exists ms, Forall2 same_module input ms
    /\ forall i m, first_named ms i m -> mod_name m = mn -> one_clause_each ms i m msgs -> quiet_messages ms i m msgs ->
       exists text ps, folder_get fs' (target ++ ".txt") = Some text /\ read_telemetry text = Some ps
         /\ Forall2 (fun n p => forall cm l ls, In (DSequence n cm l) (mod_defs m) -> packet_leaves ms i [] l ls ->
              (Forall valid_item (p_items p) <-> Forall valid_leaf ls)) msgs ps.
Proof.
  intros fuel mn msgs target input fs fs' Hg W H N. destruct (run_valid _ _ _ _ _ _ _ Hg W H N) as (ms & S & R).
  exists ms. split; [exact S|]. intros i m F E O Q. destruct (R i m F E O Q) as (text & ps & A & B & C). exists text, ps.
  split; [exact A|]. split; [exact B|]. clear - C. induction C as [|n p msgs ps X C IH]; constructor; [|exact IH]. intros cm l ls Hd P. apply (X cm l ls Hd P).
Qed.
