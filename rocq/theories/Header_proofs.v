(** * Reading generated headers: tokens *)
From Coq Require Import Lia.
From Verif Require Import Base PyNum PyStr Ast CCommon Main Spec_Grammar Spec_Text Spec_C Spec_Header Str_proofs Text_proofs.
Open Scope string_scope.

(** ** Reading a piece of text *)
Fixpoint run_mode (m : mode) (s : string) : list token * mode :=
  match s with
  | "" => ([], m)
  | String c r => ((fst (token_step m c) ++ fst (run_mode (snd (token_step m c)) r))%list,
                   snd (run_mode (snd (token_step m c)) r))
  end.
Lemma tokens_run : forall a m r,
  tokens m (a ++ r) = option_map (app (fst (run_mode m a))) (tokens (snd (run_mode m a)) r).
Proof.
  induction a as [|c a IH]; intros m r.
  - simpl. destruct (tokens m r); reflexivity.
  - cbn [append tokens run_mode fst snd]. rewrite IH. destruct (tokens _ r); [|reflexivity].
    simpl. rewrite app_assoc. reflexivity.
Qed.
Lemma run_app : forall a b m ts m1 us m2, run_mode m a = (ts, m1) -> run_mode m1 b = (us, m2) ->
  run_mode m (a ++ b) = ((ts ++ us)%list, m2).
Proof.
  induction a as [|c a IH]; intros b m ts m1 us m2 HA HB.
  - injection HA as <- <-. exact HB.
  - cbn [append run_mode] in *. destruct (run_mode (snd (token_step m c)) a) as [t' m'] eqn:E.
    cbn [fst snd] in HA. injection HA as <- <-. erewrite IH; [|exact E|exact HB]. cbn [fst snd].
    rewrite app_assoc. reflexivity.
Qed.

(** ** Words *)
Definition is_word (s : string) : Prop := s <> "" /\ all_chars word_char s = true.
Lemma run_in_word : forall s w, all_chars word_char s = true -> run_mode (InWord w) s = ([], InWord (w ++ s)).
Proof.
  induction s as [|c s IH]; intros w H; [cbn; rewrite string_app_nil; reflexivity|].
  simpl in H. apply andb_true_iff in H as [H1 H2]. cbn [run_mode token_step]. rewrite H1. cbn [fst snd app].
  rewrite (IH _ H2). cbn [fst snd]. rewrite <- string_app_assoc. reflexivity.
Qed.
Lemma run_word : forall s, is_word s -> run_mode Code s = ([], InWord s).
Proof.
  intros [|c s] [N H]; [congruence|]. simpl in H. apply andb_true_iff in H as [H1 H2].
  cbn [run_mode token_step]. unfold code_step. rewrite H1. cbn [fst snd app]. rewrite (run_in_word _ _ H2). reflexivity.
Qed.
(** A word and what follows it. *)
Lemma run_word_then : forall s t ts m, is_word s -> run_mode (InWord s) t = (ts, m) -> run_mode Code (s ++ t) = (ts, m).
Proof. intros s t ts m W H. exact (run_app _ _ _ _ _ _ _ (run_word s W) H). Qed.

(** Integers *)
Lemma uint_word : forall u, all_chars word_char (DecimalString.NilEmpty.string_of_uint u) = true.
Proof. induction u; simpl; auto. Qed.
Lemma nat_word : forall z, (0 <= z)%Z -> is_word (str_of_Z z) /\ read_unsigned 10 (str_of_Z z) = Some z.
Proof.
  intros z Hz. assert (R := read_str_of_Z z).
  assert (D : exists u, str_of_Z z = DecimalString.NilZero.string_of_uint u).
  { unfold str_of_Z. destruct z; [exists (Decimal.D0 Decimal.Nil); reflexivity|eexists; reflexivity|lia]. }
  destruct D as (u & E). rewrite E in *.
  assert (W : is_word (DecimalString.NilZero.string_of_uint u)).
  { split; [destruct u; discriminate|]. destruct u; try reflexivity; apply (uint_word (_ u)). }
  split; [exact W|]. destruct (DecimalString.NilZero.string_of_uint u) as [|c r]; [discriminate R|].
  destruct W as [_ W]. simpl in W. apply andb_true_iff in W as [W _].
  assert (c <> "-"%char) by (intros ->; discriminate W).
  unfold read_int in R. destruct c as [[] [] [] [] [] [] [] []]; try exact R. congruence.
Qed.
Lemma neg_str : forall z, (z < 0)%Z -> str_of_Z z = "-" ++ str_of_Z (- z).
Proof. intros z Hz. destruct z; try lia. reflexivity. Qed.

Definition const_tokens (z : Z) : list token :=
  if (z <? 0)%Z then [Punct "-"; Word (str_of_Z (- z))] else [Word (str_of_Z z)].
Definition last_word (z : Z) : string := str_of_Z (Z.abs z).
Lemma run_const : forall z t ts m, run_mode (InWord (last_word z)) t = (Word (last_word z) :: ts, m) ->
  run_mode Code (str_of_Z z ++ t) = ((const_tokens z ++ ts)%list, m).
Proof.
  intros z t ts m H. unfold const_tokens, last_word in *. destruct (Z.ltb_spec z 0).
  - replace (Z.abs z) with (- z)%Z in H by lia. rewrite neg_str by assumption. rewrite <- string_app_assoc.
    refine (run_app "-" _ Code [Punct "-"] Code _ _ eq_refl _). apply run_word_then; [apply nat_word; lia|exact H].
  - replace (Z.abs z) with z in H by lia. apply run_word_then; [apply nat_word; lia|exact H].
Qed.
Lemma constant_read : forall z r, constant (const_tokens z ++ r) = Some (z, r).
Proof.
  intros z r. unfold const_tokens. destruct (Z.ltb_spec z 0); cbn [app constant].
  - destruct (nat_word (- z)) as [_ ->]; [lia|]. rewrite Z.opp_involutive. reflexivity.
  - destruct (nat_word z) as [_ ->]; [lia|]. reflexivity.
Qed.

(** ** Comments *)
Fixpoint last_backslash (b : bool) (s : string) : bool :=
  match s with "" => b | String c r => last_backslash (Ascii.eqb c "\") r end.
Definition no_LF (s : string) : Prop := all_chars (fun c => negb (Ascii.eqb c LF)) s = true.
Lemma run_line_comment : forall s b, no_LF s -> run_mode (LineComment b) s = ([], LineComment (last_backslash b s)).
Proof.
  unfold no_LF. induction s as [|c s IH]; intros b H; [reflexivity|]. simpl in H. apply andb_true_iff in H as [H1 H2].
  apply negb_true_iff in H1. cbn [run_mode token_step]. rewrite H1. cbn [fst snd app]. rewrite (IH _ H2). reflexivity.
Qed.
(** The last character other than a space is a backslash. *)
Fixpoint ends_backslash (b : bool) (s : string) : bool :=
  match s with
  | "" => b
  | String c r => ends_backslash (if Ascii.eqb c " " then b else Ascii.eqb c "\") r
  end.
Lemma ends_app : forall s t b, ends_backslash b (s ++ t) = ends_backslash (ends_backslash b s) t.
Proof. induction s as [|c s IH]; intros t b; [reflexivity|]. apply IH. Qed.
Lemma last_indep : forall s b b', s <> "" -> last_backslash b s = last_backslash b' s.
Proof. intros [|c s] b b' H; [congruence|reflexivity]. Qed.
Lemma last_rstrip : forall s b, last_backslash b (rstrip s) = ends_backslash b s.
Proof.
  induction s as [|c s IH]; intros b; [reflexivity|]. cbn [rstrip ends_backslash].
  rewrite <- IH. destruct (rstrip s) as [|d r] eqn:E.
  - cbn [last_backslash]. destruct (Ascii.eqb c " "); reflexivity.
  - cbn [last_backslash]. reflexivity.
Qed.
Lemma ends_true : forall s b, ends_backslash b s = true ->
  (exists n, s = repeat_str n " ") /\ b = true \/ exists a n, s = a ++ "\" ++ repeat_str n " ".
Proof.
  induction s as [|c s IH]; intros b H; [left; split; [exists 0%nat; reflexivity|exact H]|].
  cbn [ends_backslash] in H. apply IH in H as [[(n & ->) H]|(a & n & ->)].
  - destruct (Ascii.eqb_spec c " ") as [->|_].
    + left. split; [exists (S n); reflexivity|exact H].
    + apply Ascii.eqb_eq in H as ->. right. exists "", n. reflexivity.
  - right. exists (String c a), n. reflexivity.
Qed.
Lemma ends_false : forall s, no_last_backslash s -> ends_backslash false s = false.
Proof.
  intros s H. destruct (ends_backslash false s) eqn:E; [|reflexivity].
  apply ends_true in E as [[_ E]|(a & n & E)]; [discriminate E|]. destruct (H a n E).
Qed.
Lemma rstrip_no_LF : forall s, no_LF s -> no_LF (rstrip s).
Proof.
  unfold no_LF. induction s as [|c s IH]; intros H; [reflexivity|]. simpl in H. apply andb_true_iff in H as [H1 H2].
  specialize (IH H2). cbn [rstrip]. destruct (rstrip s) as [|d r].
  - destruct (Ascii.eqb c " "); [reflexivity|]. simpl. rewrite H1. reflexivity.
  - cbn [all_chars]. rewrite H1. exact IH.
Qed.
Lemma line_comment_eq : forall s, line_comment s = "//" ++ rstrip (" " ++ s).
Proof.
  intros s. unfold line_comment. cbn [append rstrip]. destruct (rstrip s) as [|c r]; reflexivity.
Qed.
Lemma run_comment_line : forall s, no_LF s -> ends_backslash false s = false ->
  run_mode Code (line_comment s ++ NL) = ([EndOfLine], Code).
Proof.
  intros s L B. rewrite line_comment_eq, <- string_app_assoc.
  refine (run_app "//" _ Code [] (LineComment false) _ _ eq_refl _).
  assert (N : no_LF (rstrip (" " ++ s))) by (apply rstrip_no_LF; exact L).
  refine (run_app _ NL _ [] _ _ _ (run_line_comment _ _ N) _).
  rewrite last_rstrip. replace (ends_backslash false (" " ++ s)) with (ends_backslash false s) by reflexivity.
  rewrite B. reflexivity.
Qed.

Lemma run_block_comment : forall s (star : bool), (forall a b, (if star then "*" else "") ++ s <> a ++ "*/" ++ b) ->
  exists star', run_mode (BlockComment star) s = ([], BlockComment star').
Proof.
  induction s as [|c s IH]; intros star H; [exists star; reflexivity|].
  cbn [run_mode token_step].
  assert (E : star && Ascii.eqb c "/" = false).
  { destruct star; [|reflexivity]. destruct (Ascii.eqb_spec c "/") as [->|_]; [|reflexivity]. destruct (H "" s eq_refl). }
  rewrite E. cbn [fst snd app]. destruct (IH (Ascii.eqb c "*")) as (st & ->); [|exists st; reflexivity].
  intros a b F. destruct (Ascii.eqb_spec c "*") as [->|_].
  - apply (H ((if star then "*" else "") ++ a) b). rewrite <- string_app_assoc, <- F. reflexivity.
  - apply (H ((if star then "*" else "") ++ String c a) b). rewrite <- string_app_assoc. simpl in F. rewrite F. reflexivity.
Qed.
Lemma run_block : forall s, no_end_mark s -> run_mode Code (block_comment s ++ NL) = ([EndOfLine], Code).
Proof.
  intros s H. unfold block_comment. rewrite <- !string_app_assoc.
  refine (run_app "/* " _ Code [] (BlockComment false) _ _ eq_refl _).
  destruct (run_block_comment s false H) as (st & E). refine (run_app _ _ _ [] _ _ _ E _). destruct st; reflexivity.
Qed.

(** ** Whole lines *)
Definition whole (a : string) (ls : list (list token)) : Prop :=
  exists ts, run_mode Code a = (ts, Code)
    /\ forall r, filter not_empty (token_lines [] (ts ++ r)) = (ls ++ filter not_empty (token_lines [] r))%list.
Lemma whole_nil : whole "" [].
Proof. exists []. split; reflexivity. Qed.
Lemma whole_app : forall a b ls ms, whole a ls -> whole b ms -> whole (a ++ b) (ls ++ ms).
Proof.
  intros a b ls ms (ts & RA & LA) (us & RB & LB). exists (ts ++ us)%list. split; [eapply run_app; eassumption|].
  intros r. rewrite <- app_assoc, LA, LB, app_assoc. reflexivity.
Qed.
Definition no_end (ts : list token) : Prop := Forall (fun t => t <> EndOfLine) ts.
Lemma token_lines_app : forall ts cur r, no_end ts -> token_lines cur (ts ++ r) = token_lines (cur ++ ts) r.
Proof.
  induction ts as [|t ts IH]; intros cur r H; [rewrite app_nil_r; reflexivity|].
  inversion H as [|? ? H1 H2]; subst. cbn [app]. destruct t; try congruence; cbn [token_lines];
    rewrite IH by assumption; rewrite <- app_assoc; reflexivity.
Qed.
Lemma whole_line : forall a ts, run_mode Code a = ((ts ++ [EndOfLine])%list, Code) -> no_end ts -> ts <> [] ->
  whole a [ts].
Proof.
  intros a ts R N E. exists (ts ++ [EndOfLine])%list. split; [exact R|]. intros r.
  rewrite <- app_assoc, token_lines_app by assumption. cbn [app token_lines filter].
  destruct ts; [congruence|]. reflexivity.
Qed.
Lemma whole_empty : forall a, run_mode Code a = ([EndOfLine], Code) -> whole a [].
Proof. intros a R. exists [EndOfLine]. split; [exact R|]. reflexivity. Qed.
Lemma whole_NL : whole NL [].
Proof. apply whole_empty. reflexivity. Qed.

(** ** Whole lines of code *)
Definition code_line (l : list token) : Prop := match l with Punct "#" :: _ => False | _ => True end.
Definition coded (a : string) (ts : list token) : Prop :=
  exists ls, whole a ls /\ Forall code_line ls /\ concat ls = ts.
Lemma coded_nil : coded "" [].
Proof. exists []. split; [apply whole_nil|]. split; [constructor|reflexivity]. Qed.
Lemma coded_app : forall a b ts us, coded a ts -> coded b us -> coded (a ++ b) (ts ++ us).
Proof.
  intros a b ts us (ls & WA & CA & <-) (ms & WB & CB & <-). exists (ls ++ ms)%list.
  split; [apply whole_app; assumption|]. split; [apply Forall_app; auto|apply concat_app].
Qed.
Lemma coded_line : forall a ts, run_mode Code a = ((ts ++ [EndOfLine])%list, Code) -> no_end ts -> code_line ts -> coded a ts.
Proof.
  intros a ts R N L. destruct ts as [|t ts].
  - exists []. split; [apply whole_empty, R|]. split; [constructor|reflexivity].
  - exists [t :: ts]. split; [apply whole_line; [exact R|exact N|discriminate]|].
    split; [constructor; [exact L|constructor]|apply app_nil_r].
Qed.
Lemma coded_empty : forall a, run_mode Code a = ([EndOfLine], Code) -> coded a [].
Proof. intros a R. exists []. split; [apply whole_empty, R|]. split; [constructor|reflexivity]. Qed.
Lemma concat_map_cons : forall A (f : A -> string) x l, concat_map_str f (x :: l) = f x ++ concat_map_str f l.
Proof. intros A f x l. unfold concat_map_str. simpl. destruct (map f l); [rewrite string_app_nil; reflexivity|reflexivity]. Qed.
Lemma coded_map : forall A (f : A -> string) (g : A -> list token) l,
  (forall x, In x l -> coded (f x) (g x)) -> coded (concat_map_str f l) (flat_map g l).
Proof.
  intros A f g. induction l as [|x l IH]; intros H; [apply coded_nil|].
  rewrite concat_map_cons. cbn [flat_map]. apply coded_app; [apply H; left; reflexivity|].
  apply IH. intros y Y. apply H. right. exact Y.
Qed.

(** ** Token lists *)
Definition lacks (c : ascii) (ts : list token) : Prop := Forall (fun t => t <> Punct c) ts.
Lemma lacks_app : forall c a b, lacks c a -> lacks c b -> lacks c (a ++ b).
Proof. intros c a b HA HB. apply Forall_app; auto. Qed.
Lemma lacks_flat : forall A c (g : A -> list token) l, (forall x, In x l -> lacks c (g x)) -> lacks c (flat_map g l).
Proof.
  intros A c g. induction l as [|x l IH]; intros H; [constructor|]. cbn [flat_map].
  apply lacks_app; [apply H; left; reflexivity|apply IH; intros y Y; apply H; right; exact Y].
Qed.
Lemma lacks_words : forall c ws, lacks c (map Word ws).
Proof. intros c. induction ws; constructor; [discriminate|assumption]. Qed.
Lemma lacks_const : forall c z, c <> "-"%char -> lacks c (const_tokens z).
Proof.
  intros c z H. unfold const_tokens. destruct (z <? 0)%Z; repeat constructor; try discriminate. intros E.
  injection E as <-. congruence.
Qed.
Lemma ends_lacks_words : forall ws, no_end (map Word ws).
Proof. induction ws; constructor; [discriminate|assumption]. Qed.
Lemma ends_lacks_const : forall z, no_end (const_tokens z).
Proof. intros z. unfold const_tokens. destruct (z <? 0)%Z; repeat constructor; discriminate. Qed.

Lemma up_to_app : forall c a r, lacks c a -> up_to c (a ++ Punct c :: r) = Some (a, r).
Proof.
  intros c. induction a as [|t a IH]; intros r H.
  - cbn [app up_to]. rewrite Ascii.eqb_refl. reflexivity.
  - inversion H as [|? ? H1 H2]; subst. cbn [app up_to]. rewrite (IH r H2).
    destruct t as [w|s|d|]; try reflexivity. destruct (Ascii.eqb_spec d c) as [->|_]; [congruence|reflexivity].
Qed.
Lemma pieces_piece : forall c a cur r, lacks c a ->
  pieces c cur (a ++ Punct c :: r) = option_map (cons (cur ++ a)%list) (pieces c [] r).
Proof.
  intros c. induction a as [|t a IH]; intros cur r H.
  - cbn [app pieces]. rewrite Ascii.eqb_refl, app_nil_r. reflexivity.
  - inversion H as [|? ? H1 H2]; subst. cbn [app]. replace (cur ++ t :: a)%list with ((cur ++ [t]) ++ a)%list
      by (rewrite <- app_assoc; reflexivity). rewrite <- IH by assumption. cbn [pieces].
    destruct t as [w|s|d|]; try reflexivity. destruct (Ascii.eqb_spec d c) as [->|_]; [congruence|reflexivity].
Qed.
Lemma pieces_all : forall A c (g : A -> list token) l, (forall x, In x l -> lacks c (g x)) ->
  pieces c [] (flat_map (fun x => g x ++ [Punct c])%list l) = Some (map g l).
Proof.
  intros A c g. induction l as [|x l IH]; intros H; [reflexivity|]. cbn [flat_map map].
  rewrite <- app_assoc. cbn [app]. rewrite pieces_piece by (apply H; left; reflexivity).
  rewrite IH by (intros y Y; apply H; right; exact Y). reflexivity.
Qed.
Lemma read_all_map : forall A B C (f : B -> option C) (g : A -> B) (h : A -> C) l,
  (forall x, In x l -> f (g x) = Some (h x)) -> read_all f (map g l) = Some (map h l).
Proof.
  intros A B C f g h. induction l as [|x l IH]; intros H; [reflexivity|]. cbn [map read_all].
  rewrite (H x (or_introl eq_refl)), IH by (intros y Y; apply H; right; exact Y). reflexivity.
Qed.

Lemma statements_inside : forall a cur r, lacks "{" a -> lacks "}" a ->
  statements 1 cur (a ++ r) = statements 1 (cur ++ a) r.
Proof.
  induction a as [|t a IH]; intros cur r H1 H2; [rewrite app_nil_r; reflexivity|].
  inversion H1 as [|? ? N1 R1]; inversion H2 as [|? ? N2 R2]; subst. cbn [app].
  replace (cur ++ t :: a)%list with ((cur ++ [t]) ++ a)%list by (rewrite <- app_assoc; reflexivity).
  rewrite <- IH by assumption. cbn [statements]. destruct t as [w|s|d|]; try reflexivity.
  rewrite andb_false_r. destruct (Ascii.eqb_spec d "{") as [->|_]; [congruence|].
  destruct (Ascii.eqb_spec d "}") as [->|_]; [congruence|reflexivity].
Qed.
Lemma statements_outside : forall a cur r, lacks "{" a -> lacks "}" a -> lacks ";" a ->
  statements 0 cur (a ++ r) = statements 0 (cur ++ a) r.
Proof.
  induction a as [|t a IH]; intros cur r H1 H2 H3; [rewrite app_nil_r; reflexivity|].
  inversion H1 as [|? ? N1 R1]; inversion H2 as [|? ? N2 R2]; inversion H3 as [|? ? N3 R3]; subst. cbn [app].
  replace (cur ++ t :: a)%list with ((cur ++ [t]) ++ a)%list by (rewrite <- app_assoc; reflexivity).
  rewrite <- IH by assumption. cbn [statements]. destruct t as [w|s|d|]; try reflexivity.
  destruct (Ascii.eqb_spec d ";") as [->|_]; [congruence|].
  destruct (Ascii.eqb_spec d "{") as [->|_]; [congruence|].
  destruct (Ascii.eqb_spec d "}") as [->|_]; [congruence|reflexivity].
Qed.
(** A declaration with braces. *)
Lemma statement_braces : forall a body b r,
  lacks "{" a -> lacks "}" a -> lacks ";" a -> lacks "{" body -> lacks "}" body ->
  lacks "{" b -> lacks "}" b -> lacks ";" b ->
  statements 0 [] (a ++ Punct "{" :: body ++ Punct "}" :: b ++ Punct ";" :: r)
  = option_map (cons (a ++ Punct "{" :: body ++ Punct "}" :: b)%list) (statements 0 [] r).
Proof.
  intros a body b r A1 A2 A3 B1 B2 C1 C2 C3. rewrite statements_outside by assumption. cbn [app statements Ascii.eqb Bool.eqb andb].
  rewrite statements_inside by assumption. cbn [app statements Ascii.eqb Bool.eqb andb Nat.eqb].
  rewrite statements_outside by assumption. cbn [app statements Ascii.eqb Bool.eqb andb Nat.eqb].
  rewrite <- !app_assoc. reflexivity.
Qed.

(** ** Fields *)
Definition c_type_text (t : string) : Prop := is_word t \/ t = "unsigned long long".
Definition opt_line (c : option string) : Prop :=
  match c with Some s => no_LF s /\ ends_backslash false s = false | None => True end.
Definition opt_block (c : option string) : Prop := match c with Some s => no_end_mark s | None => True end.
Definition field_wf (f : cfield) : Prop := c_type_text (cf_type f) /\ is_word (cf_name f) /\ opt_line (cf_comment f).

Lemma split_word : forall s, all_chars word_char s = true -> split_on " " s = [s].
Proof.
  induction s as [|c s IH]; intros H; [reflexivity|]. simpl in H. apply andb_true_iff in H as [H1 H2].
  cbn [split_on]. destruct (Ascii.eqb_spec c " ") as [->|_]; [discriminate H1|]. rewrite (IH H2). reflexivity.
Qed.
Lemma run_type : forall t, c_type_text t -> run_mode Code (t ++ " ") = (map Word (split_on " " t), Code).
Proof.
  intros t [W| ->]; [|reflexivity]. rewrite split_word by apply W. apply run_word_then; [exact W|reflexivity].
Qed.
Lemma type_words : forall t, c_type_text t -> split_on " " t <> [].
Proof. intros t [W| ->]; [rewrite split_word by apply W|]; discriminate. Qed.

Definition field_tokens (f : cfield) : list token :=
  (map Word (split_on " " (cf_type f)) ++ Word (cf_name f)
     :: (match cf_bits f with Some b => Punct ":" :: const_tokens b | None => [] end)
     ++ (match cf_array f with Some n => Punct "[" :: const_tokens n ++ [Punct "]"] | None => [] end))%list.

Lemma run_array : forall a w, run_mode (InWord w) ((match a with Some n => "[" ++ str_of_Z n ++ "]" | None => "" end) ++ ";" ++ NL)
  = ((Word w :: (match a with Some n => Punct "[" :: const_tokens n ++ [Punct "]"] | None => [] end) ++ [Punct ";"; EndOfLine])%list, Code).
Proof.
  intros [n|] w; [|reflexivity]. rewrite <- !string_app_assoc.
  refine (eq_trans (run_app "[" _ (InWord w) [Word w; Punct "["] Code (const_tokens n ++ [Punct "]"; Punct ";"; EndOfLine])%list Code eq_refl _) _).
  - apply run_const. reflexivity.
  - cbn [app]. rewrite <- !app_assoc. reflexivity.
Qed.
Lemma run_field : forall f, field_wf f ->
  run_mode Code ("  " ++ cf_type f ++ " " ++ cf_name f
    ++ (match cf_bits f with Some b => " : " ++ str_of_Z b | None => "" end)
    ++ (match cf_array f with Some n => "[" ++ str_of_Z n ++ "]" | None => "" end) ++ ";" ++ NL)
  = (((field_tokens f ++ [Punct ";"]) ++ [EndOfLine])%list, Code).
Proof.
  intros f (T & N & _). refine (run_app "  " _ Code [] Code _ _ eq_refl _).
  rewrite string_app_assoc. unfold field_tokens. rewrite <- !app_assoc.
  refine (run_app _ _ _ _ _ _ _ (run_type _ T) _). apply run_word_then; [exact N|].
  cbn [app]. rewrite <- !app_assoc.
  destruct (cf_bits f) as [b|]; [|exact (run_array (cf_array f) (cf_name f))].
  rewrite <- !string_app_assoc.
  refine (eq_trans (run_app " : " _ (InWord (cf_name f)) [Word (cf_name f); Punct ":"] Code _ _ eq_refl (run_const b _ _ _ (run_array (cf_array f) (last_word b)))) _).
  cbn [app]. reflexivity.
Qed.
Lemma opt_line_coded : forall p c, run_mode Code p = ([], Code) -> opt_line c ->
  coded (match c with Some s => p ++ line_comment s ++ NL | None => "" end) [].
Proof.
  intros p [s|] P H; [|apply coded_nil]. destruct H as [L B]. apply coded_empty.
  refine (run_app _ _ _ [] _ _ _ P _). apply run_comment_line; assumption.
Qed.
Lemma field_no_end : forall f, no_end (field_tokens f).
Proof.
  intros f. apply Forall_app. split; [apply ends_lacks_words|]. constructor; [discriminate|]. apply Forall_app. split.
  - destruct (cf_bits f); [constructor; [discriminate|apply ends_lacks_const]|constructor].
  - destruct (cf_array f); [constructor; [discriminate|]|constructor]. apply Forall_app.
    split; [apply ends_lacks_const|repeat constructor; discriminate].
Qed.
Lemma field_coded : forall f, field_wf f -> coded (render_field f) (field_tokens f ++ [Punct ";"]).
Proof.
  intros f W. unfold render_field. change (field_tokens f ++ [Punct ";"])%list with ([] ++ (field_tokens f ++ [Punct ";"]))%list.
  apply coded_app; [apply (opt_line_coded "  "); [reflexivity|apply W]|]. apply coded_line; [apply run_field, W| |].
  - apply Forall_app. split; [apply field_no_end|repeat constructor; discriminate].
  - unfold field_tokens. destruct (split_on " " (cf_type f)); exact I.
Qed.
Lemma field_lacks : forall f c, c <> "-"%char -> c <> ":"%char -> c <> "["%char -> c <> "]"%char -> lacks c (field_tokens f).
Proof.
  intros f c H1 H2 H3 H4. apply lacks_app; [apply lacks_words|]. constructor; [discriminate|]. apply lacks_app.
  - destruct (cf_bits f); [constructor; [congruence|apply lacks_const, H1]|constructor].
  - destruct (cf_array f); [constructor; [congruence|]|constructor]. apply lacks_app; [apply lacks_const, H1|].
    constructor; [congruence|constructor].
Qed.

Lemma leading_words_app : forall ws r, (forall w r', r <> Word w :: r') -> leading_words (map Word ws ++ r) = (ws, r).
Proof.
  induction ws as [|w ws IH]; intros r H.
  - cbn [map app]. destruct r as [|[w|s|c|] r]; try reflexivity. destruct (H w r eq_refl).
  - cbn [map app leading_words]. rewrite (IH r H). reflexivity.
Qed.
Lemma field_length_read : forall a,
  field_length (match a with Some n => Punct "[" :: const_tokens n ++ [Punct "]"] | None => [] end) = Some a.
Proof. intros [n|]; [|reflexivity]. cbn [field_length]. rewrite constant_read. reflexivity. Qed.
Lemma field_width_read : forall b a, 
  field_width ((match b with Some b => Punct ":" :: const_tokens b | None => [] end)
     ++ (match a with Some n => Punct "[" :: const_tokens n ++ [Punct "]"] | None => [] end))%list
  = Some (b, match a with Some n => Punct "[" :: const_tokens n ++ [Punct "]"] | None => [] end)%list.
Proof.
  intros [b|] a; [cbn [app field_width]; rewrite constant_read; reflexivity|]. destruct a; reflexivity.
Qed.
Lemma field_read : forall f, c_type_text (cf_type f) -> read_field (field_tokens f) = Some (field_said f).
Proof.
  intros f T. unfold read_field, field_tokens. match goal with |- context [Word (cf_name f) :: ?x] => set (r := x) end.
  replace (map Word (split_on " " (cf_type f)) ++ Word (cf_name f) :: r)%list
    with (map Word (split_on " " (cf_type f) ++ [cf_name f]) ++ r)%list by (rewrite map_app, <- app_assoc; reflexivity).
  rewrite leading_words_app.
  2:{ intros w r' E. unfold r in E. destruct (cf_bits f), (cf_array f); discriminate E. }
  rewrite rev_app_distr. cbn [rev app]. apply type_words in T.
  destruct (rev (split_on " " (cf_type f))) as [|t ts] eqn:E.
  { apply (f_equal (@rev string)) in E. rewrite rev_involutive in E. contradiction. }
  unfold r. rewrite field_width_read, field_length_read. unfold field_said.
  rewrite <- (rev_involutive (split_on " " (cf_type f))), E. reflexivity.
Qed.

(** ** Declarations *)
Definition decl_wf (d : cdecl) : Prop :=
  match d with
  | CStruct cm n fs => opt_block cm /\ is_word n /\ Forall field_wf fs
  | CEnum cm n items => opt_block cm /\ is_word n /\ Forall (fun x => is_word (fst (fst x)) /\ opt_line (snd x)) items
  | CUnion cm n v items => opt_block cm /\ is_word n /\ is_word v
      /\ Forall (fun x => is_word (fst (fst x)) /\ is_word (snd (fst x)) /\ snd x = None) items
  end.
Definition item_tokens (x : string * Z * option string) : list token :=
  (Word (fst (fst x)) :: Punct "=" :: const_tokens (snd (fst x)))%list.
Definition option_tokens (x : string * string * option string) : list token :=
  [Word (fst (fst x)); Word (snd (fst x))].
Definition packed_tokens (n : string) : list token :=
  [Word "__attribute__"; Punct "("; Punct "("; Word "packed"; Punct ")"; Punct ")"; Word n].
Definition stmt (d : cdecl) : list token :=
  match d with
  | CStruct _ n fs => ([Word "typedef"; Word "struct"] ++ Punct "{" :: flat_map (fun f => field_tokens f ++ [Punct ";"]) fs
                        ++ Punct "}" :: packed_tokens n)%list
  | CEnum _ n items => ([Word "typedef"; Word "enum"] ++ Punct "{" :: flat_map (fun x => item_tokens x ++ [Punct ","]) items
                        ++ Punct "}" :: packed_tokens n)%list
  | CUnion _ n v items => ([Word "union"; Word n] ++ Punct "{" :: flat_map (fun x => option_tokens x ++ [Punct ";"]) items
                        ++ Punct "}" :: [Word v])%list
  end.

Lemma opt_block_coded : forall c, opt_block c -> coded (render_opt_block c) [].
Proof. intros [s|] H; [apply coded_empty, run_block, H|apply coded_nil]. Qed.
Ltac puncts := repeat (constructor; [discriminate|]); constructor.
Lemma packed_line : forall n, is_word n ->
  coded ("} __attribute__((packed)) " ++ n ++ ";" ++ NL ++ NL) (Punct "}" :: packed_tokens n ++ [Punct ";"]).
Proof.
  intros n W. rewrite (string_app_assoc ";"), (string_app_assoc n), string_app_assoc.
  rewrite <- (app_nil_r (Punct "}" :: _)). apply coded_app; [|apply coded_empty; reflexivity].
  apply coded_line; [|puncts|exact I].
  refine (run_app "} __attribute__((packed)) " _ Code (Punct "}" :: firstn 6 (packed_tokens n)) Code [Word n; Punct ";"; EndOfLine] _ eq_refl _).
  apply run_word_then; [exact W|reflexivity].
Qed.
Lemma enum_item_coded : forall k p c, is_word k -> opt_line c ->
  coded (C_SPACES ++ k ++ " = " ++ str_of_Z p ++ "," ++ (match c with Some c => "     " ++ line_comment c | None => "" end) ++ NL)
    (item_tokens (k, p, c) ++ [Punct ","]).
Proof.
  intros k p c W L. apply coded_line; [| |exact I].
  2:{ apply Forall_app. split; [|puncts]. constructor; [discriminate|]. constructor; [discriminate|]. apply ends_lacks_const. }
  replace ((item_tokens (k, p, c) ++ [Punct ","]) ++ [EndOfLine])%list
    with ([Word k; Punct "="] ++ const_tokens p ++ [Punct ","; EndOfLine])%list
    by (unfold item_tokens; cbn [fst snd app]; rewrite <- app_assoc; reflexivity).
  refine (run_app "  " _ Code [] Code _ _ eq_refl _). apply run_word_then; [exact W|].
  refine (run_app " = " _ (InWord k) [Word k; Punct "="] Code (const_tokens p ++ [Punct ","; EndOfLine]) Code eq_refl _).
  apply run_const.
  refine (run_app "," _ (InWord (last_word p)) [Word (last_word p); Punct ","] Code [EndOfLine] Code eq_refl _).
  destruct c as [c|]; [|reflexivity]. destruct L as [L B]. rewrite <- string_app_assoc.
  refine (run_app "     " _ Code [] Code _ _ eq_refl _). apply run_comment_line; assumption.
Qed.
Lemma run_options : forall l r ts m, Forall (fun x => is_word (fst (fst x)) /\ is_word (snd (fst x)) /\ snd x = None) l ->
  run_mode Code r = (ts, m) ->
  run_mode Code (concat_map_str (fun x : string * string * option string => let '(t, k, c) := x in
              C_SPACES ++ t ++ " " ++ k ++ ";"
              ++ (match c with Some c => "     " ++ line_comment c | None => "" end)) l ++ r)
  = ((flat_map (fun x => option_tokens x ++ [Punct ";"]) l ++ ts)%list, m).
Proof.
  induction l as [|[[t k] c] l IH]; intros r ts m H R; [exact R|].
  inversion H as [|? ? (W1 & W2 & E) H2]; subst. cbn [fst snd] in *. subst c.
  rewrite concat_map_cons, <- !string_app_assoc. refine (run_app "  " _ Code [] Code _ _ eq_refl _).
  cbn [flat_map]. apply run_word_then; [exact W1|].
  refine (run_app " " _ (InWord t) [Word t] Code (Word k :: Punct ";" :: flat_map _ l ++ ts)%list m eq_refl _).
  apply run_word_then; [exact W2|].
  refine (run_app ";" _ (InWord k) [Word k; Punct ";"] Code (flat_map _ l ++ ts)%list m eq_refl _).
  apply (IH _ _ _ H2 R).
Qed.
Lemma concat_map_ext : forall A (f g : A -> string) l, (forall x, In x l -> f x = g x) -> concat_map_str f l = concat_map_str g l.
Proof. intros A f g l H. unfold concat_map_str. rewrite (map_ext_in f g l H). reflexivity. Qed.

Lemma decl_coded : forall d, decl_wf d -> coded (render_decl d ++ NL ++ NL) (stmt d ++ [Punct ";"]).
Proof.
  intros [cm n fs|cm n items|cm n v items] W; cbn [render_decl]; rewrite <- !string_app_assoc; unfold stmt.
  - destruct W as (B & N & F). change (?a ++ [Punct ";"])%list with ([] ++ (a ++ [Punct ";"]))%list.
    apply coded_app; [apply opt_block_coded, B|]. rewrite (string_app_assoc "typedef struct").
    rewrite <- app_assoc. apply coded_app; [apply coded_line; [reflexivity|puncts|exact I]|].
    rewrite (string_app_assoc "{"). cbn [app]. change (Punct "{" :: ?a) with ([Punct "{"] ++ a)%list.
    apply coded_app; [apply coded_line; [reflexivity|puncts|exact I]|]. rewrite <- app_assoc. apply coded_app.
    + apply coded_map. intros f I. rewrite Forall_forall in F. apply field_coded, F, I.
    + apply packed_line, N.
  - destruct W as (B & N & F). change (?a ++ [Punct ";"])%list with ([] ++ (a ++ [Punct ";"]))%list.
    apply coded_app; [apply opt_block_coded, B|]. rewrite (string_app_assoc "typedef enum {").
    replace (([Word "typedef"; Word "enum"] ++ Punct "{" :: flat_map (fun x => item_tokens x ++ [Punct ","])%list items
       ++ Punct "}" :: packed_tokens n) ++ [Punct ";"])%list
     with ([Word "typedef"; Word "enum"; Punct "{"] ++ flat_map (fun x => item_tokens x ++ [Punct ","])%list items
       ++ (Punct "}" :: packed_tokens n ++ [Punct ";"]))%list by (cbn [app]; rewrite <- app_assoc; reflexivity).
    apply coded_app; [apply coded_line; [reflexivity|puncts|exact I]|]. apply coded_app; [|apply packed_line, N].
    apply coded_map. intros [[k p] c] I. rewrite Forall_forall in F. destruct (F _ I) as [K L].
    apply enum_item_coded; assumption.
  - destruct W as (B & N & V & F). change (?a ++ [Punct ";"])%list with ([] ++ (a ++ [Punct ";"]))%list.
    apply coded_app; [apply opt_block_coded, B|].
    replace (([Word "union"; Word n] ++ Punct "{" :: flat_map (fun x => option_tokens x ++ [Punct ";"])%list items
       ++ [Punct "}"; Word v]) ++ [Punct ";"])%list
     with ([Word "union"; Word n; Punct "{"] ++ (flat_map (fun x => option_tokens x ++ [Punct ";"])%list items
       ++ [Punct "}"; Word v; Punct ";"]) ++ [])%list by (cbn [app]; rewrite app_nil_r, <- app_assoc; reflexivity).
    rewrite (string_app_assoc " {"), (string_app_assoc n), (string_app_assoc "union "). apply coded_app.
    { apply coded_line; [|puncts|exact I]. refine (run_app "union " _ Code [Word "union"] Code [Word n; Punct "{"; EndOfLine] _ eq_refl _).
      apply run_word_then; [exact N|reflexivity]. }
    rewrite (string_app_assoc ";"), (string_app_assoc v), (string_app_assoc "} "), (string_app_assoc (concat_map_str _ _)).
    apply coded_app; [|apply coded_empty; reflexivity].
    apply coded_line; [|apply Forall_app; split; [|puncts]|].
    + rewrite <- app_assoc. apply run_options; [exact F|].
      refine (run_app "} " _ Code [Punct "}"] Code [Word v; Punct ";"; EndOfLine] _ eq_refl _).
      apply run_word_then; [exact V|reflexivity].
    + clear. induction items as [|x l IH]; [constructor|]. cbn [flat_map option_tokens app]. repeat (constructor; [discriminate|]). exact IH.
    + destruct items; exact I.
Qed.

Lemma item_lacks : forall x c, c <> "-"%char -> c <> "="%char -> lacks c (item_tokens x).
Proof. intros x c H1 H2. constructor; [discriminate|]. constructor; [congruence|]. apply lacks_const, H1. Qed.
Lemma flat_lacks : forall A (g : A -> list token) c s l, c <> s -> (forall x, lacks c (g x)) ->
  lacks c (flat_map (fun x => g x ++ [Punct s])%list l).
Proof.
  intros A g c s l N H. apply lacks_flat. intros x _. apply lacks_app; [apply H|]. constructor; [congruence|constructor].
Qed.
Lemma stmt_ends : forall d r, statements 0 [] ((stmt d ++ [Punct ";"]) ++ r) = option_map (cons (stmt d)) (statements 0 [] r).
Proof.
  intros d r.
  assert (G : forall a body b, lacks "{" a -> lacks "}" a -> lacks ";" a -> lacks "{" body -> lacks "}" body ->
    lacks "{" b -> lacks "}" b -> lacks ";" b ->
    statements 0 [] (((a ++ Punct "{" :: body ++ Punct "}" :: b) ++ [Punct ";"]) ++ r)
    = option_map (cons (a ++ Punct "{" :: body ++ Punct "}" :: b)%list) (statements 0 [] r)).
  { intros a body b. repeat first [rewrite <- app_assoc | progress cbn [app]]. apply statement_braces. }
  destruct d as [cm n fs|cm n items|cm n v items]; apply G; try puncts;
    (apply flat_lacks; [discriminate|]; intros x; first [apply field_lacks; discriminate|apply item_lacks; discriminate|puncts]).
Qed.
Lemma stmt_read : forall d, decl_wf d -> read_declaration (stmt d) = Some (said d).
Proof.
  intros [cm n fs|cm n items|cm n v items] W; cbn [stmt app read_declaration].
  - destruct W as (_ & _ & F). rewrite up_to_app by (apply flat_lacks; [discriminate|]; intros x; apply field_lacks; discriminate).
    rewrite pieces_all by (intros x _; apply field_lacks; discriminate).
    rewrite (read_all_map _ _ _ read_field field_tokens field_said); [reflexivity|].
    intros f I. rewrite Forall_forall in F. apply field_read, F, I.
  - rewrite up_to_app by (apply flat_lacks; [discriminate|]; intros x; apply item_lacks; discriminate).
    rewrite pieces_all by (intros x _; apply item_lacks; discriminate).
    rewrite (read_all_map _ _ _ read_enumerator item_tokens fst); [reflexivity|].
    intros [[k p] c] I. cbn [item_tokens fst snd read_enumerator]. rewrite <- (app_nil_r (const_tokens p)), constant_read. reflexivity.
  - rewrite up_to_app by (apply flat_lacks; [discriminate|]; intros x; puncts).
    rewrite pieces_all by (intros x _; puncts).
    rewrite (read_all_map _ _ _ read_field option_tokens (fun x => mkxfield [fst (fst x)] (snd (fst x)) None None)); [reflexivity|].
    intros [[t k] c] I. reflexivity.
Qed.

(** ** The body *)
Definition var_tokens (x : string * string) : list token := [Word (fst x); Word (snd x); Punct ";"].
Lemma body_statements : forall ds vs, 
  statements 0 [] (flat_map (fun d => stmt d ++ [Punct ";"]) ds ++ flat_map var_tokens vs)%list
  = Some (map stmt ds ++ map (fun x => [Word (fst x); Word (snd x)]) vs)%list.
Proof.
  induction ds as [|d ds IH]; intros vs.
  - cbn [flat_map map app]. induction vs as [|x vs IH]; [reflexivity|]. cbn [flat_map var_tokens app statements Ascii.eqb Bool.eqb andb Nat.eqb map].
    rewrite IH. reflexivity.
  - cbn [flat_map]. rewrite <- app_assoc. rewrite stmt_ends, IH. reflexivity.
Qed.
Lemma read_all_app : forall A B (f : A -> option B) a b x y,
  read_all f a = Some x -> read_all f b = Some y -> read_all f (a ++ b) = Some (x ++ y)%list.
Proof.
  intros A B f. induction a as [|z a IH]; intros b x y HA HB; [injection HA as <-; exact HB|].
  cbn [app read_all] in *. destruct (f z); [|discriminate]. destruct (read_all f a); [|discriminate].
  injection HA as <-. rewrite (IH b _ y eq_refl HB). reflexivity.
Qed.
Definition capital (s : string) : Prop := exists c r, s = String c r /\ is_upper c = true.
Lemma body_read : forall ds vs, Forall decl_wf ds -> Forall (fun x => capital (fst x)) vs ->
  read_all read_declaration (map stmt ds ++ map (fun x => [Word (fst x); Word (snd x)]) vs)
  = Some (map said ds ++ map (fun x => XVar (fst x) (snd x)) vs)%list.
Proof.
  intros ds vs F U. apply read_all_app.
  - apply read_all_map. intros d I. rewrite Forall_forall in F. apply stmt_read, F, I.
  - apply read_all_map. intros [t v] I. rewrite Forall_forall in U. destruct (U _ I) as (c & r & E & H).
    cbn [fst snd] in *. subst t. destruct c as [[] [] [] [] [] [] [] []]; try discriminate H; reflexivity.
Qed.

Lemma body_lines_read : forall il is cl, Forall2 (fun l i => (exists r, l = Punct "#" :: r) /\ directive l = Some i) il is ->
  Forall code_line cl -> body_lines (il ++ cl) = Some (is, concat cl).
Proof.
  intros il is cl F C. induction F as [|l i il is ((r & ->) & D) F IH]; [|cbn [app body_lines]; rewrite IH, D; reflexivity].
  cbn [app]. induction C as [|l cl H C IH]; [reflexivity|]. cbn [body_lines concat]. rewrite IH.
  destruct l as [|[w|s|c|] l]; try reflexivity. cbn [code_line] in H.
  destruct c as [[] [] [] [] [] [] [] []]; try reflexivity. destruct H.
Qed.

(** ** The whole header *)
Definition include_lines (i : include) : list token :=
  match i with
  | System n => [Punct "#"; Word "include"; Punct "<"; Word n; Punct "."; Word "h"; Punct ">"]
  | Local f => [Punct "#"; Word "include"; Quoted f]
  end.
Lemma include_lines_ok : forall is,
  Forall2 (fun l i => (exists r, l = Punct "#" :: r) /\ directive l = Some i) (map include_lines is) is.
Proof. induction is as [|[n|f] is IH]; constructor; auto; split; [eexists; reflexivity|reflexivity|eexists; reflexivity|reflexivity]. Qed.

Lemma guard_lines : forall g, is_word g ->
  whole ("#ifndef " ++ g ++ NL ++ "#define " ++ g ++ NL) [[Punct "#"; Word "ifndef"; Word g]; [Punct "#"; Word "define"; Word g]].
Proof.
  intros g W. rewrite (string_app_assoc g), (string_app_assoc "#ifndef ").
  refine (whole_app _ _ [_] [_] _ _); (apply whole_line; [|puncts|discriminate]).
  - refine (run_app "#ifndef " _ Code [Punct "#"; Word "ifndef"] Code [Word g; EndOfLine] _ eq_refl _).
    apply run_word_then; [exact W|reflexivity].
  - refine (run_app "#define " _ Code [Punct "#"; Word "define"] Code [Word g; EndOfLine] _ eq_refl _).
    apply run_word_then; [exact W|reflexivity].
Qed.
Lemma word_no_LF : forall s, all_chars word_char s = true -> no_LF s /\ ends_backslash false s = false.
Proof.
  intros s H. split.
  - unfold no_LF. induction s as [|c s IH]; [reflexivity|]. simpl in *. apply andb_true_iff in H as [H1 H2].
    rewrite (IH H2). destruct (Ascii.eqb_spec c LF) as [->|_]; [discriminate H1|reflexivity].
  - assert (G : forall s b, all_chars word_char s = true -> b = false -> ends_backslash b s = false); [|apply G; auto].
    clear. induction s as [|c s IH]; intros b H E; [exact E|]. simpl in H. apply andb_true_iff in H as [H1 H2].
    cbn [ends_backslash]. apply IH; [exact H2|]. destruct (Ascii.eqb c " "); [exact E|].
    destruct (Ascii.eqb_spec c "\") as [->|_]; [discriminate H1|reflexivity].
Qed.
Lemma endif_line : forall g, is_word g -> whole ("#endif // " ++ g ++ NL) [[Punct "#"; Word "endif"]].
Proof.
  intros g W. apply whole_line; [|puncts|discriminate].
  refine (run_app "#endif // " _ Code [Punct "#"; Word "endif"] (LineComment false) [EndOfLine] _ eq_refl _).
  destruct (word_no_LF g (proj2 W)) as [L _]. refine (run_app _ _ _ [] _ _ _ (run_line_comment g _ L) _).
  assert (G : forall s b, all_chars word_char s = true -> b = false -> last_backslash b s = false).
  { clear. induction s as [|c s IH]; intros b H E; [exact E|]. simpl in H. apply andb_true_iff in H as [H1 H2].
    cbn [last_backslash]. apply IH; [exact H2|]. destruct (Ascii.eqb_spec c "\") as [->|_]; [discriminate H1|reflexivity]. }
  rewrite (G g false (proj2 W) eq_refl). reflexivity.
Qed.
Lemma file_header_lines : forall doc, no_end_mark doc -> whole (file_header doc) [].
Proof.
  intros doc H. apply whole_empty. unfold file_header.
  refine (run_app ("/*" ++ NL ++ "This file was autogenerated from ASN.1 model.") _ Code [] (BlockComment false) _ _ eq_refl _).
  destruct (String.eqb doc ""); [reflexivity|]. rewrite <- !string_app_assoc.
  refine (run_app (NL ++ NL) _ (BlockComment false) [] (BlockComment false) _ _ eq_refl _).
  destruct (run_block_comment doc false H) as (st & E). refine (run_app _ _ _ [] _ _ _ E _). destruct st; reflexivity.
Qed.

Lemma header_reads : forall g doc (std : bool) incs its ds vs preds,
  is_word g -> no_end_mark doc -> Forall decl_wf ds -> Forall (fun x => capital (fst x)) vs ->
  whole incs (map include_lines its) -> coded preds (flat_map var_tokens vs) ->
  read_header (("#ifndef " ++ g ++ NL ++ "#define " ++ g ++ NL) ++ NL ++ file_header doc ++ NL
    ++ ((if std then "#include <stdint.h>" ++ NL else "") ++ incs ++ NL ++ concat_map_str (fun d => render_decl d ++ NL ++ NL) ds)
    ++ preds ++ ("#endif // " ++ g ++ NL))
  = Some (mkheader g ((if std then [System "stdint"] else []) ++ its)
                     (map said ds ++ map (fun x => XVar (fst x) (snd x)) vs)).
Proof.
  intros g doc std incs its ds vs preds G D W U I (pl & Wp & Cp & Ep).
  assert (DC : coded (concat_map_str (fun d => render_decl d ++ NL ++ NL) ds) (flat_map (fun d => stmt d ++ [Punct ";"])%list ds)).
  { apply coded_map. intros d Hd. rewrite Forall_forall in W. apply decl_coded, W, Hd. }
  destruct DC as (dl & Wd & Cd & Ed).
  assert (WW := whole_app _ _ _ _ (guard_lines g G) (whole_app _ _ _ _ whole_NL (whole_app _ _ _ _ (file_header_lines doc D)
    (whole_app _ _ _ _ whole_NL (whole_app _ _ _ _ (whole_app (if std then "#include <stdint.h>" ++ NL else "") _
       (if std then [include_lines (System "stdint")] else []) _ 
       ltac:(destruct std; [apply whole_line; [reflexivity|puncts|discriminate]|apply whole_nil])
       (whole_app _ _ _ _ I (whole_app _ _ _ _ whole_NL Wd))) (whole_app _ _ _ _ Wp (endif_line g G))))))).
  cbn [app] in WW. destruct WW as (ts & R & L). unfold read_header.
  rewrite <- (string_app_nil (("#ifndef " ++ _) ++ _)), tokens_run, R. cbn [fst snd tokens option_map].
  rewrite L. cbn [token_lines filter not_empty]. rewrite app_nil_r. cbn [app]. rewrite String.eqb_refl.
  rewrite !app_assoc, rev_app_distr. cbn [rev app]. rewrite rev_involutive.
  assert (B := body_lines_read (map include_lines ((if std then [System "stdint"] else []) ++ its)) _ (dl ++ pl)
    (include_lines_ok _) (proj2 (Forall_app _ _ _) (conj Cd Cp))).
  rewrite concat_app, Ed, Ep in B.
  replace (((if std then [include_lines (System "stdint")] else []) ++ map include_lines its) ++ dl)%list with
    ((map include_lines ((if std then [System "stdint"] else []) ++ its)) ++ dl)%list by (destruct std; reflexivity).
  rewrite <- app_assoc, B, body_statements, body_read by assumption. reflexivity.
Qed.
