(** * Proofs: comments in the files of cfs, c and binary *)
From Verif Require Import Base PyNum PyStr Ast Size Processor Bundle Sorter CCommon GenCfs GenC GenBinary GenCosmos Main
  Lib_proofs Str_proofs Spec_Enum Spec_Check Spec_Header Enum_proofs Check_proofs Bundle_proofs Binary_proofs C_proofs Cfs_proofs Gen_proofs
  Spec_Plain Plain_proofs.
Open Scope string_scope.
Open Scope list_scope.

(** ** Clauses *)

Lemma plain_ident : forall l id, ident_msg_id (map plain_component l) id = ident_msg_id l id.
Proof.
  induction l as [|[k v c] l IH]; intros id; [reflexivity|]. cbn [map plain_component ident_msg_id].
  replace (as_int (plain_value v)) with (as_int v) by (destruct v; reflexivity). apply bind_ext. intros id'. apply IH.
Qed.
Lemma plain_primary : forall l id, primary_msg_id (map plain_component l) id = primary_msg_id l id.
Proof.
  induction l as [|[k v c] l IH]; intros id; [reflexivity|]. cbn [map plain_component primary_msg_id].
  replace (match plain_value v with VWith w => ident_msg_id (wc_items w) id | _ => Err AttributeErr end)
    with (match v with VWith w => ident_msg_id (wc_items w) id | _ => Err AttributeErr end)
    by (destruct v as [z|f|b|w]; try reflexivity; cbn [plain_value]; rewrite plain_clause_items, plain_ident; reflexivity).
  apply bind_ext. intros id'. apply IH.
Qed.

Lemma plain_defines : forall w n, cfs_defines n (plain_clause w) = cfs_defines n w.
Proof.
  induction w as [c l IH] using clause_ind. intros n. rewrite plain_clause_eq. cbn [cfs_defines].
  induction l as [|[k v cm] l IHl]; [reflexivity|]. cbn [map plain_component].
  rewrite IHl by (intros k' w' cm' I; apply (IH k' w' cm'); right; exact I).
  replace (match plain_value v with
    | VWith w' => if String.eqb k KEY_PRIMARY
                  then let* id := primary_msg_id (wc_items w') 0 in Ok [mkdefine (upper n ++ "_MID") ("(0x" ++ format_X 4 id ++ ")") false]
                  else cfs_defines n w'
    | _ => Ok [mkdefine (upper (n ++ "_" ++ c_name k)) ("(" ++ leaf_value (plain_value v) ++ ")") true] end)
    with (match v with
    | VWith w' => if String.eqb k KEY_PRIMARY
                  then let* id := primary_msg_id (wc_items w') 0 in Ok [mkdefine (upper n ++ "_MID") ("(0x" ++ format_X 4 id ++ ")") false]
                  else cfs_defines n w'
    | _ => Ok [mkdefine (upper (n ++ "_" ++ c_name k)) ("(" ++ leaf_value v ++ ")") true] end); [reflexivity|].
  destruct v as [z|f|b|w]; try reflexivity. cbn [plain_value]. rewrite plain_clause_items, plain_primary.
  rewrite (IH k w cm (or_introl eq_refl)). reflexivity.
Qed.

Lemma plain_init : forall w level, init_components level (plain_clause w) = init_components level w.
Proof.
  induction w as [c l IH] using clause_ind. intros level. rewrite plain_clause_eq. cbn [init_components].
  induction l as [|[k v cm] l IHl]; [reflexivity|]. cbn [map plain_component].
  rewrite IHl by (intros k' w' cm' I; apply (IH k' w' cm'); right; exact I).
  destruct v as [z|f|b|w]; try reflexivity. cbn [plain_value]. rewrite (IH k w cm (or_introl eq_refl)). reflexivity.
Qed.

Lemma plain_bytes : forall e specs w n, clause_bytes e specs n (plain_clause w) = clause_bytes e specs n w.
Proof.
  intros e specs. induction w as [c l IH] using clause_ind. intros n. rewrite plain_clause_eq. cbn [clause_bytes].
  induction l as [|[k v cm] l IHl]; [reflexivity|]. cbn [map plain_component].
  rewrite IHl by (intros k' w' cm' I; apply (IH k' w' cm'); right; exact I).
  destruct (dict_get n specs) as [d|]; [|reflexivity]. destruct (dict_get k d) as [sp|]; [|reflexivity].
  destruct v as [z|f|b|w]; try reflexivity. cbn [plain_value]. rewrite (IH k w cm (or_introl eq_refl)). reflexivity.
Qed.

Lemma plain_member_specs : forall fuel defs l, member_specs fuel (map plain_definition defs) (map plain_member l) = member_specs fuel defs l.
Proof.
  intros fuel defs. induction l as [|m l IH]; [reflexivity|]. cbn [map member_specs plain_member m_with m_type m_key].
  destruct (m_with m) as [w|]; cbn [option_map]; [exact IH|]. rewrite plain_size, IH. reflexivity.
Qed.
Lemma plain_specs : forall fuel defs l, sequence_specs fuel (map plain_definition defs) (map plain_definition l) = sequence_specs fuel defs l.
Proof.
  intros fuel defs. induction l as [|[n c ms|n c ms|n c is|n t c] l IH]; try reflexivity; cbn [map plain_definition sequence_specs]; try exact IH.
  rewrite plain_member_specs, IH. reflexivity.
Qed.

Lemma plain_cfs_with : forall n m, cfs_with_components n (plain_member m) = rmap plain_cdata (cfs_with_components n m).
Proof.
  intros n m. unfold cfs_with_components. cbn [plain_member m_with]. destruct (m_with m) as [w|]; [|reflexivity]. cbn [option_map].
  rewrite plain_defines. apply bind_rmap_same. reflexivity.
Qed.
Lemma plain_c_with : forall mn n m, c_with_components mn n (plain_member m) = rmap plain_cdata (c_with_components mn n m).
Proof.
  intros mn n m. unfold c_with_components. cbn [plain_member m_with]. destruct (m_with m) as [w|]; [|reflexivity]. cbn [option_map m_key rmap].
  unfold init_start. rewrite plain_init. reflexivity.
Qed.
Lemma plain_bin_with : forall fuel e defs m n k,
  bin_with_components fuel e (map plain_definition defs) (plain m) n (plain_member k) = rmap plain_cdata (bin_with_components fuel e defs m n k).
Proof.
  intros fuel e defs m n k. unfold bin_with_components. cbn [plain_member m_with m_type plain mod_defs]. destruct (m_with k) as [w|]; [|reflexivity].
  cbn [option_map]. rewrite plain_specs. apply bind_rmap_same. intros specs _. rewrite plain_bytes. apply bind_rmap_same. reflexivity.
Qed.

(** ** Which comments the data contain *)

Section Said.
Variable cs : list comment.

Definition text_said (o : option string) : Prop := match o with Some s => exists c, In c cs /\ s = cm_text c | None => True end.
Definition unit_said (o : option string) : Prop := match o with Some s => exists c, In c cs /\ s = with_unit c | None => True end.
Definition decl_said (d : cdecl) : Prop :=
  match d with
  | CStruct c _ l => text_said c /\ Forall (fun f => unit_said (cf_comment f)) l
  | CEnum c _ l => text_said c /\ Forall (fun x => unit_said (snd x)) l
  | CUnion c _ _ l => text_said c /\ Forall (fun x => unit_said (snd x)) l
  end.
Definition include_said (i : cinclude) : Prop := match i with IncComment s => text_said (Some s) | _ => True end.
Definition said (c : cdata) : Prop :=
  Forall decl_said (cd_data c) /\ Forall include_said (cd_includes c)
  /\ (cd_header_comment c = "" \/ text_said (Some (cd_header_comment c))).

Definition silent (c : cdata) : Prop := cd_data c = [] /\ cd_includes c = [].

Lemma said_empty : said empty_cdata.
Proof. split; [constructor|split; [constructor|left; reflexivity]]. Qed.
Lemma said_extend : forall a b, said a -> said b -> said (extend_with_cdata a b).
Proof. intros a b (A1 & A2 & A3) (B1 & B2 & _). repeat split; simpl; [apply Forall_app; auto|apply Forall_app; auto|exact A3]. Qed.
Lemma said_silent : forall a b, said a -> silent b -> said (extend_with_cdata a b).
Proof. intros a b (A1 & A2 & A3) (B1 & B2). repeat split; simpl; rewrite ?B1, ?B2, ?app_nil_r; assumption. Qed.
Lemma said_add : forall d a, decl_said d -> said a -> said (add_data d a).
Proof. intros d a D (A1 & A2 & A3). repeat split; simpl; try assumption. apply Forall_app. auto. Qed.

Lemma text_shown : forall c, incl (opt_list c) cs -> text_said (def_comment_text c).
Proof.
  intros [c|] I; simpl; [|exact Logic.I]. destruct (String.eqb (cm_text c) ""); simpl; [exact Logic.I|].
  exists c. split; [apply I; left; reflexivity|reflexivity].
Qed.
Lemma unit_shown : forall c, incl (opt_list c) cs -> unit_said (option_map item_comment c).
Proof. intros [c|] I; simpl; [|exact Logic.I]. exists c. split; [apply I; left; reflexivity|reflexivity]. Qed.

Lemma incl_flat : forall A (f : A -> list comment) l, incl (flat_map f l) cs -> forall a, In a l -> incl (f a) cs.
Proof. intros A f l H a I x X. apply H. apply in_flat_map. eauto. Qed.

Variable wch : string -> member -> result cdata.
Hypothesis wch_silent : forall n m c, wch n m = Ok c -> silent c.
Variable note : string -> asn_type -> result (option string).

Lemma members_said : forall fuel defs sds name ms fields acc fields' acc',
  incl (flat_map (fun m => opt_list (m_comment m)) ms) cs -> Forall (fun f => unit_said (cf_comment f)) fields -> said acc ->
  convert_members fuel defs sds wch name ms fields acc = Ok (fields', acc') ->
  Forall (fun f => unit_said (cf_comment f)) fields' /\ said acc'.
Proof.
  intros fuel defs sds name. induction ms as [|m ms IH]; intros fields acc fields' acc' I F A H; cbn [convert_members] in H.
  - injection H as <- <-. auto.
  - apply bind_ok in H. destruct H as ([[f sb] si] & C & H). cbv zeta in H. apply bind_ok in H. destruct H as (acc1 & W & H).
    cbn [flat_map] in I. apply incl_app_inv in I. destruct I as (I1 & I2).
    refine (IH _ _ _ _ I2 _ _ H).
    + apply Forall_app. split; [exact F|]. constructor; [|constructor]. unfold convert_member in C.
      apply bind_ok in C. destruct C as (cm & _ & C). cbv zeta in C. apply bind_ok in C. destruct C as ([[[bits ct] sb'] si'] & _ & C).
      injection C as <- _ _. apply unit_shown. exact I1.
    + assert (A' : said (set_std sb si acc)) by (destruct A as (A1 & A2 & A3); repeat split; assumption).
      destruct (m_with m) as [w|]; [|injection W as <-; exact A'].
      apply bind_ok in W. destruct W as (c & W & E). injection E as <-. apply said_silent; [exact A'|]. exact (wch_silent _ _ _ W).
Qed.

Lemma definition_said : forall fuel defs sds acc d acc', incl (shown_in d) cs -> said acc ->
  convert_definition fuel defs sds note wch acc d = Ok acc' -> said acc'.
Proof.
  intros fuel defs sds acc [n c ms|n c ms|n c is|n t c] acc' I A H; cbn [convert_definition shown_in] in *.
  - apply incl_app_inv in I. destruct I as (I1 & I2). apply bind_ok in H. destruct H as (x & H & E). injection E as <-. apply said_extend; [exact A|].
    unfold convert_sequence in H. apply bind_ok in H. destruct H as ([fs a] & C & H). apply bind_ok in H. destruct H as (_ & _ & E). injection E as <-.
    destruct (members_said _ _ _ _ _ _ _ _ _ I2 (Forall_nil _) said_empty C) as (F & S). apply said_add; [|exact S].
    split; [apply text_shown; exact I1|exact F].
  - apply incl_app_inv in I. destruct I as (I1 & I2). injection H as <-. apply said_extend; [exact A|].
    assert (D : said (add_data (CUnion (def_comment_text c) (c_name n) (lowerize (c_name n))
          (map (fun m => (c_name (type_name (m_type m)), c_name (m_key m), option_map item_comment (m_comment m))) ms)) empty_cdata)).
    { apply said_add; [|exact said_empty]. split; [apply text_shown; exact I1|]. apply Forall_forall. intros x X. apply in_map_iff in X.
      destruct X as (m & <- & M). apply unit_shown. exact (incl_flat _ _ _ I2 m M). }
    destruct D as (D1 & D2 & D3). repeat split; assumption.
  - apply incl_app_inv in I. destruct I as (I1 & I2). injection H as <-. apply said_extend; [exact A|].
    apply said_add; [|exact said_empty]. split; [apply text_shown; exact I1|]. apply Forall_forall. intros x X. apply in_map_iff in X.
    destruct X as (m & <- & M). apply unit_shown. exact (incl_flat _ _ _ I2 m M).
  - apply bind_ok in H. destruct H as ([s|] & _ & E); injection E as <-; [|exact A]. destruct A as (A1 & A2 & A3).
    repeat split; simpl; try assumption. apply Forall_app. split; [exact A2|]. constructor; [exact Logic.I|constructor].
Qed.

Lemma definitions_said : forall fuel defs sds ds acc acc', incl (flat_map shown_in ds) cs -> said acc ->
  convert_definitions fuel defs sds note wch ds acc = Ok acc' -> said acc'.
Proof.
  intros fuel defs sds. induction ds as [|d ds IH]; intros acc acc' I A H; cbn [convert_definitions] in H; [injection H as <-; exact A|].
  apply bind_ok in H. destruct H as (a & C & H). cbn [flat_map] in I. apply incl_app_inv in I. destruct I as (I1 & I2).
  exact (IH _ _ I2 (definition_said _ _ _ _ _ _ I1 A C) H).
Qed.

Lemma module_said : forall fuel b bm f c, incl (shown (bm_mod bm)) cs -> module_cdata fuel b bm f note wch = Ok c -> said c.
Proof.
  intros fuel b bm f c I H. unfold module_cdata in H. cbv zeta in H. apply bind_ok in H. destruct H as (ds & S & H).
  apply bind_ok in H. destruct H as (c0 & C & H). unfold shown in I. apply incl_app_inv in I. destruct I as (I1 & I). apply incl_app_inv in I. destruct I as (I2 & I3).
  assert (A : said c0).
  { refine (definitions_said _ _ _ _ _ _ _ _ C).
    - intros x X. apply I3. apply in_flat_map in X. destruct X as (d & D & X). apply in_flat_map. exists d. split; [|exact X].
      exact (Permutation_in _ (sorted_perm _ _ _ S) D).
    - split; [constructor|split; [|left; reflexivity]]. cbn [cd_includes]. unfold initial_includes. apply Forall_app. split.
      + destruct (mod_comment_import (bm_mod bm)) as [cm|]; [|constructor]. constructor; [|constructor]. exists cm. split; [apply I2; left; reflexivity|reflexivity].
      + apply Forall_forall. intros x X. apply in_map_iff in X. destruct X as (i & <- & _). exact Logic.I. }
  injection H as <-. destruct (mod_comment (bm_mod bm)) as [cm|]; [|exact A]. destruct (String.eqb (cm_text cm) ""); [exact A|].
  destruct A as (A1 & A2 & A3). repeat split; try assumption. right. exists cm. split; [apply I1; left; reflexivity|reflexivity].
Qed.

(** ** Rendering *)

Open Scope string_scope.

Lemma commented_app : forall a b, commented cs a b -> forall c d, commented cs c d -> commented cs (a ++ c) (b ++ d).
Proof.
  intros a b H. induction H as [|s a b H IH|c a b I H IH|c a b I H IH|c a b I H IH|c a b I H IH|c a b I H IH]; intros x y X.
  - exact X.
  - rewrite <- !string_app_assoc. apply cs_text. apply IH. exact X.
  - rewrite <- !string_app_assoc. apply cs_head; [exact I|]. apply IH. exact X.
  - rewrite <- !string_app_assoc. apply cs_import; [exact I|]. apply IH. exact X.
  - rewrite <- !string_app_assoc. apply cs_definition; [exact I|]. apply IH. exact X.
  - rewrite <- !string_app_assoc. apply cs_field; [exact I|]. apply IH. exact X.
  - rewrite <- !string_app_assoc. apply cs_behind; [exact I|]. apply IH. exact X.
Qed.
Lemma commented_refl : forall s, commented cs s s.
Proof. intros s. rewrite <- (string_app_nil s). apply cs_text. apply cs_end. Qed.
Lemma commented_text : forall s a b, commented cs a b -> commented cs (s ++ a) (s ++ b).
Proof. exact (cs_text cs). Qed.

Lemma concat_cons : forall a l, String.concat "" (a :: l) = a ++ String.concat "" l.
Proof. intros a [|b l]; simpl; [rewrite string_app_nil; reflexivity|reflexivity]. Qed.

Lemma commented_concat : forall A B (f : A -> string) (g : B -> string) (h : A -> B) l,
  (forall x, In x l -> commented cs (g (h x)) (f x)) -> commented cs (concat_map_str g (map h l)) (concat_map_str f l).
Proof.
  intros A B f g h. unfold concat_map_str. induction l as [|x l IH]; intros H; [apply cs_end|]. cbn [map]. rewrite !concat_cons. apply commented_app.
  - apply H. left. reflexivity.
  - apply IH. intros y Y. apply H. right. exact Y.
Qed.

Lemma commented_block : forall c, text_said c -> commented cs "" (render_opt_block c).
Proof.
  intros [s|] H; simpl; [|apply cs_end]. destruct H as (c & I & ->). unfold block_comment. rewrite <- !string_app_assoc.
  rewrite <- (string_app_nil NL). apply cs_definition; [exact I|apply cs_end].
Qed.

Lemma commented_behind : forall c, unit_said c ->
  commented cs "" (match c with Some c => "     " ++ line_comment c | None => "" end).
Proof.
  intros [s|] H; simpl; [|apply cs_end]. destruct H as (c & I & ->). unfold line_comment.
  rewrite <- (string_app_nil (rstrip _)). apply (cs_behind cs c "" ""); [exact I|apply cs_end].
Qed.

Lemma commented_field : forall f, unit_said (cf_comment f) -> commented cs (render_field (plain_field f)) (render_field f).
Proof.
  intros f H. unfold render_field. cbn [plain_field cf_comment cf_type cf_name cf_bits cf_array]. apply commented_app; [|apply commented_refl].
  destruct (cf_comment f) as [s|]; [|apply cs_end]. destruct H as (c & I & ->). unfold line_comment.
  rewrite <- (string_app_nil NL). apply (cs_field cs c "" ""); [exact I|apply cs_end].
Qed.

Lemma commented_decl : forall d, decl_said d -> commented cs (render_decl (plain_decl d)) (render_decl d).
Proof.
  intros [c n l|c n l|c n v l] (H & F); cbn [plain_decl render_decl]; rewrite Forall_forall in F.
  - apply (commented_app "" (render_opt_block c) (commented_block c H)). do 4 apply commented_text. apply commented_app; [|apply commented_refl].
    apply commented_concat. intros f I. apply commented_field. exact (F f I).
  - apply (commented_app "" (render_opt_block c) (commented_block c H)). do 2 apply commented_text. apply commented_app; [|apply commented_refl].
    apply commented_concat. intros [[k p] cm] I. do 5 apply commented_text.
    apply (commented_app "" _ (commented_behind cm (F _ I))). apply commented_refl.
  - apply (commented_app "" (render_opt_block c) (commented_block c H)). do 4 apply commented_text. apply commented_app; [|apply commented_refl].
    apply commented_concat. intros [[t k] cm] I. do 5 apply commented_text. exact (commented_behind cm (F _ I)).
Qed.

Lemma commented_includes : forall l, Forall include_said l ->
  commented cs (concat_map_str (fun i => render_include i ++ NL) (filter no_comment l)) (concat_map_str (fun i => render_include i ++ NL) l).
Proof.
  unfold concat_map_str. induction l as [|i l IH]; intros F; [apply cs_end|]. inversion F as [|? ? H F']; subst. cbn [filter].
  cbn [map]. rewrite concat_cons. destruct i as [s|f|s]; cbn [no_comment map].
  - destruct H as (c & I & ->). cbn [render_include]. unfold line_comment. rewrite <- string_app_assoc. apply cs_import; [exact I|]. apply IH. exact F'.
  - rewrite concat_cons. apply commented_text. apply IH. exact F'.
  - rewrite concat_cons. apply commented_text. apply IH. exact F'.
Qed.

Lemma commented_head : forall s, (s = "" \/ text_said (Some s)) -> commented cs (file_header "") (file_header s).
Proof.
  intros s H. unfold file_header. do 3 apply commented_text. cbn [String.eqb].
  destruct (String.eqb s "") eqn:E; [apply commented_refl|]. destruct H as [->|(c & I & ->)]; [discriminate E|].
  rewrite <- !string_app_assoc. apply cs_head; [exact I|]. apply commented_refl.
Qed.

Lemma commented_header : forall c f h, said c -> commented cs (render_header (plain_cdata c) f h) (render_header c f h).
Proof.
  intros c f h (D & I & H). unfold render_header. cbn [plain_cdata cd_data cd_defines cd_includes cd_predefs cd_stdbool cd_stdint cd_header_comment].
  do 2 apply commented_text. apply commented_app; [destruct (is_msgids h); [apply commented_refl|apply commented_head; exact H]|].
  apply commented_text. apply commented_app; [|apply commented_refl]. destruct (is_msgids h); [apply commented_refl|].
  do 2 apply commented_text. apply commented_app; [apply commented_includes; exact I|]. apply commented_text.
  apply commented_concat. intros d X. apply commented_app; [|apply commented_refl]. apply commented_decl. rewrite Forall_forall in D. exact (D d X).
Qed.

Lemma commented_source : forall c, said c -> commented cs (render_source (plain_cdata c)) (render_source c).
Proof.
  intros c (D & I & H). unfold render_source. cbn [plain_cdata cd_header_comment cd_init_include cd_inits].
  apply commented_app; [apply commented_head; exact H|apply commented_refl].
Qed.
End Said.

(** Headers of message IDs show no comments. *)
Lemma msgids_header : forall c f, render_header (plain_cdata c) f MSGIDS = render_header c f MSGIDS.
Proof. reflexivity. Qed.
