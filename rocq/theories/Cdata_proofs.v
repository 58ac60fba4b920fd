(** * Proofs: what the generators collect from the clauses of a module *)
From Coq Require Import Permutation.
From Verif Require Import Base PyNum PyStr Ast Bundle Sorter CCommon GenCfs GenC GenBinary Lib_proofs Gen_proofs.
Open Scope string_scope.
Open Scope list_scope.

Definition has_clause (k : member) : bool := match m_with k with Some _ => true | None => false end.

(** Members with a clause, of a sequence. *)
Definition clauses_of (d : definition) : list member :=
  match d with DSequence _ _ l => filter has_clause l | _ => [] end.

(** [cs]: what the clauses of [d] are turned into. *)
Definition handled (wch : string -> member -> result cdata) (d : definition) (cs : list cdata) : Prop :=
  Forall2 (fun k c => wch (c_name (def_name d)) k = Ok c) (clauses_of d) cs.

Definition merge {A} (d e : list (string * A)) : list (string * A) :=
  fold_left (fun d kv => dict_set (fst kv) (snd kv) d) e d.

Record collects (acc : cdata) (cs : list cdata) (acc' : cdata) : Prop :=
  { co_defines : cd_defines acc' = cd_defines acc ++ flat_map cd_defines cs;
    co_inits : cd_inits acc' = cd_inits acc ++ flat_map cd_inits cs;
    co_predefs : cd_predefs acc' = cd_predefs acc ++ flat_map cd_predefs cs }.

Lemma last_cons : forall A (l : list A) a d, last (a :: l) d = last l a.
Proof.
  intros A. induction l as [|b l IH]; intros a d; [reflexivity|].
  transitivity (last (b :: l) d); [reflexivity|]. rewrite !IH. reflexivity.
Qed.

Lemma collects_nil : forall acc, collects acc [] acc.
Proof. intros acc. constructor; simpl; rewrite app_nil_r; reflexivity. Qed.

Lemma convert_members_collects : forall fuel defs sds wch name l fields acc fields' acc',
  convert_members fuel defs sds wch name l fields acc = Ok (fields', acc') ->
  exists cs, Forall2 (fun k c => wch (c_name name) k = Ok c) (filter has_clause l) cs
    /\ collects acc cs acc'
    /\ cd_includes acc' = cd_includes acc ++ flat_map cd_includes cs
    /\ cd_header_comment acc' = cd_header_comment acc
    /\ cd_init_include acc' = last (map cd_init_include cs) (cd_init_include acc)
    /\ cd_binary acc' = fold_left (fun d c => merge d (cd_binary c)) cs (cd_binary acc).
Proof.
  intros fuel defs sds wch name. induction l as [|k l IH]; intros fields acc fields' acc' H; simpl in H.
  - injection H as <- <-. exists []. simpl. rewrite app_nil_r. split; [constructor|]. split; [apply collects_nil|]. auto.
  - apply bind_ok in H. destruct H as ([[f sb] si] & Hc & H).
    apply bind_ok in H. destruct H as (acc1 & Ha & H).
    apply IH in H. destruct H as (cs & F & [C1 C2 C3] & C4 & C5 & C6 & C7). simpl. unfold has_clause at 1.
    destruct (m_with k).
    + apply bind_ok in Ha. destruct Ha as (c & Hk & Ha). injection Ha as <-. exists (c :: cs).
      split; [constructor; assumption|]. simpl in *. rewrite <- app_assoc in C1, C2, C3, C4.
      split; [constructor; assumption|]. split; [exact C4|]. split; [exact C5|]. split; [|exact C7].
      rewrite C6. symmetry. apply (last_cons _ (map cd_init_include cs)).
    + injection Ha as <-. exists cs. split; [exact F|]. split; [constructor; assumption|]. auto.
Qed.

(** The last include of the clauses, if any. *)
Definition next_include (cur : string) (d : definition) (cs : list cdata) : string :=
  match d with DSimple _ _ _ => cur | _ => last (map cd_init_include cs) "" end.

(** Notes added for simple types. *)
Definition notes (note : string -> asn_type -> result (option string)) (d : definition) (is : list cinclude) : Prop :=
  match d with
  | DSimple n t _ => exists s, note n t = Ok s /\ is = match s with Some s => [IncNote s] | None => [] end
  | _ => is = []
  end.

Lemma convert_definition_collects : forall fuel defs sds note wch,
  (forall n k c, wch n k = Ok c -> cd_includes c = []) ->
  forall acc d acc',
  convert_definition fuel defs sds note wch acc d = Ok acc' ->
  exists cs is, handled wch d cs /\ collects acc cs acc'
    /\ notes note d is /\ cd_includes acc' = cd_includes acc ++ is
    /\ cd_header_comment acc' = cd_header_comment acc
    /\ cd_init_include acc' = next_include (cd_init_include acc) d cs
    /\ cd_binary acc' = merge (cd_binary acc) (fold_left (fun d c => merge d (cd_binary c)) cs []).
Proof.
  intros fuel defs sds note wch Hw acc d acc' H. destruct d as [n c l|n c l|n c l|n t c]; simpl in H.
  - apply bind_ok in H. destruct H as (x & Hx & H). injection H as <-.
    unfold convert_sequence in Hx. apply bind_ok in Hx. destruct Hx as ([fields a] & Hm & Hx).
    apply bind_ok in Hx. destruct Hx as (u & _ & Hx). injection Hx as <-.
    apply convert_members_collects in Hm. destruct Hm as (cs & F & [C1 C2 C3] & C4 & C5 & C6 & C7).
    exists cs, []. split; [exact F|]. simpl in *.
    assert (E : flat_map cd_includes cs = []).
    { clear - F Hw. induction F as [|k x q q' H _ IH]; simpl; [reflexivity|]. rewrite (Hw _ _ _ H), IH. reflexivity. }
    split; [constructor; simpl; congruence|]. rewrite C4, C6, C7, E. auto.
  - injection H as <-. exists [], []. split; [constructor|]. split; [constructor; simpl; rewrite !app_nil_r; reflexivity|]. simpl. rewrite app_nil_r. auto.
  - injection H as <-. exists [], []. split; [constructor|]. split; [constructor; simpl; rewrite !app_nil_r; reflexivity|]. simpl. rewrite app_nil_r. auto.
  - apply bind_ok in H. destruct H as (s & Hs & H). injection H as <-. exists []. eexists.
    split; [constructor|]. split; [destruct s; constructor; simpl; rewrite app_nil_r; reflexivity|].
    split; [exists s; split; [exact Hs|reflexivity]|]. destruct s; simpl; rewrite ?app_nil_r; auto.
Qed.

Fixpoint last_include (cur : string) (ds : list definition) (css : list (list cdata)) : string :=
  match ds, css with
  | d :: ds, cs :: css => last_include (next_include cur d cs) ds css
  | _, _ => cur
  end.

Definition clause_binary (cs : list cdata) : list (string * list bytes) :=
  fold_left (fun d c => merge d (cd_binary c)) cs [].

Lemma convert_definitions_collects : forall fuel defs sds note wch,
  (forall n k c, wch n k = Ok c -> cd_includes c = []) ->
  forall l acc acc',
  convert_definitions fuel defs sds note wch l acc = Ok acc' ->
  exists css iss, Forall2 (handled wch) l css /\ collects acc (concat css) acc'
    /\ Forall2 (notes note) l iss /\ cd_includes acc' = cd_includes acc ++ concat iss
    /\ cd_header_comment acc' = cd_header_comment acc
    /\ cd_init_include acc' = last_include (cd_init_include acc) l css
    /\ cd_binary acc' = fold_left (fun d cs => merge d (clause_binary cs)) css (cd_binary acc).
Proof.
  intros fuel defs sds note wch Hw. induction l as [|d l IH]; intros acc acc' H; simpl in H.
  - injection H as <-. exists [], []. split; [constructor|]. split; [apply collects_nil|]. simpl.
    rewrite app_nil_r. auto.
  - apply bind_ok in H. destruct H as (a & Ha & H).
    apply (convert_definition_collects _ _ _ _ _ Hw) in Ha.
    destruct Ha as (cs & is & F & [C1 C2 C3] & N & C4 & C5 & C6 & C7).
    apply IH in H. destruct H as (css & iss & F' & [D1 D2 D3] & N' & D4 & D5 & D6 & D7).
    exists (cs :: css), (is :: iss). split; [constructor; assumption|]. simpl.
    split; [constructor; rewrite flat_map_app, app_assoc; congruence|].
    split; [constructor; assumption|]. split; [rewrite app_assoc; congruence|].
    split; [congruence|]. split; [congruence|]. rewrite D7, C7. reflexivity.
Qed.

(** What is printed for a module. *)
Lemma module_collects : forall fuel b bm inc note wch c,
  (forall n k c, wch n k = Ok c -> cd_includes c = []) ->
  module_cdata fuel b bm inc note wch = Ok c ->
  exists sorted css iss, sorted_definitions fuel (bm_mod bm) = Ok sorted
    /\ Forall2 (handled wch) sorted css
    /\ cd_defines c = flat_map cd_defines (concat css)
    /\ cd_inits c = flat_map cd_inits (concat css)
    /\ cd_predefs c = flat_map cd_predefs (concat css)
    /\ Forall2 (notes note) sorted iss
    /\ cd_includes c = initial_includes inc (bm_mod bm) ++ concat iss
    /\ cd_init_include c = last_include "" sorted css
    /\ cd_binary c = fold_left (fun d cs => merge d (clause_binary cs)) css [].
Proof.
  intros fuel b bm inc note wch c Hw H. unfold module_cdata in H.
  apply bind_ok in H. destruct H as (sorted & Hs & H).
  apply bind_ok in H. destruct H as (c1 & Hc & H).
  apply (convert_definitions_collects _ _ _ _ _ Hw) in Hc.
  destruct Hc as (css & iss & F & [C1 C2 C3] & N & C4 & C5 & C6 & C7). simpl in *.
  exists sorted, css, iss. split; [exact Hs|]. split; [exact F|].
  injection H as <-. destruct (mod_comment (bm_mod bm)) as [cm|]; [|auto 10].
  destruct (String.eqb (cm_text cm) ""); simpl; auto 10.
Qed.

Lemma cfs_wch_includes : forall n k c, cfs_with_components n k = Ok c -> cd_includes c = [].
Proof.
  intros n k c H. unfold cfs_with_components in H. destruct (m_with k); [|injection H as <-; reflexivity].
  apply bind_ok in H. destruct H as (ds & _ & H). injection H as <-. reflexivity.
Qed.
Lemma c_wch_includes : forall mn n k c, c_with_components mn n k = Ok c -> cd_includes c = [].
Proof.
  intros mn n k c H. unfold c_with_components in H. destruct (m_with k); injection H as <-; reflexivity.
Qed.
Lemma bin_wch_includes : forall fuel e defs m n k c, bin_with_components fuel e defs m n k = Ok c -> cd_includes c = [].
Proof.
  intros fuel e defs m n k c H. unfold bin_with_components in H. destruct (m_with k); [|injection H as <-; reflexivity].
  apply bind_ok in H. destruct H as (s & _ & H). apply bind_ok in H. destruct H as (bs & _ & H). injection H as <-.
  reflexivity.
Qed.

(** The binary images of one sequence: those of the last clause. *)
Lemma bin_wch_binary : forall fuel e defs m n k c, bin_with_components fuel e defs m n k = Ok c ->
  m_with k <> None -> exists bs, cd_binary c = [(lowerize n, bs)].
Proof.
  intros fuel e defs m n k c H Hk. unfold bin_with_components in H. destruct (m_with k); [|congruence].
  apply bind_ok in H. destruct H as (s & _ & H). apply bind_ok in H. destruct H as (bs & _ & H). injection H as <-.
  simpl. eauto.
Qed.

Lemma clause_binary_same_key : forall key cs, Forall (fun c => exists bs, cd_binary c = [(key, bs)]) cs ->
  clause_binary cs = last (map cd_binary cs) [].
Proof.
  intros key cs F. unfold clause_binary.
  assert (G : forall d, d = [] \/ (exists bs, d = [(key, bs)]) ->
    fold_left (fun d c => merge d (cd_binary c)) cs d = last (map cd_binary cs) d).
  { induction F as [|c cs (bs & E) F IH]; intros d Hd; [reflexivity|]. simpl. rewrite IH.
    - unfold merge. rewrite E. simpl.
      assert (S : dict_set key bs d = [(key, bs)]).
      { destruct Hd as [->|(bs' & ->)]; simpl; [reflexivity|]. rewrite String.eqb_refl. reflexivity. }
      rewrite S. symmetry. apply (last_cons _ (map cd_binary cs)).
    - right. rewrite E. unfold merge. simpl. exists bs.
      destruct Hd as [->|(bs' & ->)]; simpl; [reflexivity|]. rewrite String.eqb_refl. reflexivity. }
  apply G. left. reflexivity.
Qed.

Lemma dict_set_fresh : forall A k (v : A) d, ~ In k (map fst d) -> dict_set k v d = d ++ [(k, v)].
Proof.
  intros A k v. induction d as [|[k' v'] d IH]; intros H; simpl; [reflexivity|].
  destruct (String.eqb_spec k k') as [->|_]; [exfalso; apply H; left; reflexivity|].
  rewrite IH; [reflexivity|]. intros G. apply H. right. exact G.
Qed.

Lemma merge_fresh : forall A (e d : list (string * A)), NoDup (map fst (d ++ e)) -> merge d e = d ++ e.
Proof.
  unfold merge. intros A. induction e as [|[k v] e IH]; intros d H; simpl; [rewrite app_nil_r; reflexivity|].
  rewrite map_app in H. simpl in H.
  rewrite dict_set_fresh; [|apply NoDup_remove_2 in H; intros G; apply H; apply in_or_app; left; exact G].
  rewrite IH; [rewrite <- app_assoc; reflexivity|].
  rewrite <- app_assoc. rewrite map_app. exact H.
Qed.

Lemma merge_all_fresh : forall A B (f : B -> list (string * A)) l d,
  NoDup (map fst (d ++ flat_map f l)) -> fold_left (fun d x => merge d (f x)) l d = d ++ flat_map f l.
Proof.
  intros A B f. induction l as [|x l IH]; intros d H; simpl; [rewrite app_nil_r; reflexivity|].
  simpl in H. rewrite app_assoc in H. rewrite merge_fresh.
  - rewrite IH; [rewrite app_assoc; reflexivity|exact H].
  - rewrite map_app in H. apply NoDup_app_iff in H. apply H.
Qed.

(** The binary images of a module. *)
Lemma handled_clause : forall wch d cs, handled wch d cs ->
  Forall (fun c => exists k, In k (clauses_of d) /\ m_with k <> None /\ wch (c_name (def_name d)) k = Ok c) cs.
Proof.
  intros wch d cs F. rewrite Forall_forall. intros c Hc. destruct (Forall2_in_r _ _ _ _ _ _ F Hc) as (k & Hk & E).
  exists k. split; [exact Hk|]. split; [|exact E].
  destruct d; simpl in Hk; try destruct Hk. apply filter_In in Hk. destruct Hk as (_ & Hk). unfold has_clause in Hk.
  destruct (m_with k); [discriminate|discriminate].
Qed.

Lemma bin_clause_binary : forall fuel e defs m d cs, handled (bin_with_components fuel e defs m) d cs ->
  clause_binary cs = last (map cd_binary cs) []
  /\ (clause_binary cs = [] \/ exists bs, clause_binary cs = [(lowerize (c_name (def_name d)), bs)]).
Proof.
  intros fuel e defs m d cs F. apply handled_clause in F.
  assert (G : Forall (fun c => exists bs, cd_binary c = [(lowerize (c_name (def_name d)), bs)]) cs).
  { revert F. apply Forall_impl. intros c (k & _ & Hk & H). eapply bin_wch_binary; eassumption. }
  rewrite (clause_binary_same_key _ _ G). split; [reflexivity|].
  clear F. induction G as [|c cs (bs & E) G IH]; [left; reflexivity|].
  destruct cs as [|c' cs]; simpl; [right; rewrite E; eauto|]. exact IH.
Qed.

Lemma clause_binary_keys : forall fuel e defs m ds css, Forall2 (handled (bin_with_components fuel e defs m)) ds css ->
  NoDup (map (fun d => lowerize (c_name (def_name d))) ds) ->
  NoDup (map fst (flat_map clause_binary css))
  /\ incl (map fst (flat_map clause_binary css)) (map (fun d => lowerize (c_name (def_name d))) ds).
Proof.
  intros fuel e defs m ds css F. induction F as [|d cs ds css H F IH]; intros N; simpl; [split; [constructor|intros x []]|].
  simpl in N. inversion N as [|? ? N1 N2]; subst. destruct (IH N2) as (I1 & I2).
  apply bin_clause_binary in H. destruct H as (_ & [->|(bs & ->)]); simpl.
  - split; [exact I1|]. intros x Hx. right. apply I2. exact Hx.
  - split; [constructor; [|exact I1]|]. { intros G. apply N1. apply I2. exact G. }
    intros x [<-|Hx]; [left; reflexivity|right; apply I2; exact Hx].
Qed.

Lemma bin_cdata_binary : forall fuel e b bm c sorted css,
  Forall2 (handled (bin_with_components fuel e (all_defs b) (bm_mod bm))) sorted css ->
  NoDup (map (fun d => lowerize (c_name (def_name d))) sorted) ->
  cd_binary c = fold_left (fun d cs => merge d (clause_binary cs)) css [] ->
  cd_binary c = flat_map clause_binary css /\ NoDup (map fst (cd_binary c)).
Proof.
  intros fuel e b bm c sorted css F N E. destruct (clause_binary_keys _ _ _ _ _ _ F N) as (K & _).
  rewrite (merge_all_fresh _ _ clause_binary css []) in E by exact K. simpl in E. rewrite E. auto.
Qed.
