(** * Proofs about the text of generated headers *)
From Coq Require Import Permutation Sorted.
From Verif Require Import Base PyNum PyStr Ast Size Processor Bundle Sorter CCommon GenCfs GenC GenBinary Main Lib_proofs
  Spec_Grammar Spec_Check Spec_Enum Spec_Size Spec_Layout Spec_Bundle Spec_Gen Spec_Files Spec_C Spec_Cfs Spec_Header Spec_Printed
  Enum_proofs Bundle_proofs Note_proofs Gen_proofs Field_proofs Cdata_proofs C_proofs Files_proofs Runs_proofs Str_proofs Text_proofs Disk_proofs Run_proofs Order_proofs Cfs_proofs Decl_proofs Packed_proofs Binary_proofs Accept_proofs Size_proofs Name_proofs Header_proofs Header2_proofs Header3_proofs.
Open Scope string_scope.

Lemma join_split : forall ch s, String.concat (String ch "") (split_on ch s) = s.
Proof.
  intros ch. induction s as [|c s IH]; [reflexivity|]. cbn [split_on]. destruct (Ascii.eqb_spec c ch) as [->|N].
  - destruct (split_on ch s) as [|x l] eqn:E; [destruct (split_nonempty ch s E)|]. cbn [String.concat] in *. simpl. f_equal. exact IH.
  - destruct (split_on ch s) as [|x l] eqn:E; [destruct (split_nonempty ch s E)|]. cbn [String.concat] in *.
    destruct l as [|y l]; simpl in *; f_equal; exact IH.
Qed.

Lemma concat_empty_app : forall a b : list string, String.concat "" (a ++ b) = String.concat "" a ++ String.concat "" b.
Proof.
  intros a b. assert (X := concat_map_app _ (fun x : string => x) a b). unfold concat_map_str in X. rewrite !map_id in X. exact X.
Qed.
Lemma concat_empty_cons : forall x (l : list string), String.concat "" (x :: l) = x ++ String.concat "" l.
Proof. intros x [|y l]; simpl; [symmetry; apply string_app_nil|reflexivity]. Qed.

Lemma concat_map_one : forall A (f : A -> string) x, concat_map_str f [x] = f x.
Proof. reflexivity. Qed.

(** ** Declarations *)
Lemma render_field_text : forall k f, cf_comment f = option_map item_comment (m_comment k) ->
  render_field f = field_text k (field_said f).
Proof.
  intros k f E. unfold render_field, field_text, remark_before, remark. rewrite E. cbn [field_said x_type x_name x_bits x_array].
  rewrite join_split. destruct (m_comment k) as [c|]; cbn [option_map]; reflexivity.
Qed.

Lemma render_fields_text : forall fuel defs sds ks fs, Forall2 (field_for fuel defs sds) ks fs ->
  concat_map_str render_field fs = fields_text ks (map field_said fs).
Proof.
  intros fuel defs sds ks fs F. induction F as [|k f ks fs H F IH]; [reflexivity|]. cbn [map fields_text]. rewrite <- IH, <- (render_field_text k f).
  - unfold concat_map_str. cbn [map]. apply concat_empty_cons.
  - destruct H as (sb & si & H). unfold convert_member in H. apply bind_ok in H. destruct H as (cm & _ & H).
    apply bind_ok in H. destruct H as ([[[bits ct] sb'] si'] & _ & H). injection H as <- _ _. reflexivity.
Qed.

Lemma comment_block : forall c, render_opt_block (def_comment_text c) = definition_comment_text c.
Proof.
  intros [c|]; [|reflexivity]. cbn [def_comment_text definition_comment_text]. destruct (String.eqb (cm_text c) ""); [reflexivity|].
  unfold render_opt_block, block_comment. rewrite <- !string_app_assoc. reflexivity.
Qed.

Section Printed.
Variables (names : list string) (input : list module) (b : bundle) (bm : bmodule) (fuel : nat) (sorted : list definition).
Hypothesis C : config names input b.
Hypothesis Hbm : In bm (b_modules b).
Hypothesis Hso : sorted_definitions fuel (bm_mod bm) = Ok sorted.

Lemma definition_is_printed : forall d0 d xs, same_definition d0 d -> In d sorted ->
  declares fuel (all_defs b) (simple_definition_list b bm) d xs ->
  definition_printed (definitions input) d0 (map said xs) (concat_map_str (fun d => render_decl d ++ NL ++ NL) xs).
Proof.
  intros d0 d xs S Hd H. assert (DS := definition_is_said names input b bm fuel sorted C Hbm Hso d0 d xs S Hd H).
  destruct H as [n t c|n c l fields F|n c l|n c l].
  - destruct d0; simpl in S; try discriminate; [destruct S as (? & S & _); discriminate|]. injection S as <- <- <-. apply simple_printed.
  - destruct d0; simpl in S; try discriminate; [|destruct S as (? & S & _); discriminate]. injection S as <- <- <-.
    inversion DS as [? ? ? fs F2| | |]; subst.
    replace (concat_map_str _ _) with (definition_comment_text c ++ "typedef struct" ++ NL ++ "{" ++ NL ++ fields_text l (map field_said fields)
       ++ "} __attribute__((packed)) " ++ c_name n ++ ";" ++ NL ++ NL); [apply sequence_printed; exact F2|].
    unfold concat_map_str at 1. cbn [map String.concat render_decl]. rewrite comment_block, (render_fields_text _ _ _ _ _ F), <- !string_app_assoc. reflexivity.
  - destruct d0; simpl in S; try discriminate. destruct S as (l' & S & R). injection S as <- <- <-. simpl map. rewrite map_map.
    replace (concat_map_str (fun d => render_decl d ++ NL ++ NL) _) with
      (definition_comment_text c ++ "typedef enum {" ++ NL ++ String.concat "" (map enumerator_text l)
       ++ "} __attribute__((packed)) " ++ c_name n ++ ";" ++ NL ++ NL); [exact (enumerated_printed _ _ _ _ l R)|].
    unfold concat_map_str at 1. cbn [map String.concat render_decl]. rewrite comment_block, <- !string_app_assoc. do 3 f_equal.
    unfold concat_map_str. rewrite map_map. f_equal. f_equal. apply map_ext. intros e. unfold enumerator_text, remark_behind, remark, C_SPACES.
    rewrite <- ?string_app_assoc. destruct (e_comment e) as [ce|]; reflexivity.
  - destruct d0; simpl in S; try discriminate; [|destruct S as (? & S & _); discriminate]. injection S as <- <- <-. simpl map. rewrite map_map.
    replace (concat_map_str (fun d => render_decl d ++ NL ++ NL) _) with
      (definition_comment_text c ++ "union " ++ c_name n ++ " {" ++ NL ++ String.concat "" (map alternative_text l)
       ++ "} " ++ lowerize (c_name n) ++ ";" ++ NL ++ NL); [exact (choice_printed _ _ _ l)|].
    unfold concat_map_str at 1. cbn [map String.concat render_decl]. rewrite comment_block, <- !string_app_assoc. do 5 f_equal.
    unfold concat_map_str. rewrite map_map. f_equal. f_equal. apply map_ext. intros e. unfold alternative_text, remark_behind, remark, C_SPACES.
    rewrite <- ?string_app_assoc. destruct (m_comment e) as [ce|]; reflexivity.
Qed.

(** ** Notes *)
Lemma embedded_is_text : forall n,
  (NL ++ "// NOTE: " ++ n ++ " is embedded directly where it is used. " ++ "Rationale: Bitfields cannot be typedef'd.") ++ NL = embedded_text n.
Proof. intros n. unfold embedded_text. rewrite <- !string_app_assoc. reflexivity. Qed.

Lemma note_is_printed : forall cmd note d0 d is, 
  (forall n t, note n t = match cmd with GenerateCfs _ => cfs_note b n t | GenerateC _ => c_note n t | _ => bin_note n t end) ->
  config_command names cmd -> same_definition d0 d -> In d sorted -> notes note d is ->
  note_printed cmd input d0 (concat_map_str (fun i => render_include i ++ NL) is).
Proof.
  intros cmd note d0 d is Hn HC S Hd N. destruct d0 as [n c l|n c l|n c l|n t c]; simpl in S.
  - subst d. simpl in N. subst is. apply note_other. reflexivity.
  - subst d. simpl in N. subst is. apply note_other. reflexivity.
  - destruct S as (l' & -> & _). simpl in N. subst is. apply note_other. reflexivity.
  - subst d. destruct N as (s & Hs & ->). rewrite Hn in Hs. destruct HC as [->|[->|(e & ->)]].
    + destruct C as (Hg & Hb). destruct (note_text names input b n t Hg Hb) as [(U & E)|(users & U0 & U1 & U2 & U3 & E)]; rewrite E in Hs.
      * injection Hs as <-. eapply note_unused; [reflexivity|exact U].
      * apply bind_ok in Hs. destruct Hs as (w & Hw & Hs).
        match type of Hs with Ok ?x = _ => assert (Qs : s = x) by congruence end. subst s. clear Hs.
        replace (concat_map_str _ _) with ("// NOTE: The simple type '" ++ n ++ "' has been generated to a C "
          ++ (if in_dec Z.eq_dec w [8; 16; 32; 64]%Z then "builtin" else "bitfield")
          ++ " type and is used directly in " ++ String.concat ", " (map (fun u => "'" ++ u ++ "'") users) ++ NL).
        -- eapply note_used; try eassumption; [reflexivity|].
           assert (Hd' : In (DSimple n t c) (all_defs b)).
           { apply in_all_defs. exists bm. split; [exact Hbm|]. apply (Permutation_in _ (sorted_perm _ _ _ Hso)), Hd. }
           assert (SD := proj2 (bundle_same names input b Hb)). apply (Accept_proofs.same_simple _ _ n t c SD) in Hd'.
           apply (simple_value_size names input Hg b n t c w Hb Hd'). exact Hw.
        -- rewrite concat_map_one. unfold render_include. rewrite <- !string_app_assoc. do 3 f_equal.
           assert (Q : existsb (Z.eqb w) [8; 16; 32; 64]%Z = if in_dec Z.eq_dec w [8; 16; 32; 64]%Z then true else false).
           { destruct (in_dec Z.eq_dec w [8; 16; 32; 64]%Z) as [Hi|Hi].
             - apply existsb_exists. exists w. split; [exact Hi|apply Z.eqb_refl].
             - apply Bool.not_true_is_false. intros X. apply existsb_exists in X. destruct X as (y & Hy & X). apply Z.eqb_eq in X. subst y. contradiction. }
           rewrite Q. destruct (in_dec Z.eq_dec w [8; 16; 32; 64]%Z); reflexivity.
    + assert (Qs := Hs). unfold c_note in Qs. match type of Qs with Ok ?x = _ => assert (Q : s = x) by congruence end. subst s.
      rewrite concat_map_one. unfold render_include. rewrite embedded_is_text. eapply note_c. reflexivity.
    + unfold bin_note in Hs. destruct (mem n ["Float"; "Double"]) eqn:E.
      * injection Hs as <-. apply mem_In in E. eapply note_float; [reflexivity|]. destruct E as [<-|[<-|[]]]; auto.
      * match type of Hs with Ok ?x = _ => assert (Q : s = x) by congruence end. subst s. clear Hs.
        apply mem_not_In in E. rewrite concat_map_one. unfold render_include. rewrite embedded_is_text.
        eapply note_binary; [reflexivity| |]; intros ->; apply E; simpl; auto.
Qed.
End Printed.

(** ** The header *)
Lemma Forall2_notes : forall cmd names input b bm fuel sorted note, config names input b -> In bm (b_modules b) ->
  sorted_definitions fuel (bm_mod bm) = Ok sorted ->
  (forall n t, note n t = match cmd with GenerateCfs _ => cfs_note b n t | GenerateC _ => c_note n t | _ => bin_note n t end) ->
  config_command names cmd -> forall l0 l1 iss, Forall2 same_definition l0 l1 -> incl l1 sorted -> Forall2 (notes note) l1 iss ->
  exists ns, Forall2 (note_printed cmd input) l0 ns /\ concat_map_str (fun i => render_include i ++ NL) (concat iss) = String.concat "" ns.
Proof.
  intros cmd names input b bm fuel sorted note C Hbm Hso Hn HC l0 l1 iss Fs. revert iss.
  induction Fs as [|d0 d l0 l1 S Fs IH]; intros iss Hin F; inversion F as [|? is ? iss' N F']; subst.
  - exists []. split; [constructor|reflexivity].
  - destruct (IH iss' ltac:(intros x Hx; apply Hin; right; exact Hx) F') as (ns & Fn & E).
    exists (concat_map_str (fun i => render_include i ++ NL) is :: ns). split.
    + constructor; [|exact Fn]. eapply note_is_printed; try eassumption. apply Hin. left. reflexivity.
    + cbn [concat]. rewrite concat_map_app, concat_empty_cons, E. reflexivity.
Qed.

Lemma Forall2_decls : forall names input b bm fuel sorted, config names input b -> In bm (b_modules b) ->
  sorted_definitions fuel (bm_mod bm) = Ok sorted ->
  forall l0 l1 dss, Forall2 same_definition l0 l1 -> incl l1 sorted ->
  Forall2 (declares fuel (all_defs b) (simple_definition_list b bm)) l1 dss ->
  exists ps, Forall2 (fun d p => definition_printed (definitions input) d (fst p) (snd p)) l0 ps
    /\ map said (concat dss) = concat (map fst ps)
    /\ concat_map_str (fun d => render_decl d ++ NL ++ NL) (concat dss) = String.concat "" (map snd ps).
Proof.
  intros names input b bm fuel sorted C Hbm Hso l0 l1 dss Fs. revert dss.
  induction Fs as [|d0 d l0 l1 S Fs IH]; intros dss Hin F; inversion F as [|? ds ? dss' D F']; subst.
  - exists []. split; [constructor|]. split; reflexivity.
  - destruct (IH dss' ltac:(intros x Hx; apply Hin; right; exact Hx) F') as (ps & Fp & E1 & E2).
    exists ((map said ds, concat_map_str (fun d => render_decl d ++ NL ++ NL) ds) :: ps). split; [|split].
    + constructor; [|exact Fp]. cbn [fst snd]. eapply definition_is_printed; try eassumption. apply Hin. left. reflexivity.
    + cbn [concat map fst]. rewrite map_app, E1. reflexivity.
    + cbn [concat map snd]. rewrite concat_map_app, concat_empty_cons, E2. reflexivity.
Qed.

Lemma head_is_text : forall c, file_header (match c with Some cm => cm_text cm | None => "" end) ++ NL = head_text c.
Proof.
  intros c. unfold file_header, head_text. rewrite <- !string_app_assoc. do 3 f_equal.
  destruct c as [c|]; [|reflexivity]. destruct (String.eqb (cm_text c) ""); reflexivity.
Qed.

Lemma includes_text : forall inc m, concat_map_str (fun i => render_include i ++ NL) (initial_includes inc m)
  = imports_comment_text (mod_comment_import m) ++ String.concat "" (map (fun it => include_text (inc (imp_module it))) (mod_imports m)).
Proof.
  intros inc m. unfold initial_includes. rewrite concat_map_app. f_equal.
  - destruct (mod_comment_import m) as [c|]; reflexivity.
  - unfold concat_map_str. rewrite map_map. f_equal. apply map_ext. intros it. cbn [render_include]. unfold quoted_include, include_text.
    rewrite <- !string_app_assoc. reflexivity.
Qed.

(** How order and texts are found. *)
Definition printed_of (fuel : nat) (bm : bmodule) (c : cdata) (order : list definition) (std : string) (texts : list string) : Prop :=
  (exists sorted, sorted_definitions fuel (bm_mod bm) = Ok sorted /\ Forall2 same_definition order sorted)
  /\ std = (if cd_stdint c then "#include <stdint.h>" ++ NL else "")
  /\ String.concat "" texts = concat_map_str (fun d => render_decl d ++ NL ++ NL) (cd_data c).

Lemma rendered_text : forall cmd names input m fn inc note wch fuel b bm c h,
  config_command names cmd -> config names input b -> In bm (b_modules b) -> generated fuel b bm c ->
  same_module m (bm_mod bm) -> guard_symbol fn = header_guard cmd (mod_name m) ->
  (forall n k c, wch n k = Ok c -> cd_includes c = []) -> (forall n k c, wch n k = Ok c -> cd_data c = []) ->
  (forall n k c, wch n k = Ok c -> cd_stdbool c = false) ->
  (forall n t, note n t = match cmd with GenerateCfs _ => cfs_note b n t | GenerateC _ => c_note n t | _ => bin_note n t end) ->
  (forall n, inc n = included_file cmd n) ->
  module_cdata fuel b bm inc note wch = Ok c -> is_msgids h = false ->
  (forall sorted, sorted_definitions fuel (bm_mod bm) = Ok sorted ->
    (if is_stored_data h then
       if is_nil (cd_predefs c) then "" else concat_map_str (fun p => p ++ NL) (cd_predefs c) ++ NL
     else "") = variables_text (variables_said cmd sorted)) ->
  exists order pieces std notes,
    render_header c fn h = header_text cmd m order std notes (map snd pieces)
    /\ Permutation order (mod_defs m)
    /\ (forall i d k n, nth_error order i = Some d -> In k (members_of d) -> element (m_type k) = TName n ->
         (exists j d', (j < i)%nat /\ nth_error order j = Some d' /\ def_name d' = n)
         \/ exists it, In it (mod_imports m) /\ In n (imp_names it))
    /\ Forall2 (note_printed cmd input) order notes
    /\ Forall2 (fun d p => definition_printed (definitions input) d (fst p) (snd p)) order pieces
    /\ ((std = "#include <stdint.h>" ++ NL /\ exists x, In x (concat (map fst pieces)) /\ uses_stdint x)
        \/ (std = "" /\ ~ exists x, In x (concat (map fst pieces)) /\ uses_stdint x))
    /\ printed_of fuel bm c order std (map snd pieces).
Proof.
  intros cmd names input m fn inc note wch fuel b bm c h HC C Hbm G S Ef Hwi Hwd Hwb Hn HI Hc Hh P.
  assert (Hb := module_bool _ _ _ _ _ _ _ Hwb Hc). assert (Hm := module_header_comment _ _ _ _ _ _ _ Hwi Hc).
  destruct (module_collects _ _ _ _ _ _ _ Hwi Hc) as (sorted & css & iss & Hso & _ & _ & _ & _ & N & Ei & _).
  destruct (module_cdata_data _ _ _ _ _ _ _ Hwd Hc) as (sorted' & dss & Hso' & Ed & F).
  rewrite Hso in Hso'. injection Hso' as <-.
  assert (PS := sorted_perm _ _ _ Hso).
  destruct (order_of_input m (bm_mod bm) sorted S PS) as (order & Po & Fo).
  destruct (Forall2_notes cmd names input b bm fuel sorted note C Hbm Hso Hn HC order sorted iss Fo (incl_refl _) N) as (ns & Fn & En).
  destruct (Forall2_decls names input b bm fuel sorted C Hbm Hso order sorted dss Fo (incl_refl _) F) as (ps & Fp & E1 & E2).
  exists order, ps, (if cd_stdint c then "#include <stdint.h>" ++ NL else ""), ns.
  assert (V : variables_said cmd sorted = variables_said cmd order).
  { assert (X : flat_map def_clauses sorted = flat_map def_clauses order).
    { clear - Fo. induction Fo as [|d d' l l' Hd Fo IH]; simpl; [reflexivity|]. rewrite (same_clauses _ _ Hd), IH. reflexivity. }
    unfold variables_said. rewrite X. reflexivity. }
  destruct S as (Sn & (Sc & Sci) & Sim & Sd).
  split; [|split; [exact Po|split; [|split; [exact Fn|split; [exact Fp|split; [|split; [exists sorted; split; assumption|split; [reflexivity|rewrite Ed; symmetry; exact E2]]]]]]]].
  - unfold render_header, header_text, guard_open, guard_close. rewrite Hh, Hb, (P _ Hso), V, Ef, Ei, concat_map_app, En, includes_text.
    rewrite Ed, E2, <- head_is_text, Hm, Sc, Sci, Sim.
    assert (Q : map (fun it => include_text (inc (imp_module it))) (mod_imports m)
                = map (fun it => include_text (included_file cmd (imp_module it))) (mod_imports m)).
    { apply map_ext. intros it. rewrite HI. reflexivity. }
    rewrite Q. rewrite <- !string_app_assoc. reflexivity.
  - intros i d k n Hi Hk He.
    assert (L : forall i d, nth_error order i = Some d -> exists d', nth_error sorted i = Some d' /\ same_definition d d').
    { clear - Fo. induction Fo as [|a a' l l' Hd Fo IH]; intros i d Hi; destruct i; simpl in *; try discriminate.
      - injection Hi as <-. eauto.
      - apply IH. exact Hi. }
    assert (L' : forall i d, nth_error sorted i = Some d -> exists d', nth_error order i = Some d' /\ same_definition d' d).
    { clear - Fo. induction Fo as [|a a' l l' Hd Fo IH]; intros i d Hi; destruct i; simpl in *; try discriminate.
      - injection Hi as <-. eauto.
      - apply IH. exact Hi. }
    destruct (L _ _ Hi) as (d1 & Hi1 & S1). rewrite <- (same_definition_members _ _ S1) in Hk.
    destruct (use_cases names input b bm fuel sorted i d1 k n C Hbm Hso Hi1 Hk He) as [(j & d' & Lj & Hj & Enm)|(it & im & Hit & _ & _ & Hnm & _)].
    + left. destruct (L' _ _ Hj) as (d2 & Hj2 & S2). exists j, d2. split; [exact Lj|]. split; [exact Hj2|].
      rewrite <- (same_definition_name _ _ S2). exact Enm.
    + right. exists it. split; [|exact Hnm]. rewrite <- Sim. exact Hit.
  - rewrite <- E1, <- Ed. assert (U := std_used names input b bm C Hbm fuel c G). destruct (cd_stdint c).
    + left. split; [reflexivity|]. apply U. reflexivity.
    + right. split; [reflexivity|]. intros X. apply U in X. discriminate.
Qed.

Lemma variables_are_text : forall vs : list (string * string),
  (if is_nil (map (fun x => fst x ++ " " ++ snd x ++ ";") vs) then ""
   else concat_map_str (fun p => p ++ NL) (map (fun x => fst x ++ " " ++ snd x ++ ";") vs) ++ NL)
  = variables_text (map (fun x => XVar (fst x) (snd x)) vs).
Proof.
  intros vs. assert (Q : concat_map_str (fun p => p ++ NL) (map (fun x : string * string => fst x ++ " " ++ snd x ++ ";") vs)
    = String.concat "" (map (fun x => match x with XVar t v => t ++ " " ++ v ++ ";" ++ NL | _ => "" end) (map (fun x => XVar (fst x) (snd x)) vs))).
  { unfold concat_map_str. rewrite !map_map. f_equal. apply map_ext. intros x. rewrite <- !string_app_assoc. reflexivity. }
  rewrite Q. destruct vs; reflexivity.
Qed.

Lemma header_printed_of : forall names cmd fuel input fs fs' m, config_command names cmd ->
  Forall (fun m => grammatical m = true) input -> run fuel cmd input fs = (fs', Ok tt) -> In m input ->
  exists b bm c order pieces std notes, config names input b /\ In bm (b_modules b) /\ same_module m (bm_mod bm) /\ generated fuel b bm c /\
    folder_get fs' (header_name cmd (mod_name m)) = Some (header_text cmd m order std notes (map snd pieces))
    /\ Permutation order (mod_defs m)
    /\ (forall i d k n, nth_error order i = Some d -> In k (members_of d) -> element (m_type k) = TName n ->
         (exists j d', (j < i)%nat /\ nth_error order j = Some d' /\ def_name d' = n)
         \/ exists it, In it (mod_imports m) /\ In n (imp_names it))
    /\ Forall2 (note_printed cmd input) order notes
    /\ Forall2 (fun d p => definition_printed (definitions input) d (fst p) (snd p)) order pieces
    /\ ((std = "#include <stdint.h>" ++ NL /\ exists x, In x (concat (map fst pieces)) /\ uses_stdint x)
        \/ (std = "" /\ ~ exists x, In x (concat (map fst pieces)) /\ uses_stdint x))
    /\ printed_of fuel bm c order std (map snd pieces).
Proof.
  intros names cmd fuel input fs fs' m HC Hg H Hm.
  destruct (run_input_written names cmd fuel input fs fs' m HC Hg H Hm) as (b & bm & fl & C & Hbm & S & Hfl & R).
  assert (G : grammatical m = true) by (rewrite Forall_forall in Hg; apply Hg, Hm).
  assert (GN : is_name_lower (mod_name m) = true) by (unfold grammatical in G; repeat (apply andb_prop in G; destruct G as [G ?]); exact G).
  assert (Sn : bm_name bm = mod_name m) by apply S.
  assert (HC' := HC).
  destruct HC as [->|[->|(e & ->)]]; cbn [module_files] in Hfl; apply bind_ok in Hfl; destruct Hfl as (c & Hc & E).
  - destruct (rendered_text (GenerateCfs names) names input m (msg_filename (bm_name bm) ++ ".h") (fun n => msg_filename n ++ ".h") (cfs_note b)
      cfs_with_components fuel b bm c MSG HC' C Hbm (or_introl Hc) S) as (order & ps & std & ns & E' & X); try reflexivity; try assumption.
    + unfold msg_filename. rewrite ?Sn, <- ?string_app_assoc. unfold header_guard. apply guard_text; [exact GN|reflexivity].
    + exact cfs_wch_includes.
    + exact cfs_wch_data.
    + exact cfs_wch_bool.
    + intros n. unfold msg_filename. rewrite <- string_app_assoc. reflexivity.
    + exists b, bm, c, order, ps, std, ns. split; [exact C|]. split; [exact Hbm|]. split; [exact S|]. split; [left; exact Hc|]. split; [|exact X]. rewrite <- E'. apply R. injection E as <-. left. unfold msg_filename. rewrite Sn.
      cbn [header_name]. rewrite <- string_app_assoc. reflexivity.
  - destruct (rendered_text (GenerateC names) names input m (c_filename (bm_name bm) ++ ".h") c_filename c_note
      (c_with_components (bm_name bm)) fuel b bm c STORED_DATA HC' C Hbm (or_intror (or_introl Hc)) S) as (order & ps & std & ns & E' & X); try reflexivity; try assumption.
    + unfold c_filename. rewrite ?Sn. unfold header_guard. apply guard_text; [exact GN|reflexivity].
    + apply c_wch_includes.
    + apply c_wch_data.
    + apply c_wch_bool.
    + intros sorted Hso. unfold c_cdata in Hc. destruct (module_collects _ _ _ _ _ _ _ (c_wch_includes _) Hc) as (sorted' & css & _ & Hso' & Hh & _ & _ & Ep & _).
      rewrite Hso in Hso'. injection Hso' as <-.
      assert (EV : cd_predefs c = map (fun x => fst x ++ " " ++ snd x ++ ";") (clause_vars (GenerateC names) sorted)).
      { rewrite Ep. clear - Hh. cbn [clause_vars]. induction Hh as [|d cs l css H F IH]; [reflexivity|]. simpl.
        rewrite flat_map_app, map_app, map_app, IH. f_equal. clear - H. unfold handled in H.
        destruct d as [n c l| | |]; simpl in *; try (inversion H; reflexivity).
        revert cs H. induction l as [|k l IH]; intros cs H; simpl in *; [inversion H; reflexivity|].
        unfold has_clause at 1 in H. destruct (m_with k) as [w|] eqn:E; [|apply IH; exact H].
        inversion H as [|? x ? q Hx F]; subst. simpl. unfold c_with_components in Hx. rewrite E in Hx. injection Hx as <-.
        simpl. f_equal. apply IH. exact F. }
      cbn [is_stored_data]. rewrite EV.
      assert (VE : variables_said (GenerateC names) sorted = map (fun x => XVar (fst x) (snd x)) (clause_vars (GenerateC names) sorted)).
      { unfold clause_vars, variables_said. rewrite map_map. reflexivity. }
      rewrite VE. apply variables_are_text.
    + exists b, bm, c, order, ps, std, ns. split; [exact C|]. split; [exact Hbm|]. split; [exact S|]. split; [right; left; exact Hc|]. split; [|exact X]. rewrite <- E'. apply R. injection E as <-. left. unfold c_filename. rewrite Sn. reflexivity.
  - destruct (rendered_text (GenerateBinary names e) names input m (bin_filename (bm_name bm) ++ ".h") bin_filename bin_note
      (bin_with_components fuel e (all_defs b) (bm_mod bm)) fuel b bm c STORED_DATA_BINARY HC' C Hbm (or_intror (or_intror (ex_intro _ e Hc))) S) as (order & ps & std & ns & E' & X); try reflexivity; try assumption.
    + unfold bin_filename. rewrite ?Sn. unfold header_guard. apply guard_text; [exact GN|reflexivity].
    + apply bin_wch_includes.
    + apply bin_wch_data.
    + apply bin_wch_bool.
    + exists b, bm, c, order, ps, std, ns. split; [exact C|]. split; [exact Hbm|]. split; [exact S|]. split; [right; right; exists e; exact Hc|]. split; [|exact X]. rewrite <- E'. apply R. injection E as <-. left. unfold bin_filename. rewrite Sn. reflexivity.
Qed.

Lemma header_printed : forall names cmd fuel input fs fs' m, config_command names cmd ->
  Forall (fun m => grammatical m = true) input -> run fuel cmd input fs = (fs', Ok tt) -> In m input ->
  exists order pieces std notes,
    folder_get fs' (header_name cmd (mod_name m)) = Some (header_text cmd m order std notes (map snd pieces))
    /\ Permutation order (mod_defs m)
    /\ (forall i d k n, nth_error order i = Some d -> In k (members_of d) -> element (m_type k) = TName n ->
         (exists j d', (j < i)%nat /\ nth_error order j = Some d' /\ def_name d' = n)
         \/ exists it, In it (mod_imports m) /\ In n (imp_names it))
    /\ Forall2 (note_printed cmd input) order notes
    /\ Forall2 (fun d p => definition_printed (definitions input) d (fst p) (snd p)) order pieces
    /\ ((std = "#include <stdint.h>" ++ NL /\ exists x, In x (concat (map fst pieces)) /\ uses_stdint x)
        \/ (std = "" /\ ~ exists x, In x (concat (map fst pieces)) /\ uses_stdint x)).
Proof.
  intros names cmd fuel input fs fs' m HC Hg H Hm.
  destruct (header_printed_of names cmd fuel input fs fs' m HC Hg H Hm) as (b & bm & c & order & ps & std & ns & _ & _ & _ & _ & E & P & U & N & D & S & _).
  exists order, ps, std, ns. auto 10.
Qed.

Lemma printed_said : forall ds d xs t, definition_printed ds d xs t -> definition_said ds d xs.
Proof. intros ds d xs t H. destruct H; constructor; assumption. Qed.

Definition part_of (s t : string) : Prop := exists a z, t = a ++ s ++ z.
Lemma part_concat : forall s l, In s l -> part_of s (String.concat "" l).
Proof.
  intros s l H. apply in_split in H. destruct H as (a & z & ->). exists (String.concat "" a), (String.concat "" z).
  rewrite concat_empty_app, concat_empty_cons. reflexivity.
Qed.
Lemma part_trans : forall a b c, part_of a b -> part_of b c -> part_of a c.
Proof. intros a b c (x & y & ->) (u & v & ->). exists (u ++ x), (y ++ v). rewrite <- !string_app_assoc. reflexivity. Qed.
Lemma part_app_l : forall s t a, part_of s t -> part_of s (a ++ t).
Proof. intros s t a (x & y & ->). exists (a ++ x), y. rewrite <- !string_app_assoc. reflexivity. Qed.
Lemma part_app_r : forall s t a, part_of s t -> part_of s (t ++ a).
Proof. intros s t a (x & y & ->). exists x, (y ++ a). rewrite <- !string_app_assoc. reflexivity. Qed.
Lemma part_refl : forall s, part_of s s.
Proof. intros s. exists "", "". rewrite string_app_nil. reflexivity. Qed.

Lemma field_ends : forall k f, exists t, field_text k f = t ++ NL.
Proof. intros k f. unfold field_text. eexists. rewrite !string_app_assoc. reflexivity. Qed.

Lemma fields_part : forall k ks fs ds before, In k ks -> Forall2 (member_said ds) ks fs ->
  exists f, member_said ds k f /\ part_of (NL ++ field_text k f) ((before ++ NL) ++ fields_text ks fs).
Proof.
  intros k ks fs ds before H F. revert before. induction F as [|k0 f0 ks fs M F IH]; intros before; [destruct H|].
  cbn [fields_text]. destruct H as [->|H].
  - exists f0. split; [exact M|]. rewrite <- string_app_assoc. apply part_app_l. rewrite string_app_assoc. apply part_app_r, part_refl.
  - destruct (field_ends k0 f0) as (t & E). destruct (IH H (before ++ NL ++ t)) as (f & Mf & P). exists f. split; [exact Mf|].
    rewrite E. rewrite <- !string_app_assoc in *. exact P.
Qed.

Lemma texts_part : forall cmd m order std notes texts t, In t texts -> part_of t (header_text cmd m order std notes texts).
Proof.
  intros cmd m order std notes texts t H. unfold header_text. do 13 apply part_app_l.
  apply part_app_r. apply part_concat, H.
Qed.

Lemma member_comments : forall names cmd fuel input fs fs' m n c l k cm,
  config_command names cmd -> Forall (fun m => grammatical m = true) input ->
  run fuel cmd input fs = (fs', Ok tt) -> In m input ->
  In (DSequence n c l) (mod_defs m) -> In k l -> m_comment k = Some cm ->
  exists a ty z, folder_get fs' (header_name cmd (mod_name m))
    = Some (a ++ NL ++ "  " ++ rstrip ("// " ++ (if String.eqb (cm_unit cm) "" then "" else "[" ++ cm_unit cm ++ "] ") ++ cm_text cm) ++ NL
            ++ "  " ++ ty ++ " " ++ c_name (m_key k) ++ z).
Proof.
  intros names cmd fuel input fs fs' m n c l k cm HC Hg H Hm Hd Hk Ec.
  destruct (header_printed names cmd fuel input fs fs' m HC Hg H Hm) as (order & ps & std & ns & E & P & _ & _ & F & _).
  apply (Permutation_in _ (Permutation_sym P)) in Hd.
  assert (X : exists p, In p ps /\ definition_printed (definitions input) (DSequence n c l) (fst p) (snd p)).
  { clear - F Hd. induction F as [|d p ds ps H F IH]; [destruct Hd|]. destruct Hd as [->|Hd].
    - exists p. split; [left; reflexivity|exact H].
    - destruct (IH Hd) as (q & Hq & Q). exists q. split; [right; exact Hq|exact Q]. }
  destruct X as ([xs t] & Hp & D). cbn [fst snd] in D.
  assert (T : part_of t (header_text cmd m order std ns (map snd ps))).
  { apply texts_part. apply in_map_iff. exists (xs, t). split; [reflexivity|exact Hp]. }
  inversion D as [? ? ? fs0 FM| | |]; subst.
  destruct (fields_part k l fs0 _ (definition_comment_text c ++ "typedef struct" ++ NL ++ "{") Hk FM) as (f & Mf & Pf).
  assert (T' : part_of (NL ++ field_text k f) (header_text cmd m order std ns (map snd ps))).
  { eapply part_trans; [|exact T]. rewrite <- !string_app_assoc in Pf.
    eapply part_trans; [exact Pf|]. exists "", ("} __attribute__((packed)) " ++ c_name n ++ ";" ++ NL ++ NL). rewrite <- !string_app_assoc. reflexivity. }
  destruct T' as (a & z & T'). rewrite E. rewrite T'. destruct Mf as (Mn & _).
  exists a, (String.concat " " (x_type f)). eexists. f_equal. unfold field_text, remark_before, remark. rewrite Ec, Mn, <- !string_app_assoc. reflexivity.
Qed.

(** ** The header of message IDs *)
Lemma msgids_text : forall names fuel input fs fs' m,
  Forall (fun m => grammatical m = true) input -> run fuel (GenerateCfs names) input fs = (fs', Ok tt) -> In m input ->
  exists order ds g, Permutation order (mod_defs m)
    /\ Forall2 (fun ne d => defines (fst ne) (snd ne) d) (flat_map def_entries order) ds
    /\ g = "ASN1_PARSER_" ++ upper (c_name (mod_name m)) ++ "_MSGIDS_H_INCLUDED"
    /\ folder_get fs' (c_name (mod_name m) ++ "_msgids.h") =
       Some ("#ifndef " ++ g ++ NL ++ "#define " ++ g ++ NL ++ NL
             ++ "/*" ++ NL ++ "This file was autogenerated from ASN.1 model." ++ NL ++ "*/" ++ NL ++ NL
             ++ String.concat "" (map define_line ds) ++ (match ds with [] => "" | _ => NL end)
             ++ "#endif // " ++ g ++ NL).
Proof.
  intros names fuel input fs fs' m Hg H Hm.
  destruct (msgids_written names fuel input fs fs' m Hg H Hm) as (order & ds & g & P & F & E & G).
  exists order, ds, g. split; [exact P|]. split; [exact F|]. split; [|exact E].
  assert (Gm : grammatical m = true) by (rewrite Forall_forall in Hg; apply Hg, Hm).
  assert (GN : is_name_lower (mod_name m) = true) by (unfold grammatical in Gm; repeat (apply andb_prop in Gm; destruct Gm as [Gm ?]); exact Gm).
  rewrite G. unfold msgids_filename. rewrite <- string_app_assoc. exact (guard_text (mod_name m) "_msgids.h" "_MSGIDS_H" GN eq_refl).
Qed.
