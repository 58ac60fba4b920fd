(** * Proofs: the source file of one module *)
From Coq Require Import Permutation DecimalString DecimalZ DecimalFacts.
From Verif Require Import Base PyNum PyStr Ast Processor Bundle Sorter CCommon GenC Main Spec_Grammar Spec_Text
  Spec_Gen Spec_C Lib_proofs Str_proofs Name_proofs Check_proofs Field_proofs Gen_proofs Cdata_proofs Text_proofs
  Files_proofs Run_proofs Spec_Bundle Bundle_proofs Accept_proofs Disk_proofs Cfs_proofs Float_proofs C_proofs .
Open Scope string_scope.
Open Scope list_scope.

(** Module [m] was converted and its files are in [fs']. *)
Definition written (names : list string) (cmd : command) (fuel : nat) (input : list module) (fs' : folder) (m : module) : Prop :=
  exists b bm fl, config names input b /\ In bm (b_modules b) /\ same_module m (bm_mod bm)
    /\ module_files fuel cmd b bm = Ok fl
    /\ forall n s, In (n, s) fl -> folder_get fs' n = Some s.

(** As [source_written_of], for one module of a run that may fail later. *)
Lemma one_source_written : forall names fuel input fs' m,
  Forall (fun m => grammatical m = true) input -> written names (GenerateC names) fuel input fs' m -> In m input ->
  exists b bm sorted order include texts, config names input b /\ In bm (b_modules b) /\ same_module m (bm_mod bm)
    /\ sorted_definitions fuel (bm_mod bm) = Ok sorted /\ Forall2 same_definition order sorted
    /\ Permutation order (mod_defs m)
    /\ Forall2 initialises (flat_map def_clauses order) texts
    /\ (ends_with_clause order -> include = ("#include """ ++ c_name (mod_name m) ++ ".h""" ++ NL ++ NL)%string)
    /\ (~ ends_with_clause order -> include = "")
    /\ folder_get fs' (c_name (mod_name m) ++ ".c")
       = Some (source_head m ++ include ++ String.concat "" texts)%string.
Proof.
  intros names fuel input fs' m Hg H Hm.
  destruct H as (b & bm & fl & C & Hbm & S & Hfl & R).
  cbn [module_files] in Hfl. apply bind_ok in Hfl. destruct Hfl as (c & Hc & E). injection E as <-.
  unfold c_cdata in Hc. assert (Hh := module_header_comment _ _ _ _ _ _ _ (c_wch_includes _) Hc).
  destruct (module_collects _ _ _ _ _ _ _ (c_wch_includes _) Hc) as (sorted & css & iss & Hs & F & _ & Ei & _ & _ & _ & El & _).
  assert (P := sorted_perm _ _ _ Hs). destruct (order_of_input _ _ _ S P) as (order & P' & F').
  rewrite (c_last_include _ _ _ _ F) in El.
  exists b, bm, sorted, order, (if String.eqb (cd_init_include c) "" then "" else cd_init_include c ++ NL ++ NL)%string, (cd_inits c).
  split; [exact C|]. split; [exact Hbm|]. split; [exact S|]. split; [exact Hs|]. split; [exact F'|].
  split; [exact P'|]. destruct S as (Sn & Sc & _). split; [|split; [|split]].
  - assert (E : flat_map def_clauses sorted = flat_map def_clauses order).
    { clear - F'. induction F' as [|d d' l l' H F IH]; [reflexivity|]. simpl. rewrite IH, (same_clauses _ _ H). reflexivity. }
    assert (I : cd_inits c = map (fun x => let '(n, k, w) := x in init_start (c_name n) k w) (flat_map def_clauses order)).
    { rewrite Ei, <- E. clear - F. induction F as [|d cs l css H F IH]; [reflexivity|]. simpl.
      rewrite flat_map_app, map_app, IH, (c_definition_inits _ _ _ H). reflexivity. }
    rewrite I. assert (O : Forall (fun x => is_name_lower (snd (fst x)) = true /\ wcomps_ok (snd x) = true) (flat_map def_clauses order)).
    { rewrite Forall_forall in *. intros x Hx. apply in_flat_map in Hx. destruct Hx as (d & Hd & Hx).
      eapply clause_ok; [|exact Hx]. assert (G := grammatical_defs m (Hg m Hm)). rewrite Forall_forall in G. apply G.
      apply (Permutation_in _ P'). exact Hd. }
    clear - O. induction O as [|[[n k] w] l (Hk & Hw) _ IH]; [constructor|]. cbn [map]. constructor; [|exact IH].
    apply init_start_spec; assumption.
  - intros En. apply (same_ends _ _ F') in En.
    destruct (include_after_iff (quoted_include (c_filename (bm_name bm) ++ ".h")) sorted "") as (I & _); [discriminate|].
    rewrite El, (I En). unfold bm_name. rewrite Sn. unfold quoted_include, c_filename. rewrite <- !string_app_assoc. reflexivity.
  - intros En. rewrite (same_ends _ _ F') in En.
    destruct (include_after_iff (quoted_include (c_filename (bm_name bm) ++ ".h")) sorted "") as (_ & I); [discriminate|].
    rewrite El, (I En). destruct (forallb is_simple sorted); reflexivity.
  - rewrite <- Sn. rewrite (R _ (render_source c)).
    + unfold render_source, source_head, file_header. rewrite Hh, (proj1 Sc). rewrite <- !string_app_assoc.
      destruct (mod_comment m) as [cm|]; [|reflexivity]. destruct (String.eqb (cm_text cm) ""); reflexivity.
    + right. left. reflexivity.
Qed.


