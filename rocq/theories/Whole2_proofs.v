(** * Proofs: from input files to telemetry files (C87) *)
From Verif Require Import Base PyNum PyStr Ast Bundle GenCosmos Main Source Spec_Grammar Spec_Source Spec_Gen Spec_Check Spec_Bundle
  Source_proofs Cli Spec_Cli Tree Spec_Tree Tree3_proofs Spec_Cosmos Cosmos_proofs Spec_Telemetry Telemetry_proofs
  Spec_History Spec_Reread Reread_proofs.
From Coq Require Import Permutation.
From Verif Require Spec_Header Spec_Printed Printed_proofs Whole_proofs.
Open Scope string_scope.
Open Scope list_scope.

Lemma readable_dec : forall t cwd ps, (exists ms, Forall2 (path_spells t cwd) ps ms) \/ ~ exists ms, Forall2 (path_spells t cwd) ps ms.
Proof.
  intros t cwd ps. destruct (read_inputs t cwd ps) as [ts|x] eqn:R.
  - destruct (map_result read_text ts) as [ms|e|] eqn:T.
    + left. exists ms. apply paths_modules. eauto.
    + right. intros (ms & H). apply paths_modules in H as (ts' & R' & T'). congruence.
    + right. intros (ms & H). apply paths_modules in H as (ts' & R' & T'). congruence.
  - right. intros (ms & H). apply paths_modules in H as (ts' & R' & T'). congruence.
Qed.

(** cosmos: with packets already in the file. *)
Lemma cosmos_on : forall fuel mn msgs out ms text old, run fuel (GenerateCosmos mn msgs out) ms [] = ([((out ++ ".txt")%string, text)], Ok tt) ->
  run fuel (GenerateCosmos mn msgs out) ms [((out ++ ".txt")%string, old)] = ([((out ++ ".txt")%string, (old ++ text)%string)], Ok tt).
Proof.
  intros fuel mn msgs out ms text old H. cbn [run] in *. destruct (build_from_cosmos_config ms) as [b|e|]; try discriminate. cbn [with_bundle] in *.
  unfold generate_cosmos in *. destruct (cosmos_packets fuel b mn msgs) as [l|e|]; try discriminate. cbn [bind] in *.
  injection H as <-. unfold folder_append. cbn. rewrite !String.eqb_refl. reflexivity.
Qed.

(** A finished cosmos run appended what [run] appends. *)
Lemma finished_appends : forall fuel cwd words t t' paths mn msgs out dir q vs e n, command_line words (ArgsCosmos paths mn msgs out) dir ->
  is_folder t cwd -> (if startswith "/" out then q = (out ++ ".txt")%string else in_folder dir (out ++ ".txt") q) -> leads_in cwd q vs e n ->
  start_in fuel cwd words t = (t', Some Finished) ->
  exists inp old text, Forall2 (path_spells t cwd) paths inp /\ Forall (fun m => grammatical m = true) inp
    /\ run fuel (GenerateCosmos mn (split_commas msgs) out) inp [((out ++ ".txt")%string, old)] = ([((out ++ ".txt")%string, text)], Ok tt)
    /\ file_at t' (e ++ [n]) text
    /\ forall old', (file_at t (e ++ [n]) old' \/ old' = "" /\ ~ is_file t (e ++ [n])) -> old' = old.
Proof.
  intros fuel cwd words t t' paths mn msgs out dir q vs e n L W Hq Ld S.
  assert (Sp : exists inp, Forall2 (path_spells t cwd) paths inp).
  { destruct (readable_dec t cwd paths) as [H|H]; [exact H|]. exfalso.
    destruct (tree_unreadable fuel cwd words t _ _ L H) as (x & S' & X). rewrite S in S'. injection S' as _ <-.
    destruct X as [(y & X)|[X|(y & X)]]; discriminate. }
  destruct Sp as (inp & Sp). assert (G := paths_grammatical _ _ _ _ Sp).
  destruct (tree_cosmos fuel cwd words t paths mn msgs out dir inp q vs e n L W Sp Hq Ld) as [(r & x & _ & Nr & Sh & S')|(text & t2 & x & R & S' & K1 & K2)].
  { rewrite S in S'. injection S' as _ <-. destruct r as [[]|y|]; [congruence|discriminate Sh..]. }
  rewrite S in S'. injection S' as <- <-.
  assert (Nf : forall v, In v vs -> ~ is_file t v).
  { intros v V F. destruct (K1 (ex_intro _ v (conj V F))) as ((y & Y) & _). discriminate. }
  destruct (K2 Nf) as (_ & _ & K3 & K4).
  assert (Nt : ~ taken t vs e n). { intros T. destruct (K3 T) as (y & Y). discriminate. }
  destruct (K4 Nt) as (_ & old & Old & At).
  exists inp, old, (old ++ text)%string. split; [exact Sp|]. split; [exact G|]. split; [exact (cosmos_on _ _ _ _ _ _ old R)|]. split; [exact At|].
  intros old' Old'. destruct Old as [Old|(-> & Old)], Old' as [Old'|(-> & Old')].
  - unfold file_at in *. congruence.
  - destruct Old'. exists old. exact Old.
  - destruct Old. exists old'. exact Old'.
  - reflexivity.
Qed.

Theorem whole_telemetry : forall fuel cwd words t t' paths mn msgs out dir q vs e n, command_line words (ArgsCosmos paths mn msgs out) dir ->
  is_folder t cwd -> (if startswith "/" out then q = (out ++ ".txt")%string else in_folder dir (out ++ ".txt") q) -> leads_in cwd q vs e n ->
  Spec_Cosmos.word out -> start_in fuel cwd words t = (t', Some Finished) ->
  exists inp ms, Forall2 (path_spells t cwd) paths inp /\ Forall2 same_module inp ms
    /\ forall i m, first_named ms i m -> mod_name m = mn ->
       one_clause_each ms i m (split_commas msgs) -> quiet_messages ms i m (split_commas msgs) ->
       exists ps, Forall2 (packet_of ms i m out) (split_commas msgs) ps
         /\ forall old before, (file_at t (e ++ [n]) old \/ old = "" /\ ~ is_file t (e ++ [n])) -> ended old -> read_telemetry old = Some before ->
            exists text, file_at t' (e ++ [n]) text /\ ended text /\ read_telemetry text = Some (before ++ ps).
Proof.
  intros fuel cwd words t t' paths mn msgs out dir q vs e n L W Hq Ld Wo S.
  destruct (finished_appends _ _ _ _ _ _ _ _ _ _ _ _ _ _ L W Hq Ld S) as (inp & old & text & Sp & G & R & At & Old).
  destruct (run_reads fuel mn (split_commas msgs) out inp _ _ G Wo R) as (ms & Sm & All).
  exists inp, ms. split; [exact Sp|]. split; [exact Sm|]. intros i m Fm Nm Oc Qm. destruct (All i m Fm Nm Oc Qm) as (ps & Pk & Rd).
  exists ps. split; [exact Pk|]. intros old' before Old' En Rb. rewrite (Old _ Old') in *.
  destruct (Rd old before) as (text' & T & En' & Rt); [|exact En|exact Rb|].
  - cbn [folder_get]. rewrite String.eqb_refl. reflexivity.
  - cbn [folder_get] in T. rewrite String.eqb_refl in T. injection T as <-. exists text. auto.
Qed.

(** Whatever the clauses say (C89). *)
Theorem whole_telemetry_given : forall fuel cwd words t t' paths mn msgs out dir q vs e n, command_line words (ArgsCosmos paths mn msgs out) dir ->
  is_folder t cwd -> (if startswith "/" out then q = (out ++ ".txt")%string else in_folder dir (out ++ ".txt") q) -> leads_in cwd q vs e n ->
  Spec_Cosmos.word out -> start_in fuel cwd words t = (t', Some Finished) ->
  exists inp ms, Forall2 (path_spells t cwd) paths inp /\ Forall2 same_module inp ms
    /\ forall i m, first_named ms i m -> mod_name m = mn ->
       exists oss hs, messages_occur ms i m 0 (split_commas msgs) oss /\ handed_on (concat oss) hs
       /\ (readable m (split_commas msgs) hs (concat oss) ->
          exists ps, packets_given m out hs (split_commas msgs) oss ps
          /\ forall old before, (file_at t (e ++ [n]) old \/ old = "" /\ ~ is_file t (e ++ [n])) -> ended old -> read_telemetry old = Some before ->
             exists text, file_at t' (e ++ [n]) text /\ ended text /\ read_telemetry text = Some (before ++ ps)).
Proof.
  intros fuel cwd words t t' paths mn msgs out dir q vs e n L W Hq Ld Wo S.
  destruct (finished_appends _ _ _ _ _ _ _ _ _ _ _ _ _ _ L W Hq Ld S) as (inp & old & text & Sp & G & R & At & Old).
  destruct (run_rereads fuel mn (split_commas msgs) out inp _ _ G Wo R) as (ms & Sm & All).
  exists inp, ms. split; [exact Sp|]. split; [exact Sm|]. intros i m Fm Nm. destruct (All i m Fm Nm) as (oss & hs & Oc & Hh & Rd).
  exists oss, hs. split; [exact Oc|]. split; [exact Hh|]. intros Rb. destruct (Rd Rb) as (ps & Pk & Rd').
  exists ps. split; [exact Pk|]. intros old' before Old' En Rp. rewrite (Old _ Old') in *.
  destruct (Rd' old before) as (text' & T & En' & Rt); [|exact En|exact Rp|].
  - cbn [folder_get]. rewrite String.eqb_refl. reflexivity.
  - cbn [folder_get] in T. rewrite String.eqb_refl in T. injection T as <-. exists text. auto.
Qed.

(** Headers, whatever the comments contain (C95). *)
Theorem whole_header_text : forall fuel cwd words t t' a dir names vs e, command_line words a dir -> config_command names (command_of a) ->
  is_folder t cwd -> leads cwd dir vs e -> start_in fuel cwd words t = (t', Some Finished) ->
  exists ms, Forall2 (path_spells t cwd) (input_paths a) ms /\ forall m, In m ms ->
    exists order pieces std notes,
      file_at t' (e ++ [Spec_Header.header_name (command_of a) (mod_name m)])
        (Spec_Printed.header_text (command_of a) m order std notes (map snd pieces))
      /\ Permutation order (mod_defs m)
      /\ Forall2 (Spec_Printed.note_printed (command_of a) ms) order notes
      /\ Forall2 (fun d p => Spec_Printed.definition_printed (definitions ms) d (fst p) (snd p)) order pieces
      /\ ((std = ("#include <stdint.h>" ++ NL)%string /\ exists x, In x (concat (map fst pieces)) /\ Spec_Header.uses_stdint x)
          \/ (std = "" /\ ~ exists x, In x (concat (map fst pieces)) /\ Spec_Header.uses_stdint x)).
Proof.
  intros fuel cwd words t t' a dir names vs e L Hc W Ld S.
  destruct (Whole_proofs.finished _ _ _ _ _ _ _ _ _ _ L Hc W Ld S) as (ms & files & Sp & G & R & F).
  exists ms. split; [exact Sp|]. intros m M.
  destruct (Printed_proofs.header_printed names (command_of a) fuel ms [] files m Hc G R M) as (order & pieces & std & notes & T & P & _ & N & D & U).
  exists order, pieces, std, notes. split; [apply F; exact T|]. auto.
Qed.
