From Coq Require Import Lia.
(** * Property C61: what the cosmos command can process *)
From Verif Require Import Base PyNum Ast Size Bundle GenCosmos Main Spec_Enum Spec_Grammar Spec_Num Spec_Check
  Spec_Bundle Spec_Size Spec_Cosmos Spec_Cosmos_runs Cosmos_proofs Cosmos_text_proofs Cosmos_runs_proofs Accept_proofs Samples Props_Cosmos.
Open Scope string_scope.

(** The cosmos command succeeds exactly for processable input, if module names
    are distinct.  Missing: messages with an application process identifier
    for which two clauses give values (see C42). *)
Theorem C61_cosmos_succeeds_partial : forall mn msgs target input fs, Forall (fun m => grammatical m = true) input ->
  NoDup (map mod_name input) -> clear_apids mn msgs input ->
  (forall fuel fs', run fuel (GenerateCosmos mn msgs target) input fs = (fs', Ok tt) -> cosmos_processable mn msgs input)
  /\ (cosmos_processable mn msgs input -> exists F, forall fuel, (F <= fuel)%nat ->
        exists fs', run fuel (GenerateCosmos mn msgs target) input fs = (fs', Ok tt)).
Proof. exact cosmos_run_iff. Qed.
Print Assumptions C61_cosmos_succeeds_partial.

(** The hypotheses are met by the diamond of imports, which is processable, *)
Lemma diamond_same : Forall2 same_module diamond (all_modules diamond_bundle).
Proof. exact (proj1 (accepted_same _ _ (or_intror diamond_built))). Qed.

Lemma diamond_clear : forall mn, clear_apids mn ["Msg"] diamond.
Proof.
  intros mn i m Hm _. left. intros n cm l ls [<-|[]] Hd P.
  assert (i = 0%nat /\ l = diamond_msg) as (-> & ->).
  { destruct i as [|[|[|[|i]]]]; cbn in Hm; try (injection Hm as <-; cbn in Hd; intuition discriminate); [|destruct i; discriminate].
    injection Hm as <-. cbn in Hd. destruct Hd as [E|[]]. injection E as _ <-. auto. }
  destruct (leaves_move _ _ 0%nat (as_visible_l _ _ diamond_same 0) _ _ _ P) as (ls' & P' & F).
  assert (ls' = diamond_leaves) as -> by (eapply leaves_unique; [right; exact diamond_built|exact P'|exact diamond_packet]).
  eapply Forall_place_r; [exact place_one_clause|exact F|].
  generalize diamond_one_clause. apply Forall_impl. tauto.
Qed.

Example C61_sample : Forall (fun m => grammatical m = true) diamond /\ NoDup (map mod_name diamond)
  /\ clear_apids "top" ["Msg"] diamond /\ cosmos_processable "top" ["Msg"] diamond.
Proof.
  assert (N : NoDup (map mod_name diamond)) by (repeat constructor; cbn; intuition discriminate).
  split; [exact diamond_grammatical|]. split; [exact N|]. split; [apply diamond_clear|].
  destruct C41_text_sample as (fs & R & _). refine (proj1 (C61_cosmos_succeeds_partial _ _ _ _ _ diamond_grammatical N (diamond_clear _)) _ _ R).
Qed.

(** and of two modules that import from each other a message without type
    names can be generated, others can not. *)
Example C61_circle_sample : (exists fs, run 9 (GenerateCosmos "b" ["B"] "out") circle [] = (fs, Ok tt))
  /\ ~ cosmos_processable "b" ["D"] circle.
Proof.
  split; [eexists; vm_compute; reflexivity|]. intros [_ _ _ _ [(E & _)|(i & m & Hm & En & AC & _)]]; [discriminate|].
  assert (i = 1%nat) as ->.
  { destruct i as [|[|i]]; [cbn in Hm; injection Hm as <-; discriminate|reflexivity|destruct i; discriminate]. }
  injection Hm as <-.
  assert (L : looks_up (nth 1 circle (mkmodule "" None [] None [])) ["D"]).
  { exists "D", None, [mkmember "z" (TName "C") None None], (mkmember "z" (TName "C") None None), "C". cbn. auto. }
  apply (AC L 1%nat 0%nat); [apply reach_here|eapply imports_computed; vm_compute; reflexivity|].
  apply (reach_import _ 0 1 1)%nat; [eapply imports_computed; vm_compute; reflexivity|apply reach_here].
Qed.

(** Without the condition on clauses the claim is false: what a clause fixes in
    one message leaks into the next one, which is accepted although its
    application process identifier is not fixed. *)
Definition leak_apid : module :=
  mkmodule "m" None [] None
    [DSequence "First" None [mkmember "d" (TName "Detail") None
       (Some (WC None [WI "p" (VWith (WC None [WI apid (VInt 2) None])) None]))];
     DSequence "Second" None [mkmember "d" (TName "Detail") None None];
     DSequence "Detail" None [mkmember "p" (TName "Point") None (Some (WC None [WI "x" (VInt 1) None]))];
     DSequence "Point" None [mkmember "x" (TInteger (Some (0, 7))%Z) None None; mkmember apid (TInteger (Some (0, 7))%Z) None None]].

Theorem C61_leak_refuted : exists mn msgs target input fs, Forall (fun m => grammatical m = true) input
  /\ NoDup (map mod_name input) /\ run 9 (GenerateCosmos mn msgs target) input [] = (fs, Ok tt)
  /\ ~ cosmos_processable mn msgs input.
Proof.
  exists "m", ["First"; "Second"], "out", [leak_apid]. eexists.
  split; [repeat constructor; vm_compute; reflexivity|]. split; [repeat constructor; intros []|]. split; [vm_compute; reflexivity|].
  intros [_ _ _ _ [(E & _)|(i & m & Hm & _ & _ & M)]]; [discriminate|].
  assert (i = 0%nat) as -> by (destruct i as [|[|i]]; [reflexivity|discriminate|discriminate]). injection Hm as <-.
  destruct (M "Second") as (cm & l & ls & Hd & P & G); [right; left; reflexivity|].
  assert (B : exists bun, build_from_cosmos_config [leak_apid] = Ok bun /\ all_modules bun = [leak_apid])
    by (eexists; split; vm_compute; reflexivity).
  destruct B as (bun & B & EB). rewrite <- EB in P.
  set (pd := mkmember "d" (TName "Detail") None None). set (pp := mkmember "p" (TName "Point") None (Some (WC None [WI "x" (VInt 1) None]))).
  assert (l = [pd]) as -> by (cbn in Hd; destruct Hd as [X|[X|[X|[X|[]]]]]; try discriminate; injection X as _ <-; reflexivity).
  assert (Q : packet_leaves (all_modules bun) 0 [] [pd]
    [mkleaf [pd; pp] (mkmember "x" (TInteger (Some (0, 7))%Z) None None) (TInteger (Some (0, 7))%Z) A_UINT 3 [];
     mkleaf [pd; pp] (mkmember apid (TInteger (Some (0, 7))%Z) None None) (TInteger (Some (0, 7))%Z) A_UINT 3 []]).
  { rewrite EB.
    assert (V : forall d, In d (mod_defs leak_apid) -> visible [leak_apid] 0 d).
    { intros d H. exists 0%nat, leak_apid. split; [constructor|]. split; [reflexivity|exact H]. }
    assert (W : item_type [leak_apid] 0 (TInteger (Some (0, 7))%Z) (TInteger (Some (0, 7))%Z) A_UINT 3 []).
    { apply item_number; [reflexivity|discriminate|]. apply written_unsigned; [lia|exact (Enum_proofs.bit_length_least 7 ltac:(lia))]. }
    apply (pl_nested _ _ [] pd "Detail" None [pp] [] [_; _] []); [reflexivity|apply V; right; right; left; reflexivity| |apply pl_nil].
    eapply (pl_nested _ _ [pd] pp "Point" None _ [] [_; _] []); [reflexivity|apply V; right; right; right; left; reflexivity| |apply pl_nil].
    apply pl_leaf; [exact W|]. apply pl_leaf; [exact W|apply pl_nil]. }
  rewrite (leaves_unique _ _ (or_intror B) _ _ _ _ _ P Q) in G. apply Forall_inv_tail, Forall_inv in G.
  destruct G as [[G|G]|[(z & G)|(b & G)]]; cbn in G; try discriminate. apply G. reflexivity.
Qed.
Print Assumptions C61_leak_refuted.
