(** * Specification: the file of cosmos, letter by letter (C107) *)
From Verif Require Import Base PyNum PyStr Ast Size GenCosmos Main Spec_Bundle Spec_Cosmos Spec_History.
Open Scope string_scope.

(** The occurrences of the members of the messages and the components handed
    on by them (Spec_History); [ms] are the modules as parsed, [i] is the
    position of the first one named [mn]. *)
Definition history (input : list module) (mn : string) (msgs : list string)
           (ms : list module) (i : nat) (m : module) (oss : list (list occurrence)) (hs : list (list witem)) : Prop :=
  Forall2 same_module input ms /\ first_named ms i m /\ mod_name m = mn
  /\ messages_occur ms i m 0 msgs oss /\ handed_on (concat oss) hs.

(** [text] is what a run appends to the file of its target. *)
Definition is_telemetry (input : list module) (mn : string) (msgs : list string) (target text : string) : Prop :=
  (msgs = [] /\ ~ In mn (map mod_name input) /\ text = text_of_run [])
  \/ exists ms i m oss hs ts, history input mn msgs ms i m oss hs
       /\ texts_of_messages m target hs msgs oss ts /\ text = text_of_run ts.

(** No item without components is given a clause; the code would show the
    address of an object. *)
Definition no_addresses (input : list module) (mn : string) (msgs : list string) : Prop :=
  forall ms i m oss hs o w, history input mn msgs ms i m oss hs -> In o (concat oss) -> is_leaf o = true ->
  value_of hs o <> Some (VWith w).

Definition old_text (fs : folder) (f : string) : string := match folder_get fs f with Some old => old | None => "" end.
