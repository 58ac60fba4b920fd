(** * Specification: the values of COSMOS items, whatever the clauses say

    WITH COMPONENTS clauses of several members may speak about one item.  What
    is shown then depends on the messages generated before, so the members are
    numbered in the order in which they are met, over all messages. *)
From Verif Require Import Base PyNum PyStr Ast Size GenCosmos Spec_Enum Spec_Num Spec_Check Spec_Bundle
  Spec_Size Spec_Cosmos.

(** Where a member is written: module, definition and member, by position. *)
Definition site : Set := (nat * nat * nat)%type.
Definition site_eqb (a b : site) : bool :=
  let '(j, d, k) := a in
  let '(j', d', k') := b in
  (Nat.eqb j j' && Nat.eqb d d' && Nat.eqb k k')%bool.

(** One occurrence of a member in a message: the number of the occurrence
    around it, if it is not a member of the message itself, and its leaf, if
    it has no components. *)
Record occurrence : Set := mkocc
  { oc_around : option nat;
    oc_site : site;
    oc_member : member;
    oc_leaf : option leaf }.

(** Definition [df] is visible in module [i]; it is the one at position [d] of
    module [j]. *)
Definition defined_at (ms : list module) (i j d : nat) (df : definition) : Prop :=
  reaches_module ms i j /\ exists m, nth_error ms j = Some m /\ nth_error (mod_defs m) d = Some df.

(** [members_occur ms i p a n j d k l os]: [l] are the members of definition
    [d] of module [j] from the [k]-th one on, on path [p] and within occurrence
    [a].  They and their components are the occurrences [os], numbered from
    [n], depth first. *)
Inductive members_occur (ms : list module) (i : nat)
  : list member -> option nat -> nat -> nat -> nat -> nat -> list member -> list occurrence -> Prop :=
| mo_nil : forall p a n j d k, members_occur ms i p a n j d k [] []
| mo_leaf : forall p a n j d k m r u c w s os, item_type ms i (m_type m) u c w s ->
    members_occur ms i p a (S n) j d (S k) r os ->
    members_occur ms i p a n j d k (m :: r) (mkocc a (j, d, k) m (Some (mkleaf p m u c w s)) :: os)
| mo_nested : forall p a n j d k m r x cm l j' d' os os', element (m_type m) = TName x ->
    defined_at ms i j' d' (DSequence x cm l) ->
    members_occur ms i (p ++ [m]) (Some n) (S n) j' d' 0 l os ->
    members_occur ms i p a (S n + length os) j d (S k) r os' ->
    members_occur ms i p a n j d k (m :: r) (mkocc a (j, d, k) m None :: os ++ os').

(** The occurrences of messages [msgs] of module [m] at position [i]. *)
Inductive messages_occur (ms : list module) (i : nat) (m : module)
  : nat -> list string -> list (list occurrence) -> Prop :=
| mso_nil : forall n, messages_occur ms i m n [] []
| mso_cons : forall n x cm l d r os oss, nth_error (mod_defs m) d = Some (DSequence x cm l) ->
    members_occur ms i [] None n i d 0 l os -> messages_occur ms i m (n + length os) r oss ->
    messages_occur ms i m n (x :: r) (os :: oss).

Definition only {A : Type} (l : list A) : option A := match l with [x] => Some x | _ => None end.

(** [hs] are the components handed to the members below each occurrence.  The
    value of an occurrence is the only one for its key among those of the
    occurrence around it.  It may be a clause again. *)
Definition value_of (hs : list (list witem)) (o : occurrence) : option wval :=
  match oc_around o with
  | Some a => only (values_for (m_key (oc_member o)) (nth a hs []))
  | None => None
  end.
Definition clause_of (hs : list (list witem)) (o : occurrence) : list witem :=
  match value_of hs o with Some (VWith w) => wc_items w | _ => [] end.

(** Below a member without clause of its own the clause it is given holds.
    Below a member with a clause of its own hold its components, and in
    addition the clauses given to this and to all earlier occurrences of the
    member, be it in this message or in another one. *)
Definition handed_on (os : list occurrence) (hs : list (list witem)) : Prop :=
  length hs = length os
  /\ forall n o, nth_error os n = Some o ->
     nth_error hs n = Some (match m_with (oc_member o) with
                            | None => clause_of hs o
                            | Some w => (wc_items w ++ flat_map (clause_of hs)
                                          (filter (fun o' => site_eqb (oc_site o') (oc_site o)) (firstn (S n) os)))%list
                            end).

Definition is_leaf (o : occurrence) : bool := match oc_leaf o with Some _ => true | None => false end.

(** An application process identifier has a number as value. *)
Definition apid_known (hs : list (list witem)) (o : occurrence) : Prop :=
  is_leaf o = true -> apid_ok (oc_member o)
    \/ (exists z, value_of hs o = Some (VInt z)) \/ (exists b, value_of hs o = Some (VBool b)).

(** The text for value [v] of a leaf: for an array its size in bits, for the
    APID a hexadecimal number.  Nothing is said about a clause given to a leaf
    (the code shows an object address). *)
Definition value_text (lf : leaf) (v : option wval) (s : string) : Prop :=
  match m_type (lf_member lf) with
  | TArray n _ => s = str_of_Z (n * lf_bits lf)
  | _ =>
      if String.eqb (m_key (lf_member lf)) "application-process-identifier"
      then exists z, s = ("0x" ++ format_X 2 z)%string
             /\ (v = Some (VInt z) \/ (v = Some (VBool true) /\ z = 1%Z) \/ (v = Some (VBool false) /\ z = 0%Z))
      else match v with
           | None => s = ""%string
           | Some (VWith _) => True
           | Some v => s = plain_text v
           end
  end.

(** Value and keyword of a line.  A BOOLEAN item has value 1 if the text is
    True, else 0, so it is always an ID item. *)
Definition shown (v : option wval) (lf : leaf) (f : fields) : Prop :=
  exists s, value_text lf v s
    /\ fd_value f = match lf_kind lf with A_BOOL => if String.eqb s "True" then "1" else "0" | _ => s end%string
    /\ fd_keyword f = (if is_array (m_type (lf_member lf)) then "APPEND_ARRAY_ITEM"
                       else if String.eqb (fd_value f) "" then "APPEND_ITEM" else "APPEND_ID_ITEM")%string.

(** The lines of an occurrence that is a leaf. *)
Definition text_of_occurrence (hs : list (list witem)) (o : occurrence) (t : string) : Prop :=
  exists lf, oc_leaf o = Some lf /\ text_of_leaf (shown (value_of hs o)) lf t.

(** The text of message [n] with occurrences [os]. *)
Definition text_of_occurrences (m : module) (target : string) (hs : list (list witem)) (n : string)
           (os : list occurrence) (t : string) : Prop :=
  exists cm l ts, In (DSequence n cm l) (mod_defs m)
    /\ Forall2 (text_of_occurrence hs) (filter is_leaf os) ts
    /\ t = ("TELEMETRY " ++ target ++ " " ++ n ++ " BIG_ENDIAN " ++ DQUOTE ++ text_of cm ++ DQUOTE ++ NL
            ++ String.concat "" ts)%string.

Inductive texts_of_messages (m : module) (target : string) (hs : list (list witem))
  : list string -> list (list occurrence) -> list string -> Prop :=
| tm_nil : texts_of_messages m target hs [] [] []
| tm_cons : forall n r os oss t ts, text_of_occurrences m target hs n os t ->
    texts_of_messages m target hs r oss ts -> texts_of_messages m target hs (n :: r) (os :: oss) (t :: ts).

(** Imports resolve, where of several modules of one name only the last one
    counts, both as importing module and as module imported from. *)
Definition last_imports_resolve (ms : list module) : Prop :=
  forall i m it, last_named ms i m -> In it (mod_imports m) ->
    exists j im, last_named ms j im /\ mod_name im = imp_module it /\ incl (imp_names it) (defined_names im).

(** What the cosmos command can process, like [cosmos_processable] but for
    all clauses and also for several modules of one name. *)
Record cosmos_runs (mn : string) (msgs : list string) (input : list module) : Prop :=
  { cr_modules : Forall module_valid input;
    cr_imports : last_imports_resolve input;
    cr_clauses : clauses_valid (definitions input);
    cr_names : NoDup (map def_name (definitions input));
    cr_messages : (msgs = [] /\ input <> []) \/ exists i m oss hs, first_named input i m /\ mod_name m = mn
      /\ (looks_up m msgs -> acyclic_from input i)
      /\ messages_occur input i m 0 msgs oss
      /\ handed_on (concat oss) hs /\ Forall (apid_known hs) (concat oss) }.
