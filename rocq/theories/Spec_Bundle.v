(** * Specification: valid bundles *)
From Verif Require Import Base PyNum Ast Bundle Spec_Enum Spec_Num Spec_Check.
Open Scope string_scope.

(** All definitions of a list of modules. *)
Definition definitions (ms : list module) : list definition := flat_map mod_defs ms.

(** Every import names a module of the bundle that defines the names. *)
Definition imports_resolve (ms : list module) : Prop :=
  forall m it, In m ms -> In it (mod_imports m) ->
    exists im, In im ms /\ mod_name im = imp_module it
      /\ incl (imp_names it) (defined_names im).

(** The first member with a given key. *)
Definition first_member (k : string) (l : list member) (x : member) : Prop :=
  exists a b, l = (a ++ x :: b)%list /\ m_key x = k /\ ~ In k (map m_key a).

Definition is_type_name (t : asn_type) : Prop := exists n, t = TName n.

(** [clause_valid ds t w]: clause [w] may constrain a member of type [t].
    The second case is what the tool accepts in addition to what it should: a
    clause on a built-in type (or an array of one) is not looked at. *)
Inductive clause_valid (ds : list definition) : asn_type -> wcomps -> Prop :=
| clause_on_sequence : forall t n c ms cm l,
    element t = TName n -> In (DSequence n c ms) ds ->
    (forall k v kc, In (WI k v kc) l ->
       exists x, first_member k ms x
         /\ forall w, v = VWith w -> clause_valid ds (m_type x) w) ->
    clause_valid ds t (WC cm l)
| clause_on_builtin : forall t w, ~ is_type_name (element t) -> clause_valid ds t w.

(** What one expects: every key exists, at every depth. *)
Inductive clause_keys_exist (ds : list definition) : asn_type -> wcomps -> Prop :=
| clause_keys : forall t n c ms cm l,
    element t = TName n -> In (DSequence n c ms) ds ->
    (forall k v kc, In (WI k v kc) l ->
       exists x, first_member k ms x
         /\ forall w, v = VWith w -> clause_keys_exist ds (m_type x) w) ->
    clause_keys_exist ds t (WC cm l).

(** The clauses of the members of all sequences. *)
Definition clauses_valid (ds : list definition) : Prop :=
  forall n c ms k w, In (DSequence n c ms) ds -> In k ms -> m_with k = Some w ->
    clause_valid ds (m_type k) w.

Definition same_names (a b : list string) : Prop := incl a b /\ incl b a.

(** A bundle the cfs, c and binary commands accept, given the names listed
    for --asn1-modules. *)
Record bundle_valid (listed : list string) (ms : list module) : Prop :=
  { bv_modules : Forall module_valid ms;
    bv_module_names : NoDup (map mod_name ms);
    bv_listed : NoDup listed;
    bv_same : same_names listed (map mod_name ms);
    bv_imports : imports_resolve ms;
    bv_clauses : clauses_valid (definitions ms);
    bv_names : NoDup (map def_name (definitions ms)) }.

(** [x] is recorded as a user of type [s]. *)
Definition uses_of (s : string) (uses : list (string * list string)) (x : string) : Prop :=
  exists l, In (s, l) uses /\ In x l.

(** A module has a member of type [s] (or an array of it) without clause. *)
Definition uses_type (m : module) (s : string) : Prop :=
  exists d k, In d (mod_defs m) /\ In k (members_of d) /\ m_with k = None
    /\ element (m_type k) = TName s.

(** One of the commands accepts the input and works with bundle [b]. *)
Definition accepted (input : list module) (b : bundle) : Prop :=
  (exists names, build_from_config names input = Ok b) \/ build_from_cosmos_config input = Ok b.

(** A definition and what parsing makes of it. *)
Definition same_definition (d d' : definition) : Prop :=
  match d with
  | DEnumerated n c l =>
      exists l', d' = DEnumerated n c l' /\ renumbered l l'
  | _ => d' = d
  end.

Definition same_module (m m' : module) : Prop :=
  mod_name m' = mod_name m
  /\ (mod_comment m' = mod_comment m /\ mod_comment_import m' = mod_comment_import m)
  /\ mod_imports m' = mod_imports m
  /\ Forall2 same_definition (mod_defs m) (mod_defs m').
