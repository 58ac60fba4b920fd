(** * Specification: what the message about a rejected input says *)
From Coq Require Import Sorting.Sorted.
From Verif Require Import Base PyNum PyStr Ast Spec_Enum Spec_Num Spec_Check Spec_Bundle.
Open Scope string_scope.

Definition quoted (s : string) : string := "'" ++ s ++ "'".
Definition bounds_shown (t : asn_type) : string :=
  match t with
  | TInteger (Some (b, e)) => "[" ++ str_of_Z b ++ " - " ++ str_of_Z e ++ "]"
  | TReal (Some (b, e)) => "[" ++ frepr b ++ " - " ++ frepr e ++ "]"
  | _ => "[None - None]"
  end.

(** [l] lists the names with property [P], each once; there is one. *)
Definition lists (P : string -> Prop) (l : list string) : Prop :=
  l <> [] /\ NoDup l /\ forall n, In n l <-> P n.
Definition set_order (order : list string -> list string) : Prop :=
  forall l, NoDup (order l) /\ forall n, In n (order l) <-> In n l.
Definition repeated (l : list string) (n : string) : Prop := exists a b c, l = (a ++ n :: b ++ n :: c)%list.
Definition one_or_more (l : list string) (one more : string) : string :=
  match l with [_] => one | _ => more end.
Definition listed_sorted (l : list string) (text : string) : Prop :=
  exists s, Permutation l s /\ LocallySorted (fun a b => String.leb a b = true) s /\ text = String.concat ", " s.

(** ** Modules

    The definitions before the faulty one are in order. *)
Inductive module_says (m : module) : string -> Prop :=
| says_undefined : forall d k n, Forall definition_valid (mod_defs m) -> In d (mod_defs m) -> In k (members_of d) ->
    element (m_type k) = TName n -> ~ In n (imported_names m) -> ~ In n (defined_names m) ->
    module_says m ("Type " ++ quoted n ++ " used in " ++ quoted (mod_name m) ++ " is not defined")
| says_null : forall a d b t, mod_defs m = (a ++ d :: b)%list -> Forall definition_valid a ->
    In t (definition_types d) -> element t = TNull ->
    module_says m ("Unexpected type: NULL. The NULL type is supported bythe ASN.1 standard but its use is forbidden by the"
      ++ "APG tool to avoid any confusion that could be causedby the presence of the NULL type in the generated Cand COSMOS artifacts.")
| says_posix : forall a n t c b, mod_defs m = (a ++ DSimple n t c :: b)%list -> Forall definition_valid a ->
    element t <> TNull -> ~ posix_ok n t ->
    module_says m ("Range " ++ bounds_shown t ++ " doesn't match with the used POSIX definition (" ++ n ++ ").").

(** ** Bundles *)

(** Clause [w] of a member of type [t] contains, at some depth, clause [w1] for
    a member of type [t1]. *)
Inductive contains_clause (ds : list definition) : asn_type -> wcomps -> asn_type -> wcomps -> Prop :=
| clause_itself : forall t w, contains_clause ds t w t w
| clause_inside : forall t n c ms cm l k w kc x t1 w1, element t = TName n -> In (DSequence n c ms) ds ->
    In (WI k (VWith w) kc) l -> first_member k ms x -> contains_clause ds (m_type x) w t1 w1 ->
    contains_clause ds t (WC cm l) t1 w1.
(** Sequence [n] has a clause [w] for a type [t], at some depth. *)
Definition clause_in (ds : list definition) (n : string) (t : asn_type) (w : wcomps) : Prop :=
  exists c l k w0, In (DSequence n c l) ds /\ In k l /\ m_with k = Some w0 /\ contains_clause ds (m_type k) w0 t w.

(** Module [m] imports [n] from [im], which does not define it. *)
Definition not_found (m im : module) (n : string) : Prop :=
  (exists it, In it (mod_imports m) /\ imp_module it = mod_name im /\ In n (imp_names it)) /\ ~ In n (defined_names im).

Definition with_names (listed : list string) (ms : list module) (text all : string) : Prop :=
  exists a b, listed_sorted listed a /\ listed_sorted (map mod_name ms) b
    /\ all = text ++ " " ++ NL ++ NL ++ "Modules found in command-line argument: " ++ a ++ NL ++ NL
             ++ "Modules found in bundle               : " ++ b.

Inductive bundle_says (listed : list string) (ms : list module) : string -> Prop :=
| says_repeated_name : forall l, lists (repeated listed) l ->
    bundle_says listed ms (one_or_more l "The module " "The modules " ++ String.concat ", " l ++ one_or_more l " is" " are"
      ++ " found multiple times in the --asn1-modules command-line argument")
| says_repeated_module : forall l, NoDup listed -> lists (repeated (map mod_name ms)) l ->
    bundle_says listed ms (one_or_more l "The module " "The modules " ++ String.concat ", " l ++ one_or_more l " is" " are"
      ++ " found multiple times in the bundle")
| says_imports : forall m im l, NoDup listed -> NoDup (map mod_name ms) -> In m ms -> In im ms -> lists (not_found m im) l ->
    bundle_says listed ms ("Error parsing " ++ quoted (mod_name m) ++ ": Imports {" ++ String.concat ", " (map quoted l) ++ "} From "
      ++ quoted (mod_name im) ++ " not found.")
| says_key : forall n t w s c l k v kc, NoDup listed -> NoDup (map mod_name ms) -> imports_resolve ms ->
    clause_in (definitions ms) n t w -> element t = TName s -> In (DSequence s c l) (definitions ms) ->
    In (WI k v kc) (wc_items w) -> ~ In k (map m_key l) ->
    bundle_says listed ms (quoted k ++ " in " ++ quoted n ++ " is not a valid key")
| says_clause : forall n t w s, NoDup listed -> NoDup (map mod_name ms) -> imports_resolve ms ->
    clause_in (definitions ms) n t w -> element t = TName s ->
    (forall c l, ~ In (DSequence s c l) (definitions ms)) \/ repeated (map def_name (definitions ms)) s ->
    bundle_says listed ms ("used type " ++ quoted s ++ " in " ++ quoted n ++ " is not defined")
| says_twice : forall m n, NoDup listed -> NoDup (map mod_name ms) -> imports_resolve ms -> In m ms -> repeated (defined_names m) n ->
    bundle_says listed ms ("The type " ++ n ++ " was already defined in " ++ mod_name m)
| says_both : forall a m1 b m2 c n, NoDup listed -> NoDup (map mod_name ms) -> imports_resolve ms ->
    ms = (a ++ m1 :: b ++ m2 :: c)%list -> In n (defined_names m1) -> In n (defined_names m2) ->
    bundle_says listed ms ("The type " ++ n ++ " was already defined in " ++ mod_name m1 ++ " and " ++ mod_name m2)
| says_not_given : forall l text, NoDup listed -> NoDup (map mod_name ms) -> imports_resolve ms -> clauses_valid (definitions ms) ->
    NoDup (map def_name (definitions ms)) -> lists (fun n => In n listed /\ ~ In n (map mod_name ms)) l ->
    with_names listed ms (one_or_more l "Module " "Modules " ++ String.concat ", " l ++ one_or_more l " was" " were"
      ++ " found in the --asn1-modules command-line argument, but " ++ one_or_more l "was" "were" ++ " not found in the bundle.") text ->
    bundle_says listed ms text
| says_not_listed : forall l text, NoDup listed -> NoDup (map mod_name ms) -> imports_resolve ms -> clauses_valid (definitions ms) ->
    NoDup (map def_name (definitions ms)) -> incl listed (map mod_name ms) ->
    lists (fun n => In n (map mod_name ms) /\ ~ In n listed) l ->
    with_names listed ms (one_or_more l "Module " "Modules " ++ String.concat ", " l ++ one_or_more l " was" " were"
      ++ " found in bundle, but " ++ one_or_more l "was" "were" ++ " not found in the --asn1-modules command-line argument.") text ->
    bundle_says listed ms text.
