(** * Specification: which modules and bundles are valid *)
From Verif Require Import Base PyNum Ast Spec_Enum Spec_Num.
From Coq Require Import QArith.
Open Scope string_scope.

(** ** Comments *)

Definition occurs (p s : string) : Prop := exists a b, s = a ++ p ++ b.

(** The text of a comment contains neither brackets nor a comment mark. *)
Definition clean (c : comment) : Prop :=
  ~ occurs "[" (cm_text c) /\ ~ occurs "]" (cm_text c) /\ ~ occurs "--" (cm_text c).

Definition opt_list {A} (o : option A) : list A :=
  match o with Some x => [x] | None => [] end.

Fixpoint value_comments (v : wval) : list comment :=
  match v with VWith w => clause_comments w | _ => [] end
with clause_comments (w : wcomps) : list comment :=
  match w with
  | WC c l =>
      (opt_list c ++
       (fix go (l : list witem) : list comment :=
          match l with
          | [] => []
          | i :: r => item_comments i ++ go r
          end) l)%list
  end
with item_comments (i : witem) : list comment :=
  match i with WI _ v c => (value_comments v ++ opt_list c)%list end.

Definition member_comments (k : member) : list comment :=
  (opt_list (m_comment k)
   ++ match m_with k with Some w => clause_comments w | None => [] end)%list.

Definition definition_comments (d : definition) : list comment :=
  match d with
  | DSequence _ c l | DChoice _ c l => (opt_list c ++ flat_map member_comments l)%list
  | DEnumerated _ c l => (opt_list c ++ flat_map (fun e => opt_list (e_comment e)) l)%list
  | DSimple _ _ c => opt_list c
  end.

(** Every comment of a module. *)
Definition module_comments (m : module) : list comment :=
  (opt_list (mod_comment m) ++ flat_map (fun i => opt_list (imp_comment i)) (mod_imports m)
   ++ opt_list (mod_comment_import m) ++ flat_map definition_comments (mod_defs m))%list.

(** ** Types *)

(** A type and, for arrays, the types inside it. *)
Fixpoint subtypes (t : asn_type) : list asn_type :=
  t :: match t with TArray _ e => subtypes e | _ => [] end.

(** The innermost element type. *)
Fixpoint element (t : asn_type) : asn_type :=
  match t with TArray _ e => element e | _ => t end.

Definition range_ok (t : asn_type) : Prop :=
  match t with
  | TInteger (Some (b, e)) => (b <= e)%Z
  | TReal (Some (b, e)) =>
      finite (fval b) /\ finite (fval e) /\ double_le (fval b) (fval e)
  | _ => True
  end.

Definition ranges_ok (t : asn_type) : Prop := Forall range_ok (subtypes t).

(** POSIX types: the range of the C type of that name. *)
Definition signed_range (w : Z) : Q * Q :=
  (inject_Z (- 2 ^ (w - 1)), inject_Z (2 ^ (w - 1) - 1)).
Definition unsigned_range (w : Z) : Q * Q := (inject_Z 0, inject_Z (2 ^ w - 1)).
Definition posix_bounds (n : string) : option (Q * Q) :=
  if String.eqb n "Int8-t" then Some (signed_range 8)
  else if String.eqb n "Int16-t" then Some (signed_range 16)
  else if String.eqb n "Int32-t" then Some (signed_range 32)
  else if String.eqb n "Int64-t" then Some (signed_range 64)
  else if String.eqb n "Uint8-t" then Some (unsigned_range 8)
  else if String.eqb n "Uint16-t" then Some (unsigned_range 16)
  else if String.eqb n "Uint32-t" then Some (unsigned_range 32)
  else if String.eqb n "Uint64-t" then Some (unsigned_range 64)
  else if String.eqb n "Float"       (* the double nearest to 3.4e38 *)
  then Some (qval true 8999725064576941 75, qval false 8999725064576941 75)
  else if String.eqb n "Double"      (* the largest finite double *)
  then Some (qval true 9007199254740991 971, qval false 9007199254740991 971)
  else None.

(** The bounds written for a type are numerically [b] and [e]. *)
Definition has_bounds (t : asn_type) (b e : Q) : Prop :=
  match t with
  | TInteger (Some (x, y)) => inject_Z x == b /\ inject_Z y == e
  | TReal (Some (x, y)) =>
      match fval x, fval y with
      | DFin s1 m1 e1, DFin s2 m2 e2 => qval s1 m1 e1 == b /\ qval s2 m2 e2 == e
      | _, _ => False
      end
  | _ => False
  end%Q.

Definition posix_ok (n : string) (t : asn_type) : Prop :=
  match posix_bounds n with
  | Some (b, e) => has_bounds t b e
  | None => True
  end.

(** ** Modules *)

Definition members_of (d : definition) : list member :=
  match d with DSequence _ _ l | DChoice _ _ l => l | _ => [] end.

Definition definition_valid (d : definition) : Prop :=
  match d with
  | DSequence _ _ l | DChoice _ _ l =>
      Forall (fun k => ranges_ok (m_type k) /\ element (m_type k) <> TNull) l
  | DEnumerated _ _ l =>
      fold_right Z.add 0%Z (map number l) = 0%Z
      \/ Permutation (map number l) (upto (length l))
  | DSimple n t _ => ranges_ok t /\ element t <> TNull /\ posix_ok n t
  end.

Definition imported_names (m : module) : list string := concat (map imp_names (mod_imports m)).
Definition defined_names (m : module) : list string := map def_name (mod_defs m).

(** Every type name used by a member is imported or defined. *)
Definition types_defined (m : module) : Prop :=
  forall d k n, In d (mod_defs m) -> In k (members_of d) -> element (m_type k) = TName n ->
    In n (imported_names m) \/ In n (defined_names m).

Definition module_valid (m : module) : Prop :=
  Forall clean (module_comments m)
  /\ Forall definition_valid (mod_defs m)
  /\ types_defined m.

(** ** What is wrong with a rejected type *)

(** A range whose lower bound is above its upper bound. *)
Definition reversed (t : asn_type) : Prop :=
  match t with
  | TInteger (Some (b, e)) => (e < b)%Z
  | TReal (Some (b, e)) => ~ double_le (fval b) (fval e)
  | _ => False
  end.

Definition has_reversed (t : asn_type) : Prop := exists s, In s (subtypes t) /\ reversed s.

(** The types written in a definition. *)
Definition definition_types (d : definition) : list asn_type :=
  match d with
  | DSequence _ _ l | DChoice _ _ l => map m_type l
  | DEnumerated _ _ _ => []
  | DSimple _ t _ => [t]
  end.

(** A definition that is in order except for reversed ranges. *)
Definition only_reversed (d : definition) : Prop :=
  definition_valid d
  \/ match d with
     | DSequence _ _ l | DChoice _ _ l =>
         Forall (fun k => (ranges_ok (m_type k) /\ element (m_type k) <> TNull)
                          \/ has_reversed (m_type k)) l
     | DEnumerated _ _ _ => False
     | DSimple _ t _ => has_reversed t
     end.
