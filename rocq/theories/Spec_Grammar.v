(** * What the grammar guarantees about the objects it builds

    asn1/grammar.py 1-142.  A specification used in hypotheses only: every
    module textX hands over satisfies [grammatical].  The model itself does
    not depend on it. *)
From Verif Require Import Base PyNum PyStr PyFloat Ast.
Open Scope string_scope.

(** grammar.py 24: characters of a comment text; 0x20-0x5F is the range
    " -_" of the regular expression. *)
Definition comment_char (c : ascii) : bool :=
  let n := N_of_ascii c in ((32 <=? n) && (n <=? 95))%N || is_lower c.

(** grammar.py 22 *)
Definition unit_char (c : ascii) : bool :=
  Ascii.eqb c "%" || is_upper c || is_lower c || is_digit c
  || Ascii.eqb c "/" || Ascii.eqb c "^".

Fixpoint all_chars (f : ascii -> bool) (s : string) : bool :=
  match s with
  | EmptyString => true
  | String c r => f c && all_chars f r
  end.

Definition comment_ok (c : comment) : bool :=
  all_chars comment_char (cm_text c) && all_chars unit_char (cm_unit c).
Definition comment_opt_ok (c : option comment) : bool :=
  match c with Some c => comment_ok c | None => true end.

(** A float has a double and the text Python prints for it. *)
Definition float_ok (f : pyfloat) : bool :=
  valid_double (fval f) && String.eqb (frepr f) (float_repr (fval f)).

Fixpoint type_ok (t : asn_type) : bool :=
  match t with
  | TReal (Some (b, e)) => float_ok b && float_ok e
  | TArray _ e => type_ok e
  | TName n => is_name_capital n
  | _ => true
  end.

(** grammar.py 88-113; a clause has at least one component. *)
Fixpoint wval_ok (v : wval) : bool :=
  match v with
  | VFloat f => float_ok f
  | VWith w => wcomps_ok w
  | _ => true
  end
with wcomps_ok (w : wcomps) : bool :=
  match w with
  | WC c l =>
      comment_opt_ok c && negb (is_nil l)
      && (fix go (l : list witem) : bool :=
            match l with
            | [] => true
            | i :: r => witem_ok i && go r
            end) l
  end
with witem_ok (i : witem) : bool :=
  match i with
  | WI k v c => is_name_lower k && wval_ok v && comment_opt_ok c
  end.

Definition member_ok (m : member) : bool :=
  is_name_lower (m_key m) && type_ok (m_type m) && comment_opt_ok (m_comment m)
  && match m_with m with Some w => wcomps_ok w | None => true end.

Definition enum_item_ok (e : enum_item) : bool :=
  is_name_lower (e_key e) && comment_opt_ok (e_comment e).

Definition definition_ok (d : definition) : bool :=
  match d with
  | DSequence n c l | DChoice n c l =>
      is_name_capital n && comment_opt_ok c && negb (is_nil l) && forallb member_ok l
  | DEnumerated n c l =>
      is_name_capital n && comment_opt_ok c && negb (is_nil l) && forallb enum_item_ok l
  | DSimple n t c => is_name_capital n && type_ok t && comment_opt_ok c
  end.

Definition import_ok (i : import_item) : bool :=
  negb (is_nil (imp_names i)) && forallb is_name_capital (imp_names i)
  && is_name_lower (imp_module i) && comment_opt_ok (imp_comment i).

Definition grammatical (m : module) : bool :=
  is_name_lower (mod_name m) && comment_opt_ok (mod_comment m)
  && forallb import_ok (mod_imports m) && comment_opt_ok (mod_comment_import m)
  && negb (is_nil (mod_defs m)) && forallb definition_ok (mod_defs m).
