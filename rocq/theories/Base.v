(** * Base: outcomes of Python code, and list helpers

    Exceptions are values.  [Err e] means that the code raises an exception of
    class [e] (for messages see [Messages]); [OutOfFuel] is the outcome of a
    loop or recursion that has used up the fuel given to the model and would
    still be running. *)
From Coq Require Export String Ascii.
From Coq Require Export List Bool ZArith Lia Permutation.
Export ListNotations.
Open Scope list_scope.

(** Exception classes raised by the code of /repo/asn1_parser, or by the
    Python operations it performs. *)
Inductive error : Set :=
| ConsistencyError        (* asn1/validation/asn1_bundle_validator.py 17 *)
| TextXSyntaxError        (* asn1/processor.py 265 *)
| SyntaxErr               (* SyntaxError, asn1/asn1_bundle_builder.py 135 *)
| ValueErr | IndexErr | KeyErr | TypeErr | AttributeErr | AssertionErr
| FloatingPointErr        (* asn1/processor.py 205 *)
| OverflowErr | NotImplementedErr | StructErr
| GenericException        (* raise Exception(...) *)
| UnboundLocalErr
| UnicodeDecodeErr.       (* asn1/parser.py 88 *)

Inductive result (A : Type) : Type :=
| Ok (a : A)
| Err (e : error)
| OutOfFuel.
Arguments Ok {A} a.
Arguments Err {A} e.
Arguments OutOfFuel {A}.

Definition bind {A B} (r : result A) (f : A -> result B) : result B :=
  match r with
  | Ok a => f a
  | Err e => Err e
  | OutOfFuel => OutOfFuel
  end.

Notation "'let*' x := r 'in' k" := (bind r (fun x => k))
  (at level 200, x pattern, r at level 100, k at level 200).

Definition assert (b : bool) (e : error) : result unit :=
  if b then Ok tt else Err e.

(** [for x in l: ...], stopping at the first exception. *)
Fixpoint for_each {A} (f : A -> result unit) (l : list A) : result unit :=
  match l with
  | [] => Ok tt
  | x :: r => let* _ := f x in for_each f r
  end.

(** List comprehension whose body may raise. *)
Fixpoint map_result {A B} (f : A -> result B) (l : list A) : result (list B) :=
  match l with
  | [] => Ok []
  | x :: r => let* y := f x in let* ys := map_result f r in Ok (y :: ys)
  end.

(** [name in list_of_names] *)
Definition mem (s : string) (l : list string) : bool :=
  existsb (String.eqb s) l.

(** utils/array.py 4-5 ([flatten]). *)
Definition flatten {A} (l : list (list A)) : list A := concat l.

(** Lookup in a Python dict built by assignments in list order: the last
    assignment to a key wins. *)
Fixpoint dict_get {A} (k : string) (l : list (string * A)) : option A :=
  match l with
  | [] => None
  | (k', v) :: r =>
      match dict_get k r with
      | Some v' => Some v'
      | None => if String.eqb k k' then Some v else None
      end
  end.

(** Keys of such a dict in insertion order (first occurrence keeps its
    place). *)
Fixpoint dedup (l : list string) : list string :=
  match l with
  | [] => []
  | x :: r => x :: filter (fun y => negb (String.eqb x y)) (dedup r)
  end.

(** [set(a) - set(b)] (as a list, order irrelevant to the code). *)
Definition set_diff (a b : list string) : list string :=
  filter (fun x => negb (mem x b)) a.

Definition is_nil {A} (l : list A) : bool :=
  match l with [] => true | _ => false end.

(** Assignment [l[n] = x]. *)
Fixpoint list_set {A} (n : nat) (x : A) (l : list A) : list A :=
  match l, n with
  | [], _ => []
  | _ :: r, O => x :: r
  | y :: r, S n' => y :: list_set n' x r
  end.

(** Removal of the element at a position. *)
Fixpoint remove_nth {A} (n : nat) (l : list A) : list A :=
  match l, n with
  | [], _ => []
  | _ :: r, O => r
  | y :: r, S n' => y :: remove_nth n' r
  end.

(** [l.remove(s)] for a list of strings: first occurrence. *)
Fixpoint remove_first (s : string) (l : list string) : list string :=
  match l with
  | [] => []
  | y :: r => if String.eqb s y then r else y :: remove_first s r
  end.
