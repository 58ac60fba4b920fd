(** * The ordering loops: generators/cfs/module_sorter.py *)
From Verif Require Import Base PyNum PyStr Ast Size Processor Bundle.
Open Scope string_scope.

(** ** get_definitions_sorted_by_dependency, module_sorter.py 16-77 *)

(** 45-55: are the types of all members in [defined]?  (The isinstance tests
    on 49-52 never apply, a type name is a string.) *)
Definition all_defined (defined : list string) (d : definition) : bool :=
  forallb (fun m => mem (type_name (m_type m)) defined) (def_children d).

(** One pass (44-75) over a copy of [not_yet_defined].  Returns the new
    [already_defined], [defined_list] and the definitions that stay. Removal
    is by object identity, so exactly the visited definition goes. *)
Fixpoint sort_pass (todo : list definition) (done : list definition)
         (defined : list string)
  : list definition * list string * list definition :=
  match todo with
  | [] => (done, defined, [])
  | d :: r =>
      if all_defined defined d then
        sort_pass r (done ++ [d])%list (defined ++ [def_name d])%list
      else
        let '(done', defined', rest) := sort_pass r done defined in
        (done', defined', d :: rest)
  end.

(** The while loop, 42-77. *)
Fixpoint sort_loop (fuel : nat) (todo done : list definition) (defined : list string)
  : result (list definition) :=
  match todo with
  | [] => Ok done
  | _ =>
      match fuel with
      | O => OutOfFuel
      | S fuel' =>
          let '(done', defined', rest) := sort_pass todo done defined in
          sort_loop fuel' rest done' defined'
      end
  end.

(** 19-37: names defined from the start. *)
Definition initially_defined (m : module) : list string :=
  (PREDEFINED_LIST ++ flatten (map imp_names (mod_imports m)))%list.

Definition sorted_definitions (fuel : nat) (m : module) : result (list definition) :=
  sort_loop fuel (mod_defs m) [] (initially_defined m).

(** ** create_ordered_import_list, module_sorter.py 80-100 *)

(** 103-112 ([_get_import_names]) *)
Definition import_names (ms : list bmodule) : list string :=
  flatten (map (fun bm => dependencies (bm_mod bm)) ms).

Record order_state : Set := mkorder
  { os_list : list bmodule;          (* module_list *)
    os_names : list string;         (* module_names *)
    os_imports : list string;       (* import_names *)
    os_order : list bmodule }.       (* module_order *)

(** The for loop 90-99.  Python's list iterator keeps an index [i] and looks
    at the current list at each step, so removing the current element skips
    the next one.  [n] bounds the number of steps; the loop body never makes
    the list longer, so the length of the list at the start is enough. *)
Fixpoint order_pass (n i : nat) (st : order_state) : result order_state :=
  match n with
  | O => Ok st
  | S n' =>
      match nth_error (os_names st) i with
      | None => Ok st
      | Some name =>
          if mem name (os_imports st) then order_pass n' (S i) st
          else
            match nth_error (os_list st) i with
            | None => Err IndexErr                              (* 92 *)
            | Some m =>
                let l := remove_nth i (os_list st) in           (* 94 *)
                order_pass n' (S i)
                  (mkorder l (remove_first (bm_name m) (os_names st))
                           (import_names l) (os_order st ++ [m])%list)
            end
      end
  end.

(** The while loop 89. *)
Fixpoint order_loop (fuel : nat) (st : order_state) : result (list bmodule) :=
  match os_list st with
  | [] => Ok (os_order st)
  | _ =>
      match fuel with
      | O => OutOfFuel
      | S fuel' =>
          let* st' := order_pass (List.length (os_names st)) 0 st in
          order_loop fuel' st'
      end
  end.

Definition create_ordered_import_list (fuel : nat) (ms : list bmodule)
  : result (list bmodule) :=
  order_loop fuel (mkorder ms (map bm_name ms) (import_names ms) []).

(** asn1_bundle.py 26-28 ([get_modules_ordered]) *)
Definition get_modules_ordered (fuel : nat) (b : bundle) : result (list bmodule) :=
  create_ordered_import_list fuel (b_modules b).
