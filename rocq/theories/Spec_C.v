(** * Specification: initialisers generated by the c command *)
From Verif Require Import Base PyNum PyStr Ast CCommon Spec_Text.
Open Scope string_scope.

(** ** Reading a C initialiser *)

(** The parts of [s] between the characters [ch]. *)
Fixpoint split_on (ch : ascii) (s : string) : list string :=
  match s with
  | "" => [""]
  | String c r =>
      if Ascii.eqb c ch then "" :: split_on ch r
      else match split_on ch r with
           | x :: xs => String c x :: xs
           | [] => []
           end
  end.

Fixpoint skip_spaces (s : string) : string :=
  match s with
  | String c r => if Ascii.eqb c " " then skip_spaces r else s
  | "" => ""
  end.

(** [s] without the comma at its end. *)
Fixpoint chop_comma (s : string) : option string :=
  match s with
  | "" => None
  | String c "" => if Ascii.eqb c "," then Some "" else None
  | String c r => option_map (String c) (chop_comma r)
  end.

(** A line of an initialiser: [.k = {], [.k = v,] or [},]. *)
Inductive line : Set := Open (k : string) | Assign (k v : string) | Close.

Definition read_line (s : string) : option line :=
  match split_on " " (skip_spaces s) with
  | ["},"] => Some Close
  | [String "." k; "="; v] =>
      if String.eqb v "{" then Some (Open k)
      else match chop_comma v with Some v => Some (Assign k v) | None => None end
  | _ => None
  end.

Fixpoint read_lines (l : list string) : option (list line) :=
  match l with
  | [] => Some []
  | "" :: r => read_lines r
  | s :: r => match read_line s, read_lines r with
              | Some x, Some xs => Some (x :: xs)
              | _, _ => None
              end
  end.

(** Designated initialisers: the fields given a value, in order. *)
Inductive tree : Set := Leaf (k v : string) | Node (k : string) (sub : list tree).

Fixpoint build_tree (ls : list line) (cur : list tree) (open : list (string * list tree))
  : option (list tree) :=
  match ls with
  | [] => match open with [] => Some cur | _ => None end
  | Assign k v :: r => build_tree r (cur ++ [Leaf k v])%list open
  | Open k :: r => build_tree r [] ((k, cur) :: open)
  | Close :: r => match open with
                  | (k, prev) :: rest => build_tree r (prev ++ [Node k cur])%list rest
                  | [] => None
                  end
  end.

Definition read_init (s : string) : option (list tree) :=
  match read_lines (split_on LF s) with
  | Some ls => build_tree ls [] []
  | None => None
  end.

(** ** What it should say *)

(** No zero before other digits, which in C makes a number octal. *)
Definition not_octal (s : string) : Prop :=
  forall sign r, sign = "" \/ sign = "-" -> s = sign ++ "0" ++ r -> r = "".

(** [s] is the C text of value [v]. *)
Definition c_value (v : wval) (s : string) : Prop :=
  match v with
  | VInt z => decimal z s
  | VBool b => s = if b then "1" else "0"
  | VFloat f => s = frepr f
  | VWith _ => False
  end.

(** The initialised fields are the components, with the same nesting, order
    and values. *)
Inductive mirrors : list witem -> list tree -> Prop :=
| mirrors_nil : mirrors [] []
| mirrors_leaf : forall k v cm r s t, c_value v s -> mirrors r t ->
    mirrors (WI k v cm :: r) (Leaf (c_name k) s :: t)
| mirrors_node : forall k w cm r sub t, mirrors (wc_items w) sub -> mirrors r t ->
    mirrors (WI k (VWith w) cm :: r) (Node (c_name k) sub :: t).

(** Two lists of components with the same keys, nesting and values. *)
Inductive agree : list witem -> list witem -> Prop :=
| agree_nil : agree [] []
| agree_leaf : forall k v cm r v' cm' r', (exists s, c_value v s /\ c_value v' s) -> agree r r' ->
    agree (WI k v cm :: r) (WI k v' cm' :: r')
| agree_node : forall k w cm r w' cm' r', agree (wc_items w) (wc_items w') -> agree r r' ->
    agree (WI k (VWith w) cm :: r) (WI k (VWith w') cm' :: r').

(** The clauses of a definition: sequence, member, clause. *)
Definition def_clauses (d : definition) : list (string * string * wcomps) :=
  match d with
  | DSequence n _ l =>
      flat_map (fun k => match m_with k with Some w => [(n, m_key k, w)] | None => [] end) l
  | _ => []
  end.

(** Fields as text, each on a line of its own, the fields of a field two more
    spaces to the right. *)
Fixpoint tree_text (indent : string) (t : tree) : string :=
  match t with
  | Leaf k v => indent ++ "." ++ k ++ " = " ++ v ++ "," ++ NL
  | Node k l => indent ++ "." ++ k ++ " = {" ++ NL
                ++ String.concat "" (map (tree_text (indent ++ "  ")) l) ++ indent ++ "}," ++ NL
  end.

(** [text] initialises the instance of sequence [n] as clause [w] of its
    member [k] says. *)
Definition initialises (x : string * string * wcomps) (text : string) : Prop :=
  let '(n, k, w) := x in
  exists body sub,
    text = c_name n ++ " " ++ lowerize (c_name n) ++ " = {" ++ NL ++ body ++ "};" ++ NL
    /\ read_init body = Some [Node (c_name k) sub] /\ mirrors (wc_items w) sub
    /\ body = tree_text "  " (Node (c_name k) sub).

(** The start of a source file. *)
Definition source_head (m : module) : string :=
  "/*" ++ NL ++ "This file was autogenerated from ASN.1 model."
  ++ (match mod_comment m with
      | Some c => if String.eqb (cm_text c) "" then "" else NL ++ NL ++ cm_text c
      | None => ""
      end)
  ++ NL ++ "*/" ++ NL ++ NL.

(** The last definition that is not a simple type has a clause. *)
Definition ends_with_clause (order : list definition) : Prop :=
  exists a d b, order = (a ++ d :: b)%list /\ def_clauses d <> [] /\ Forall (fun x => is_simple x = true) b.

(** ** Declared types *)

(** Types of C and of <stdint.h>. *)
Definition STDINT_TYPES : list string :=
  ["int8_t"; "int16_t"; "int32_t"; "int64_t"; "uint8_t"; "uint16_t"; "uint32_t"; "uint64_t"].
Definition C_TYPES : list string :=
  (["char"; "int"; "float"; "double"; "unsigned long long"] ++ STDINT_TYPES)%list.

(** The declaration is a typedef of name [t]. *)
Definition introduces (x : cdecl) (t : string) : Prop :=
  match x with CStruct _ n _ | CEnum _ n _ => n = t | CUnion _ _ _ _ => False end.

(** Not a CHOICE, and not a simple type other than INTEGER and REAL; [defs] are
    all definitions. *)
Definition has_c_type (defs : list definition) (t : asn_type) : Prop :=
  forall d, In d defs -> t = TName (def_name d) ->
    match d with
    | DChoice _ _ _ => False
    | DSimple _ t' _ => (exists r, t' = TInteger r) \/ (exists r, t' = TReal r)
    | _ => True
    end.
