(** * Specification: COSMOS packets

    [ms] are the modules as parsed, that is with the items of every
    enumeration in the order of their numbers.  A module is referred to by its
    position, since the cosmos command accepts several modules of one name. *)
From Verif Require Import Base PyNum PyStr Ast Size GenCosmos Spec_Enum Spec_Num Spec_Check Spec_Bundle
  Spec_Size.
Open Scope Z_scope.

(** ** Imports *)

(** Module [m], at position [i], is the last one of its name. *)
Definition last_named (ms : list module) (i : nat) (m : module) : Prop :=
  nth_error ms i = Some m
  /\ forall j m', (i < j)%nat -> nth_error ms j = Some m' -> mod_name m' <> mod_name m.

(** ... the first one. *)
Definition first_named (ms : list module) (i : nat) (m : module) : Prop :=
  nth_error ms i = Some m
  /\ forall j m', (j < i)%nat -> nth_error ms j = Some m' -> mod_name m' <> mod_name m.

(** Module [i] imports from module [j].  Of several modules of one name only
    the last one counts. *)
Definition imports_module (ms : list module) (i j : nat) : Prop :=
  exists m m' it, last_named ms i m /\ last_named ms j m'
    /\ In it (mod_imports m) /\ imp_module it = mod_name m'.

Inductive reaches_module (ms : list module) : nat -> nat -> Prop :=
| reach_here : forall i, reaches_module ms i i
| reach_import : forall i j k, imports_module ms i j -> reaches_module ms j k -> reaches_module ms i k.

(** A definition of module [i] or of one reachable through imports. *)
Definition visible (ms : list module) (i : nat) (d : definition) : Prop :=
  exists j m, reaches_module ms i j /\ nth_error ms j = Some m /\ In d (mod_defs m).

(** No module reached from module [i] imports from itself, over any number of
    modules. *)
Definition acyclic_from (ms : list module) (i : nat) : Prop :=
  forall j k, reaches_module ms i j -> imports_module ms j k -> ~ reaches_module ms k j.

(** A member of one of the messages [msgs] of module [m] has a type that is to
    be looked up. *)
Definition looks_up (m : module) (msgs : list string) : Prop :=
  exists n cm l k x, In n msgs /\ In (DSequence n cm l) (mod_defs m) /\ In k l /\ element (m_type k) = TName x.

(** ** Items *)

(** What COSMOS is told about a type that is written out: kind and width.  An
    array of BOOLEAN counts as BOOLEAN. *)
Inductive written_item : asn_type -> ctype -> Z -> Prop :=
| written_boolean : forall t, element t = TBoolean -> written_item t A_BOOL 1
| written_unsigned : forall b e w, 0 <= b -> least_width w e ->
    written_item (TInteger (Some (b, e))) A_UINT w
| written_signed : forall b e w, b < 0 -> smallest [8; 16; 32; 64] (fun w => holds_signed w b e) w ->
    written_item (TInteger (Some (b, e))) A_INT w
| written_single : forall b e, abs_at_most (fval b) float_bound -> abs_at_most (fval e) float_bound ->
    written_item (TReal (Some (b, e))) A_FLOAT 32
| written_double : forall b e, ~ (abs_at_most (fval b) float_bound /\ abs_at_most (fval e) float_bound) ->
    written_item (TReal (Some (b, e))) A_DOUBLE 64.

(** [item_type ms i t u c w s]: a member of type [t] becomes an item with
    values of type [u], of kind [c], [w] bits wide, with states [s].  An array
    is treated like its element type. *)
Inductive item_type (ms : list module) (i : nat)
  : asn_type -> asn_type -> ctype -> Z -> list string -> Prop :=
| item_number : forall t c w, element t = t -> t <> TBoolean -> written_item t c w -> item_type ms i t t c w []
| item_boolean : forall t, element t = TBoolean -> item_type ms i t TBoolean A_BOOL 1 ["False"; "True"]%string
| item_string : forall k n, item_type ms i (TString k n) (TString k n) A_STRING (n * 8) []
| item_simple : forall t n u cm c w, element t = TName n -> visible ms i (DSimple n u cm) ->
    written_item u c w -> item_type ms i t u c w []
| item_enum : forall t n cm l w, element t = TName n -> visible ms i (DEnumerated n cm l) ->
    least_width w (Z.of_nat (length l) - 1) ->
    item_type ms i t (TInteger (Some (0, Z.of_nat (length l) - 1))) A_UINT w (map e_key l).

(** A leaf of a message: the member, the members around it from the outside
    in, and its item. *)
Record leaf : Set := mkleaf
  { lf_path : list member;
    lf_member : member;
    lf_values : asn_type;
    lf_kind : ctype;
    lf_bits : Z;
    lf_states : list string }.

(** The leaves of a list of members, depth first. *)
Inductive packet_leaves (ms : list module) (i : nat) : list member -> list member -> list leaf -> Prop :=
| pl_nil : forall p, packet_leaves ms i p [] []
| pl_leaf : forall p m r u c w s ls, item_type ms i (m_type m) u c w s -> packet_leaves ms i p r ls ->
    packet_leaves ms i p (m :: r) (mkleaf p m u c w s :: ls)
| pl_nested : forall p m n cm l r ls ls', element (m_type m) = TName n -> visible ms i (DSequence n cm l) ->
    packet_leaves ms i (p ++ [m]) l ls -> packet_leaves ms i p r ls' ->
    packet_leaves ms i p (m :: r) (ls ++ ls').

Definition text_of (c : option comment) : string := match c with Some c => cm_text c | None => "" end%string.
Definition unit_of (c : option comment) : string := match c with Some c => cm_unit c | None => "" end%string.
Definition little_of (c : option comment) : bool := match c with Some c => cm_little_endian c | None => false end.
Definition is_array (t : asn_type) : bool := match t with TArray _ _ => true | _ => false end.

(** The range of a real type is all of Float or all of Double. *)
Definition full_range (t : asn_type) : Prop := posix_ok "Float" t \/ posix_ok "Double" t.

(** Limits are shown for the other ranges of real types. *)
Definition limits (t : asn_type) (r : option (num * num)) : Prop :=
  match t with
  | TReal (Some (b, e)) =>
      (full_range t -> r = None) /\ (~ full_range t -> r = Some (NFloat b, NFloat e))
  | _ => r = None
  end.

(** Everything an item says about its leaf, except for the value. *)
Record shows (lf : leaf) (e : entry) : Prop :=
  { sh_name : te_name e = m_key (lf_member lf);
    sh_bits : te_bits e = lf_bits lf;
    sh_kind : te_type e = lf_kind lf;
    sh_comment : te_comment e = text_of (m_comment (lf_member lf));
    sh_unit : te_unit e = unit_of (m_comment (lf_member lf));
    sh_little : te_little e = little_of (m_comment (lf_member lf));
    sh_states : te_states e = lf_states lf;
    sh_array : te_array e = is_array (m_type (lf_member lf));
    sh_limits : limits (lf_values lf) (te_range e) }.

(** ** Values *)

(** The clauses given by a clause for component [k]. *)
Definition narrow (k : string) (l : list witem) : list (list witem) :=
  flat_map (fun i => match i with
                     | WI k' (VWith w) _ => if String.eqb k' k then [wc_items w] else []
                     | _ => []
                     end) l.

(** The values given by a clause for component [k]. *)
Definition values_for (k : string) (l : list witem) : list wval :=
  map wi_value (filter (fun i => String.eqb (wi_key i) k) l).

(** The clauses that say something about the components of the last member of
    a path: its own one, and what the clauses further out say about it. *)
Definition own_clause (m : member) : list (list witem) :=
  match m_with m with Some w => [wc_items w] | None => [] end.
Definition clauses_at (p : list member) : list (list witem) :=
  fold_left (fun ls m => own_clause m ++ flat_map (narrow (m_key m)) ls)%list p [].

(** The values the clauses on its path fix a leaf to. *)
Definition fixed_values (lf : leaf) : list wval :=
  flat_map (values_for (m_key (lf_member lf))) (clauses_at (lf_path lf)).

(** At most one clause speaks about each member of the path, no component is
    given twice in it, and the leaf is given no clause. *)
Definition one_clause (lf : leaf) : Prop :=
  (forall p q, lf_path lf = (p ++ q)%list -> (length (clauses_at p) <= 1)%nat
     /\ Forall (fun l => NoDup (map wi_key l)) (clauses_at p))
  /\ forall w, ~ In (VWith w) (fixed_values lf).

(** Component [i] occurs in clause [w], at any depth. *)
Inductive component_of : wcomps -> witem -> Prop :=
| comp_here : forall w i, In i (wc_items w) -> component_of w i
| comp_nested : forall w k w' c i, In (WI k (VWith w') c) (wc_items w) -> component_of w' i -> component_of w i.

(** ... in some clause of some member. *)
Definition component_in (ds : list definition) (i : witem) : Prop :=
  exists d m w, In d ds /\ In m (members_of d) /\ m_with m = Some w /\ component_of w i.

(** ... for all leaves of the messages requested. *)
Definition one_clause_each (ms : list module) (i : nat) (m : module) (msgs : list string) : Prop :=
  forall n cm l ls, In n msgs -> In (DSequence n cm l) (mod_defs m) -> packet_leaves ms i [] l ls ->
  Forall one_clause ls.

(** Not the application process identifier. *)
Definition apid_ok (m : member) : Prop :=
  is_array (m_type m) = true \/ m_key m <> "application-process-identifier"%string.

(** ... or fixed to a number. *)
Definition apid_given (lf : leaf) : Prop :=
  apid_ok (lf_member lf) \/ (exists z, fixed_values lf = [VInt z]) \/ (exists b, fixed_values lf = [VBool b]).

Definition plain_text (v : wval) : string :=
  match v with
  | VInt z => str_of_Z z
  | VFloat f => frepr f
  | VBool b => if b then "True" else "False"
  | VWith _ => ""
  end%string.

(** The value shown: for an array its size in bits, for the APID a
    hexadecimal number. *)
Definition shows_value (lf : leaf) (e : entry) : Prop :=
  match m_type (lf_member lf) with
  | TArray n _ => te_value e = str_of_Z (n * lf_bits lf)
  | _ =>
      if String.eqb (m_key (lf_member lf)) "application-process-identifier"
      then exists v z, fixed_values lf = [v]
             /\ z = match v with VInt z => z | VBool true => 1 | _ => 0 end
             /\ (forall f, v <> VFloat f) /\ te_value e = ("0x" ++ format_X 2 z)%string
      else match fixed_values lf with
           | [] => te_value e = ""%string
           | v :: _ => te_value e = plain_text v
           end
  end.

(** [p] describes message [n] of module [m] at position [i]; [f] says what
    each item has to do with its leaf. *)
Definition describes (f : leaf -> entry -> Prop) (ms : list module) (i : nat) (m : module) (n : string) (p : packet)
  : Prop :=
  exists cm l ls, In (DSequence n cm l) (mod_defs m) /\ pk_name p = n /\ pk_comment p = text_of cm
    /\ packet_leaves ms i [] l ls /\ Forall2 f ls (pk_entries p).

(** ** Text *)

Open Scope string_scope.

Definition has_char (c : ascii) (s : string) : Prop := In c (list_ascii_of_string s).

(** At least one space and nothing else. *)
Definition blank (s : string) : Prop := s <> "" /\ forall c, has_char c s -> c = " "%char.

(** No space, no quote, no end of line. *)
Definition plain (s : string) : Prop := ~ has_char " " s /\ ~ has_char DQ s /\ ~ has_char LF s.
Definition word (s : string) : Prop := s <> "" /\ plain s.

(** The fields of an item line. *)
Record fields : Set := mkfields
  { fd_keyword : string;
    fd_name : string;
    fd_bits : string;
    fd_type : string;
    fd_value : string;
    fd_comment : string;
    fd_little : bool }.

(** Line [s] consists of fields [f], separated by spaces. *)
Definition laid_out (s : string) (f : fields) : Prop :=
  word (fd_keyword f) /\ word (fd_name f) /\ word (fd_bits f) /\ word (fd_type f)
  /\ ~ has_char LF (fd_comment f)
  /\ exists a0 a1 a2 a3 a4 a5, blank a0 /\ blank a1 /\ blank a2 /\ blank a3 /\ blank a4 /\ blank a5
     /\ s = a0 ++ fd_keyword f ++ a1 ++ fd_name f ++ a2 ++ fd_bits f ++ a3 ++ fd_type f ++ a4
            ++ fd_value f ++ a5 ++ DQUOTE ++ fd_comment f ++ DQUOTE
            ++ (if fd_little f then " LITTLE_ENDIAN" else "") ++ NL.

Definition kind_name (c : ctype) : string :=
  match c with
  | A_BOOL | A_UINT => "UINT"
  | A_INT => "INT"
  | A_STRING => "STRING"
  | A_FLOAT | A_DOUBLE => "FLOAT"
  end.

(** [t] is [s] at the left or right of a column of [n] characters. *)
Definition at_left (n : nat) (s t : string) : Prop :=
  exists a, t = s ++ a /\ (forall c, has_char c a -> c = " "%char) /\ String.length t = Nat.max n (String.length s).
Definition at_right (n : nat) (s t : string) : Prop :=
  exists a, t = a ++ s /\ (forall c, has_char c a -> c = " "%char) /\ String.length t = Nat.max n (String.length s).

(** The columns of an item line. *)
Definition in_columns (s : string) (f : fields) : Prop :=
  exists k n b t v, at_left 19 (fd_keyword f) k /\ at_left 31 (fd_name f) n /\ at_right 7 (fd_bits f) b
    /\ at_left 7 (fd_type f) t /\ at_right 7 (fd_value f) v
    /\ s = "    " ++ k ++ " " ++ n ++ " " ++ b ++ " " ++ t ++ " " ++ v ++ " " ++ DQUOTE ++ fd_comment f ++ DQUOTE
           ++ (if fd_little f then " LITTLE_ENDIAN" else "") ++ NL.

(** The line of a leaf; [Q] says what keyword and value have to be. *)
Definition line_of_leaf (Q : leaf -> fields -> Prop) (lf : leaf) (s : string) : Prop :=
  exists f, (laid_out s f /\ in_columns s f)
    /\ fd_name f = m_key (lf_member lf)
    /\ fd_bits f = str_of_Z (lf_bits lf)
    /\ fd_type f = kind_name (lf_kind lf)
    /\ fd_comment f = text_of (m_comment (lf_member lf))
    /\ fd_little f = little_of (m_comment (lf_member lf))
    /\ Q lf f.

Definition any_value (lf : leaf) (f : fields) : Prop := True.

(** A leaf whose key no clause mentions. *)
Definition unmentioned_item (ds : list definition) (lf : leaf) (f : fields) : Prop :=
  lf_kind lf <> A_BOOL -> is_array (m_type (lf_member lf)) = false ->
  (forall i, component_in ds i -> wi_key i <> m_key (lf_member lf)) ->
  fd_keyword f = "APPEND_ITEM" /\ fd_value f = "".

(** An array item shows the size of the array, an item that is fixed to a value
    is an ID item.  Nothing is said about BOOLEAN items without value or with a
    value that is not BOOLEAN, nor about the size of an array of BOOLEAN. *)
Definition fixed_value (lf : leaf) (f : fields) : Prop :=
  let apid := String.eqb (m_key (lf_member lf)) "application-process-identifier" in
  plain (fd_value f)
  /\ match m_type (lf_member lf), lf_kind lf, fixed_values lf with
     | TArray _ _, A_BOOL, _ => fd_keyword f = "APPEND_ARRAY_ITEM"
     | TArray n _, _, _ => fd_keyword f = "APPEND_ARRAY_ITEM" /\ fd_value f = str_of_Z (n * lf_bits lf)
     | _, A_BOOL, VBool b :: _ =>
         apid = false -> fd_keyword f = "APPEND_ID_ITEM" /\ fd_value f = if b then "1" else "0"
     | _, A_BOOL, _ => True
     | _, _, [] => fd_keyword f = "APPEND_ITEM" /\ fd_value f = ""
     | _, _, v :: _ =>
         fd_keyword f = "APPEND_ID_ITEM"
         /\ if apid
            then exists z, fd_value f = "0x" ++ format_X 2 z
                   /\ (v = VInt z \/ (v = VBool true /\ z = 1) \/ (v = VBool false /\ z = 0))
            else fd_value f = plain_text v
     end.

Definition line_of_state (s : string) (i : Z) (t : string) : Prop :=
  exists a, at_left 31 s a /\ t = "        STATE " ++ a ++ " " ++ str_of_Z i ++ NL.

(** The lines of states number the states from 0. *)
Definition lines_of_states (l : list string) (ts : list string) : Prop :=
  length ts = length l
  /\ forall i s t, nth_error l i = Some s -> nth_error ts i = Some t -> line_of_state s (Z.of_nat i) t.

Definition text_of_limits (u : asn_type) (t : string) : Prop :=
  match u with
  | TReal (Some (b, e)) =>
      (full_range u -> t = "")
      /\ (~ full_range u -> t = "        LIMITS DEFAULT 5 ENABLED " ++ frepr b ++ " " ++ frepr b ++ " "
                                ++ frepr e ++ " " ++ frepr e ++ NL)
  | _ => t = ""
  end.

Definition text_of_unit (u : string) (t : string) : Prop :=
  (u = "" /\ t = "") \/ (u <> "" /\ t = "        UNITS " ++ u ++ " " ++ u ++ NL).

(** All lines of a leaf. *)
Definition text_of_leaf (Q : leaf -> fields -> Prop) (lf : leaf) (t : string) : Prop :=
  exists line states lim un, t = line ++ String.concat "" states ++ lim ++ un
    /\ line_of_leaf Q lf line
    /\ lines_of_states (lf_states lf) states
    /\ text_of_limits (lf_values lf) lim
    /\ text_of_unit (unit_of (m_comment (lf_member lf))) un.

(** The text of message [n] of module [m] at position [i]. *)
Definition text_of_message (Q : leaf -> fields -> Prop) (ms : list module) (i : nat) (m : module)
           (target n t : string) : Prop :=
  exists cm l ls ts, In (DSequence n cm l) (mod_defs m) /\ packet_leaves ms i [] l ls
    /\ Forall2 (text_of_leaf Q) ls ts
    /\ t = "TELEMETRY " ++ target ++ " " ++ n ++ " BIG_ENDIAN " ++ DQUOTE ++ text_of cm ++ DQUOTE ++ NL
           ++ String.concat "" ts.

(** The text appended for messages with texts [ts]. *)
Definition text_of_run (ts : list string) : string :=
  "# This file was autogenerated from ASN.1 model." ++ NL ++ String.concat "" (map (fun t => NL ++ t) ts).
