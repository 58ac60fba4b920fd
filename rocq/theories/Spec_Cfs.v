(** * Specification: message IDs and defines of the cfs command *)
From Verif Require Import Base PyNum PyStr Ast CCommon Spec_Text.
Open Scope string_scope.

(** ** CCSDS packet identification *)

(** The number a component stands for. *)
Definition numeric (v : wval) : option Z :=
  match v with
  | VInt z => Some z
  | VBool b => Some (if b then 1 else 0)%Z
  | _ => None
  end.

(** The number given for component [k], 0 if it is omitted. *)
Definition given (k : string) (l : list witem) : Z :=
  match find (fun i => String.eqb (wi_key i) k) l with
  | Some i => match numeric (wi_value i) with Some z => z | None => 0%Z end
  | None => 0%Z
  end.

Record ident : Set := mkident { version : Z; is_cmd : Z; sec_hdr : Z; apid : Z }.

Definition ident_keys : list string :=
  ["packet-version-number"; "packet-type-is-cmd"; "sec-hdr-flag-is-present"; "application-process-identifier"].

Definition identification (l : list witem) : ident :=
  mkident (given "packet-version-number" l) (given "packet-type-is-cmd" l)
          (given "sec-hdr-flag-is-present" l) (given "application-process-identifier" l).

(** The fields have 3, 1, 1 and 11 bits. *)
Definition fits (i : ident) : Prop :=
  (0 <= version i < 2 ^ 3 /\ 0 <= is_cmd i < 2 /\ 0 <= sec_hdr i < 2 /\ 0 <= apid i < 2 ^ 11)%Z.

Definition message_id (i : ident) : Z :=
  (version i * 2 ^ 13 + is_cmd i * 2 ^ 12 + sec_hdr i * 2 ^ 11 + apid i)%Z.

(** The fields of a 16-bit word. *)
Definition fields_of (z : Z) : ident :=
  mkident (z / 2 ^ 13) (z / 2 ^ 12 mod 2) (z / 2 ^ 11 mod 2) (z mod 2 ^ 11).

(** ** Defines *)

(** What a clause asks for, in textual order: a value for a component that is
    not itself constrained further, or a primary header. *)
Inductive entry : Set :=
| EValue (key : string) (v : wval)
| EHeader (w : wcomps).

Fixpoint clause_entries (w : wcomps) : list entry :=
  match w with
  | WC _ l =>
      flat_map
        (fun i => match i with
                  | WI k (VWith w') _ => if String.eqb k "primary" then [EHeader w'] else clause_entries w'
                  | WI k v _ => [EValue k v]
                  end) l
  end.

(** The entries of the clauses of a sequence, each with the sequence's name. *)
Definition member_entries (k : member) : list entry :=
  match m_with k with Some w => clause_entries w | None => [] end.
Definition def_entries (d : definition) : list (string * entry) :=
  match d with
  | DSequence n _ l => map (pair n) (flat_map member_entries l)
  | _ => []
  end.

(** A primary header clause that consists of one packet identification. *)
Definition header_of (w : wcomps) (items : list witem) : Prop :=
  exists c1 c2 c3, w = WC c1 [WI "packet-identification" (VWith (WC c2 items)) c3].

(** [s] is the text of value [v]. *)
Definition shows (v : wval) (s : string) : Prop :=
  match v with
  | VInt z => decimal z s
  | VBool b => s = if b then "true" else "false"
  | VFloat f => s = frepr f
  | VWith _ => False
  end.

(** The position of the last bit of a field. *)
Definition shift_of (k : string) : Z :=
  if String.eqb k "packet-version-number" then 13 else if String.eqb k "packet-type-is-cmd" then 12
  else if String.eqb k "sec-hdr-flag-is-present" then 11 else 0%Z.

(** The number for a primary header, whatever its clause says: the bits of the
    numbers given for the fields, each put in place. *)
Definition header_number (w : wcomps) (z : Z) : Prop :=
  forall i, (0 <= i)%Z -> (Z.testbit z i = true <->
    exists k w' c j n, In (WI k (VWith w') c) (wc_items w) /\ In j (wc_items w') /\ numeric (wi_value j) = Some n
      /\ Z.testbit n (i - shift_of (wi_key j)) = true).

(** The name of a define for entry [e] of sequence [n] ends in *)
Definition entry_key (e : entry) : string :=
  match e with EValue k _ => k | EHeader _ => "mid" end.

(** [d] is the define for entry [e] of the sequence [n]. *)
Definition defines (n : string) (e : entry) (d : cdefine) : Prop :=
  df_name d = upper (c_name n) ++ "_" ++ upper (c_name (entry_key e))
  /\ match e with
     | EValue _ v => df_newline d = true /\ exists s, df_value d = "(" ++ s ++ ")" /\ shows v s
     | EHeader w => df_newline d = false /\ exists s, df_value d = "(0x" ++ s ++ ")"
         /\ (exists z, header_number w z /\ hexadecimal 4 z s)
         /\ forall items, header_of w items -> NoDup (map wi_key items) -> fits (identification items) ->
              String.length s = 4%nat /\ read_hex s = Some (message_id (identification items))
     end.

(** A primary header the generator can encode. *)
Definition encodable (e : entry) : Prop :=
  match e with
  | EValue _ _ => True
  | EHeader w => forall i, In i (wc_items w) -> wi_key i = "packet-identification"
      /\ exists w', wi_value i = VWith w'
         /\ forall j, In j (wc_items w') -> In (wi_key j) ident_keys /\ numeric (wi_value j) <> None
  end.

(** The text of a define. *)
Definition define_line (d : cdefine) : string :=
  "#define " ++ df_name d ++ " " ++ df_value d ++ NL ++ (if df_newline d then NL else "").
