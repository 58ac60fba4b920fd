(** * Specification: reading a COSMOS telemetry file

    Lines are split into words as COSMOS does: words are separated by spaces,
    a quoted text is one word, a backslash in it takes the next character with
    it.  Lines that start with # are comments. *)
From Verif Require Import Base PyNum PyStr Ast Size GenCosmos Main Spec_Num Spec_Check Spec_Bundle Spec_Size Spec_Text Spec_Cosmos.
Open Scope string_scope.

(** ** Words *)

Inductive piece : Set := Bare (w : string) | Quote (s : string).

Inductive reading : Set := Between | InBare (w : string) | InQuote (s : string) | Escaped (s : string).

(** None: the line ends within quotes. *)
Fixpoint pieces_of (m : reading) (s : string) : option (list piece) :=
  match s, m with
  | "", Between => Some []
  | "", InBare w => Some [Bare w]
  | "", _ => None
  | String c r, Between =>
      if Ascii.eqb c " " then pieces_of Between r
      else if Ascii.eqb c DQ then pieces_of (InQuote "") r
      else pieces_of (InBare (String c "")) r
  | String c r, InBare w =>
      if Ascii.eqb c " " then option_map (cons (Bare w)) (pieces_of Between r)
      else pieces_of (InBare (w ++ String c "")) r
  | String c r, InQuote q =>
      if Ascii.eqb c DQ then option_map (cons (Quote q)) (pieces_of Between r)
      else if Ascii.eqb c "\" then pieces_of (Escaped (q ++ String c "")) r
      else pieces_of (InQuote (q ++ String c "")) r
  | String c r, Escaped q => pieces_of (InQuote (q ++ String c "")) r
  end.

(** ** Lines *)

(** An item carries a value in every packet, an identification or an array. *)
Inductive role : Set := Value | Id (v : string) | Array (bits : Z).

Record titem : Set := mktitem
  { t_role : role;
    t_name : string;
    t_bits : Z;
    t_type : string;
    t_comment : string;
    t_little : bool;
    t_states : list (string * Z);
    t_limits : option (string * string * string * string);
    t_unit : option string }.

Inductive tline : Set :=
| LPacket (target name comment : string)
| LItem (r : role) (name : string) (bits : Z) (type comment : string) (little : bool)
| LState (name : string) (v : Z)
| LLimits (red_low yellow_low yellow_high red_high : string)
| LUnit (u : string).

Definition endian (l : list piece) : option bool :=
  match l with
  | [] => Some false
  | [Bare "LITTLE_ENDIAN"] => Some true
  | _ => None
  end.

Definition read_tline (l : list piece) : option tline :=
  match l with
  | [Bare "TELEMETRY"; Bare t; Bare n; Bare "BIG_ENDIAN"; Quote c] => Some (LPacket t n c)
  | Bare "APPEND_ITEM" :: Bare n :: Bare b :: Bare t :: Quote c :: e =>
      match read_int b, endian e with
      | Some b, Some e => Some (LItem Value n b t c e)
      | _, _ => None
      end
  | Bare "APPEND_ID_ITEM" :: Bare n :: Bare b :: Bare t :: Bare v :: Quote c :: e =>
      match read_int b, endian e with
      | Some b, Some e => Some (LItem (Id v) n b t c e)
      | _, _ => None
      end
  | Bare "APPEND_ARRAY_ITEM" :: Bare n :: Bare b :: Bare t :: Bare v :: Quote c :: e =>
      match read_int b, read_int v, endian e with
      | Some b, Some v, Some e => Some (LItem (Array v) n b t c e)
      | _, _, _ => None
      end
  | [Bare "STATE"; Bare n; Bare v] => option_map (LState n) (read_int v)
  | [Bare "LIMITS"; Bare "DEFAULT"; Bare "5"; Bare "ENABLED"; Bare a; Bare b; Bare c; Bare d] => Some (LLimits a b c d)
  | [Bare "UNITS"; Bare u; Bare u'] => if String.eqb u u' then Some (LUnit u) else None
  | _ => None
  end.

(** The lines of a text, without empty ones and comments.  What follows the
    last end of line is a line, too. *)
Fixpoint lines_from (cur : string) (s : string) : list string :=
  match s with
  | "" => [cur]
  | String c r => if Ascii.eqb c LF then cur :: lines_from "" r else lines_from (cur ++ String c "") r
  end.
Definition speaks (s : string) : bool := match s with "" | String "#" _ => false | _ => true end.
Definition text_lines (s : string) : list string := filter speaks (lines_from "" s).

(** ** Packets *)

Record tpacket : Set := mktpacket
  { p_target : string; p_name : string; p_comment : string; p_items : list titem }.

(** What has been read from the end: lines that belong to the item before,
    items that belong to the packet before, packets. *)
Record rest : Set := mkrest
  { r_states : list (string * Z);
    r_limits : option (string * string * string * string);
    r_unit : option string;
    r_items : list titem;
    r_packets : list tpacket }.

Definition put (l : tline) (r : rest) : option rest :=
  match l, r with
  | LState n v, mkrest ss li u is ps => Some (mkrest ((n, v) :: ss) li u is ps)
  | LLimits a b c d, mkrest ss None u is ps => Some (mkrest ss (Some (a, b, c, d)) u is ps)
  | LUnit u, mkrest ss li None is ps => Some (mkrest ss li (Some u) is ps)
  | LItem ro n b t c e, mkrest ss li u is ps => Some (mkrest [] None None (mktitem ro n b t c e ss li u :: is) ps)
  | LPacket t n c, mkrest [] None None is ps => Some (mkrest [] None None [] (mktpacket t n c is :: ps))
  | _, _ => None
  end.

Fixpoint assemble (ls : list string) : option rest :=
  match ls with
  | [] => Some (mkrest [] None None [] [])
  | l :: r =>
      match assemble r, pieces_of Between l with
      | Some r, Some ps => match read_tline ps with Some t => put t r | None => None end
      | _, _ => None
      end
  end.

(** The packets of a file. *)
Definition read_telemetry (s : string) : option (list tpacket) :=
  match assemble (text_lines s) with
  | Some (mkrest [] None None [] ps) => Some ps
  | _ => None
  end.

(** A text that is empty or ends with the end of a line. *)
Definition ended (s : string) : Prop := s = "" \/ exists r, s = r ++ NL.

(** ** What packets say about leaves *)

Fixpoint numbered (i : Z) (l : list string) : list (string * Z) :=
  match l with [] => [] | s :: r => (s, i) :: numbered (i + 1) r end.

(** An array shows the number of its bits, except that an array of BOOLEAN
    shows 0.  BOOLEAN items are always identifications: 1 if fixed to TRUE, 0
    otherwise.  The APID is shown in hexadecimal. *)
Definition role_of (lf : leaf) (r : role) : Prop :=
  match m_type (lf_member lf), lf_kind lf, fixed_values lf with
  | TArray _ _, A_BOOL, _ => r = Array 0
  | TArray n _, _, _ => r = Array (n * lf_bits lf)
  | _, A_BOOL, VBool true :: _ =>
      r = Id (if String.eqb (m_key (lf_member lf)) "application-process-identifier" then "0" else "1")
  | _, A_BOOL, _ => r = Id "0"
  | _, _, [] => r = Value
  | _, _, v :: _ =>
      if String.eqb (m_key (lf_member lf)) "application-process-identifier"
      then exists z, (v = VInt z \/ (v = VBool true /\ z = 1%Z) \/ (v = VBool false /\ z = 0%Z))
             /\ r = Id ("0x" ++ format_X 2 z)
      else r = Id (plain_text v)
  end.

Definition limits_of (u : asn_type) (l : option (string * string * string * string)) : Prop :=
  match u with
  | TReal (Some (b, e)) =>
      (full_range u -> l = None)
      /\ (~ full_range u -> l = Some (frepr b, frepr b, frepr e, frepr e))
  | _ => l = None
  end.

Record item_of (lf : leaf) (t : titem) : Prop :=
  { io_name : t_name t = m_key (lf_member lf);
    io_role : role_of lf (t_role t);
    io_bits : t_bits t = lf_bits lf;
    io_type : t_type t = kind_name (lf_kind lf);
    io_comment : t_comment t = text_of (m_comment (lf_member lf));
    io_little : t_little t = little_of (m_comment (lf_member lf));
    io_states : t_states t = numbered 0 (lf_states lf);
    io_limits : limits_of (lf_values lf) (t_limits t);
    io_unit : t_unit t = match unit_of (m_comment (lf_member lf)) with "" => None | u => Some u end }.

(** [p] is the packet of message [n] of module [m] at position [i]. *)
Definition packet_of (ms : list module) (i : nat) (m : module) (target n : string) (p : tpacket) : Prop :=
  exists cm l ls, In (DSequence n cm l) (mod_defs m) /\ packet_leaves ms i [] l ls
    /\ p_target p = target /\ p_name p = n /\ p_comment p = text_of cm
    /\ Forall2 item_of ls (p_items p).

(** ** Messages that can be read back *)

(** A comment without quotes and backslashes. *)
Definition quiet (c : option comment) : Prop := ~ has_char DQ (text_of c) /\ ~ has_char "\" (text_of c).

Definition quiet_messages (ms : list module) (i : nat) (m : module) (msgs : list string) : Prop :=
  forall n cm l ls, In n msgs -> In (DSequence n cm l) (mod_defs m) -> packet_leaves ms i [] l ls ->
  quiet cm /\ Forall (fun lf => quiet (m_comment (lf_member lf))) ls.

(** ** When packets are valid *)

(** COSMOS does not distinguish small and capital letters in names. *)
Definition distinct_items (p : tpacket) : Prop := NoDup (map (fun t => upper (t_name t)) (p_items p)).
Definition distinct_keys (ls : list leaf) : Prop := NoDup (map (fun lf => m_key (lf_member lf)) ls).

(** An integer, decimal or hexadecimal. *)
Definition read_number (s : string) : option Z :=
  match s with
  | String "0" (String "x" r) => read_hex r
  | _ => read_int s
  end.

(** An identification is one of the values of the item. *)
Definition valid_id (bits : Z) (type v : string) : Prop :=
  match type with
  | "UINT" => exists z, read_number v = Some z /\ (0 <= z < 2 ^ bits)%Z
  | "INT" => exists z, read_number v = Some z /\ (- 2 ^ (bits - 1) <= z < 2 ^ (bits - 1))%Z
  | _ => True
  end.

(** Widths COSMOS accepts; an array consists of one or more elements. *)
Definition valid_item (t : titem) : Prop :=
  (0 < t_bits t)%Z
  /\ match t_type t with
     | "FLOAT" => t_bits t = 32%Z \/ t_bits t = 64%Z
     | "STRING" => (t_bits t mod 8 = 0)%Z
     | _ => (t_bits t <= 64)%Z
     end
  /\ match t_role t with
     | Value => True
     | Id v => valid_id (t_bits t) (t_type t) v
     | Array n => (0 < n /\ n mod t_bits t = 0)%Z
     end.

(** Leaves with a valid item.  (Python never prints a float as an integer.) *)
Definition valid_leaf (lf : leaf) : Prop :=
  (0 < lf_bits lf)%Z
  /\ ((lf_kind lf = A_UINT \/ lf_kind lf = A_INT) -> (lf_bits lf <= 64)%Z)
  /\ match m_type (lf_member lf) with
     | TArray n _ => lf_kind lf <> A_BOOL /\ (0 < n)%Z
     | _ =>
         match lf_kind lf, fixed_values lf with
         | A_UINT, VInt z :: _ => (0 <= z < 2 ^ lf_bits lf)%Z
         | A_INT, VInt z :: _ =>
             (- 2 ^ (lf_bits lf - 1) <= z < 2 ^ (lf_bits lf - 1))%Z
             /\ (m_key (lf_member lf) = "application-process-identifier" -> (0 <= z)%Z)
         | (A_UINT | A_INT), VBool b :: _ => m_key (lf_member lf) = "application-process-identifier"
         | (A_UINT | A_INT), VFloat f :: _ => valid_id (lf_bits lf) (kind_name (lf_kind lf)) (frepr f)
         | _, _ => True
         end
     end.
