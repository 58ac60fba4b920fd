(** * Specification: telling the packets of messages apart

    What the message ID of the cFS header and the identification items of the
    COSMOS packet say about the first 16 bits of a packet. *)
From Verif Require Import Base PyNum PyStr Ast Size GenCosmos Spec_Text Spec_Cfs Spec_Cosmos Spec_Telemetry.
Open Scope Z_scope.

(** ** Packets *)

(** A packet is a list of bits, the most significant one first. *)
Definition bits_value (bs : list bool) : Z :=
  fold_left (fun z (b : bool) => 2 * z + if b then 1 else 0) bs 0.

(** Items are appended to each other: each one takes the bits after the one
    before it.  The packet is taken for one of these items if the bits of
    every identification have its value.  For unsigned big-endian items. *)
Fixpoint identified (its : list titem) (bs : list bool) : Prop :=
  match its with
  | [] => True
  | t :: r =>
      let w := Z.to_nat (match t_role t with Array n => n | _ => t_bits t end) in
      match t_role t with Id v => read_number v = Some (bits_value (firstn w bs)) | _ => True end
      /\ identified r (skipn w bs)
  end.

(** An unsigned big-endian item. *)
Definition unsigned_item (t : titem) : Prop := t_type t = "UINT"%string /\ t_little t = false.

(** ** Headers *)

(** The clause contains the primary header [items], below components [xs]. *)
Inductive header_at : wcomps -> list string -> list witem -> Prop :=
| header_here : forall c l h c' items,
    In (WI "primary" (VWith h) c') l -> header_of h items -> header_at (WC c l) [] items
| header_below : forall c l x w c' xs items,
    In (WI x (VWith w) c') l -> x <> "primary"%string -> header_at w xs items -> header_at (WC c l) (x :: xs) items.

(** A leaf for one of the fields of the packet identification: a BOOLEAN or an
    unsigned big-endian integer of [bits] bits.  A clause gives the former a
    BOOLEAN and the latter an integer. *)
Definition field_leaf (path : list member) (key : string) (bits : Z) (lf : leaf) : Prop :=
  lf_path lf = path /\ m_key (lf_member lf) = key /\ lf_bits lf = bits
  /\ is_array (m_type (lf_member lf)) = false /\ little_of (m_comment (lf_member lf)) = false
  /\ (lf_kind lf = A_UINT \/ lf_kind lf = A_BOOL)
  /\ forall v, In v (fixed_values lf) ->
       match v with
       | VBool _ => lf_kind lf = A_BOOL
       | VInt _ => lf_kind lf = A_UINT
       | _ => False
       end.

(** The leaves of a message start with the packet identification, at member
    [k] and below the components [xs]. *)
Definition header_leaves (k : member) (xs : list string) (ls : list leaf) : Prop :=
  exists q rest a b c d, ls = a :: b :: c :: d :: rest
    /\ map m_key q = (xs ++ ["primary"; "packet-identification"])%list
    /\ field_leaf (k :: q) "packet-version-number" 3 a
    /\ field_leaf (k :: q) "packet-type-is-cmd" 1 b
    /\ field_leaf (k :: q) "sec-hdr-flag-is-present" 1 c
    /\ field_leaf (k :: q) "application-process-identifier" 11 d.

(** Every integer among the fields is given. *)
Definition all_given (items : list witem) (ls : list leaf) : Prop :=
  Forall (fun lf => lf_kind lf = A_UINT -> In (m_key (lf_member lf)) (map wi_key items)) (firstn 4 ls).

(** The packet [p] of the COSMOS file and the message ID agree: it contains
    identifications that fit a header with the message ID, and, if all fields
    are given, only that one. *)
Definition recognises (p : tpacket) (id : Z) (complete : Prop) : Prop :=
  exists its rest, p_items p = (its ++ rest)%list /\ length its = 4%nat /\ Forall unsigned_item its
    /\ forall bs, length bs = 16%nat ->
         (bits_value bs = id -> identified its bs)
         /\ (complete -> identified its bs -> bits_value bs = id).
