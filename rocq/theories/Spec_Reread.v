(** * Specification: what telemetry files say, whatever the clauses say

    As in Spec_Telemetry, but with the values of Spec_History. *)
From Verif Require Import Base PyNum PyStr Ast Size GenCosmos Spec_Num Spec_Check Spec_Size Spec_Cosmos Spec_Telemetry Spec_History.
Open Scope string_scope.

(** The role of a leaf that is given value [v]. *)
Definition role_given (v : option wval) (lf : leaf) (r : role) : Prop :=
  match m_type (lf_member lf), lf_kind lf, v with
  | TArray _ _, A_BOOL, _ => r = Array 0
  | TArray n _, _, _ => r = Array (n * lf_bits lf)
  | _, A_BOOL, Some (VBool true) =>
      r = Id (if String.eqb (m_key (lf_member lf)) "application-process-identifier" then "0" else "1")
  | _, A_BOOL, _ => r = Id "0"
  | _, _, None => r = Value
  | _, _, Some v =>
      if String.eqb (m_key (lf_member lf)) "application-process-identifier"
      then exists z, (v = VInt z \/ (v = VBool true /\ z = 1%Z) \/ (v = VBool false /\ z = 0%Z))
             /\ r = Id ("0x" ++ format_X 2 z)
      else r = Id (plain_text v)
  end.

Record item_given (v : option wval) (lf : leaf) (t : titem) : Prop :=
  { ig_name : t_name t = m_key (lf_member lf);
    ig_role : role_given v lf (t_role t);
    ig_bits : t_bits t = lf_bits lf;
    ig_type : t_type t = kind_name (lf_kind lf);
    ig_comment : t_comment t = text_of (m_comment (lf_member lf));
    ig_little : t_little t = little_of (m_comment (lf_member lf));
    ig_states : t_states t = numbered 0 (lf_states lf);
    ig_limits : limits_of (lf_values lf) (t_limits t);
    ig_unit : t_unit t = match unit_of (m_comment (lf_member lf)) with "" => None | u => Some u end }.

(** The packet of message [n] with occurrences [os]. *)
Definition packet_given (m : module) (target : string) (hs : list (list witem)) (n : string) (os : list occurrence) (p : tpacket) : Prop :=
  exists cm l, In (DSequence n cm l) (mod_defs m)
    /\ p_target p = target /\ p_name p = n /\ p_comment p = text_of cm
    /\ Forall2 (fun o t => exists lf, oc_leaf o = Some lf /\ item_given (value_of hs o) lf t) (filter is_leaf os) (p_items p).

Inductive packets_given (m : module) (target : string) (hs : list (list witem))
  : list string -> list (list occurrence) -> list tpacket -> Prop :=
| pg_nil : packets_given m target hs [] [] []
| pg_cons : forall n r os oss p ps, packet_given m target hs n os p ->
    packets_given m target hs r oss ps -> packets_given m target hs (n :: r) (os :: oss) (p :: ps).

(** Comments without quotes and backslashes, and no clause for a leaf. *)
Definition readable (m : module) (msgs : list string) (hs : list (list witem)) (os : list occurrence) : Prop :=
  (forall n cm l, In n msgs -> In (DSequence n cm l) (mod_defs m) -> quiet cm)
  /\ forall o, In o os -> is_leaf o = true ->
     quiet (m_comment (oc_member o)) /\ forall w, value_of hs o <> Some (VWith w).

(** Leaves whose item is valid if they are given value [v]. *)
Definition valid_given (v : option wval) (lf : leaf) : Prop :=
  (0 < lf_bits lf)%Z
  /\ ((lf_kind lf = A_UINT \/ lf_kind lf = A_INT) -> (lf_bits lf <= 64)%Z)
  /\ match m_type (lf_member lf) with
     | TArray n _ => lf_kind lf <> A_BOOL /\ (0 < n)%Z
     | _ =>
         match lf_kind lf, v with
         | A_UINT, Some (VInt z) => (0 <= z < 2 ^ lf_bits lf)%Z
         | A_INT, Some (VInt z) =>
             (- 2 ^ (lf_bits lf - 1) <= z < 2 ^ (lf_bits lf - 1))%Z
             /\ (m_key (lf_member lf) = "application-process-identifier" -> (0 <= z)%Z)
         | (A_UINT | A_INT), Some (VBool b) => m_key (lf_member lf) = "application-process-identifier"
         | (A_UINT | A_INT), Some (VFloat f) => valid_id (lf_bits lf) (kind_name (lf_kind lf)) (frepr f)
         | _, _ => True
         end
     end.
Definition valid_occurrence (hs : list (list witem)) (o : occurrence) : Prop :=
  forall lf, oc_leaf o = Some lf -> valid_given (value_of hs o) lf.
