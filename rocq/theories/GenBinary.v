(** * Binary generator: generators/binary/generator.py and
      containers/sequence_specification_container.py *)
From Verif Require Import Base PyNum PyStr Ast Size Processor Bundle Sorter CCommon.
Open Scope string_scope.

(** 70-72 *)
Definition bin_filename (module_name : string) : string := c_name module_name.

(** 35; --endianness is optional and has no default
    (cli/cli_arg_parser.py 146-150). *)
Inductive endianness : Set := LittleEndian | BigEndian.

(** 36-64 ([FORMAT]): the formats of the struct module. *)
Inductive format : Set :=
| F_b | F_h | F_i | F_q          (* signed, 1, 2, 4, 8 bytes *)
| F_B | F_H | F_I | F_Q          (* unsigned *)
| F_f | F_d.                     (* binary32, binary64 *)

Definition FORMAT (c : ctype) (byte_size : Z) : option format :=
  match c with
  | A_DOUBLE => if (byte_size =? 8)%Z then Some F_d else None
  | A_FLOAT => if (byte_size =? 4)%Z then Some F_f else None
  | A_INT =>
      if (byte_size =? 1)%Z then Some F_b
      else if (byte_size =? 2)%Z then Some F_h
      else if (byte_size =? 4)%Z then Some F_i
      else if (byte_size =? 8)%Z then Some F_q else None
  | A_UINT =>
      if (byte_size =? 1)%Z then Some F_B
      else if (byte_size =? 2)%Z then Some F_H
      else if (byte_size =? 4)%Z then Some F_I
      else if (byte_size =? 8)%Z then Some F_Q else None
  | A_BOOL | A_STRING => None
  end.

(** ** struct.pack (Python standard library) on one value *)

(** The [n] low bytes of [z], least significant first. *)
Fixpoint le_bytes (n : nat) (z : Z) : bytes :=
  match n with
  | O => []
  | S n' => (z mod 256)%Z :: le_bytes n' (z / 256)%Z
  end.

Definition order_bytes (e : endianness) (l : bytes) : bytes :=
  match e with LittleEndian => l | BigEndian => rev l end.

(** (signed?, bytes) of the integer formats *)
Definition int_format (f : format) : option (bool * nat) :=
  match f with
  | F_b => Some (true, 1%nat) | F_h => Some (true, 2%nat)
  | F_i => Some (true, 4%nat) | F_q => Some (true, 8%nat)
  | F_B => Some (false, 1%nat) | F_H => Some (false, 2%nat)
  | F_I => Some (false, 4%nat) | F_Q => Some (false, 8%nat)
  | F_f | F_d => None
  end.

Definition int_in_range (sgn : bool) (n : nat) (z : Z) : bool :=
  let w := (8 * Z.of_nat n)%Z in
  if sgn then ((- 2 ^ (w - 1) <=? z) && (z <? 2 ^ (w - 1)))%Z
  else ((0 <=? z) && (z <? 2 ^ w))%Z.

(** Conversion of an int to a double (round half even); None: too large. *)
Definition double_of_Z (z : Z) : option double :=
  if (z =? 0)%Z then Some (DFin false 0 (-1074))
  else
    let a := Z.abs z in
    let e := (Z.log2 a - 52)%Z in
    let m := round_ne a e in
    (* the carry of rounding up *)
    let '(m, e) := if (m =? 2 ^ 53)%Z then (2 ^ 52, e + 1)%Z else (m, e) in
    if (971 <? e)%Z then None
    else Some (DFin (z <? 0)%Z (Z.to_N m) e).

Definition as_double (v : wval) : option double :=
  match v with
  | VFloat f => Some (fval f)
  | VInt z => double_of_Z z
  | VBool b => double_of_Z (if b then 1 else 0)
  | VWith _ => None
  end.

Definition pack (e : endianness) (f : format) (v : wval) : result bytes :=
  match int_format f with
  | Some (sgn, n) =>
      match v with
      | VInt z =>
          if int_in_range sgn n z then Ok (order_bytes e (le_bytes n z)) else Err StructErr
      | VBool b =>
          Ok (order_bytes e (le_bytes n (if b then 1 else 0)%Z))
      | _ => Err StructErr
      end
  | None =>
      match as_double v with
      | None => Err StructErr
      | Some d =>
          match f with
          | F_f => match bits32 d with
                   | Some b => Ok (order_bytes e (le_bytes 4 b))
                   | None => Err OverflowErr
                   end
          | _ => Ok (order_bytes e (le_bytes 8 (bits64 d)))
          end
      end
  end.

(** ** Specifications of the sequences of a module *)

(** sequence_specification_container.py 5-26 *)
Record spec : Set := mkspec
  { sp_ctype : option ctype; sp_bits : Z; sp_type : string }.

(** 189-201: members without clause, with their c_type, size and type name. *)
Fixpoint member_specs (fuel : nat) (defs : list definition) (l : list member)
  : result (list (string * spec)) :=
  match l with
  | [] => Ok []
  | m :: r =>
      match m_with m with
      | Some _ => member_specs fuel defs r
      | None =>
          let* s := member_size fuel defs (m_type m) in
          let* rest := member_specs fuel defs r in
          Ok ((m_key m, mkspec (get_c_type (m_type m)) s (type_name (m_type m))) :: rest)
      end
  end.

(** 181-202 *)
Fixpoint sequence_specs (fuel : nat) (defs : list definition) (l : list definition)
  : result (list (string * list (string * spec))) :=
  match l with
  | [] => Ok []
  | DSequence n _ ms :: r =>
      let* s := member_specs fuel defs ms in
      let* rest := sequence_specs fuel defs r in
      Ok ((n, s) :: rest)
  | _ :: r => sequence_specs fuel defs r
  end.

(** 265-295: the bytes of a leaf. *)
Definition leaf_bytes (e : option endianness) (k : spec) (v : wval) : result (list bytes) :=
  match sp_ctype k with
  | None => Err NotImplementedErr                        (* 267-273 *)
  | Some c =>
      let* byte_size := bit_to_bytes (sp_bits k) in      (* 275 *)
      let* _ := assert (match c with A_BOOL | A_STRING => false | _ => true end)
                       NotImplementedErr in              (* 278-285 *)
      match FORMAT c byte_size with
      | None => Err KeyErr                               (* 290 *)
      | Some f =>
          match e with
          | None => Err KeyErr                           (* 291 *)
          | Some e => let* b := pack e f v in Ok [b]
          end
      end
  end.

(** 238-297 ([_component_to_bytes]) over the components of a clause of a given
    type (228-234, 258-264). *)
Fixpoint clause_bytes (e : option endianness)
         (specs : list (string * list (string * spec)))
         (tname : string) (w : wcomps) : result (list bytes) :=
  match w with
  | WC _ l =>
      (fix go (l : list witem) : result (list bytes) :=
         match l with
         | [] => Ok []
         | WI k v _ :: r =>
             let* bs :=
               match dict_get tname specs with
               | None => Err KeyErr                      (* 250 *)
               | Some d =>
                   match dict_get k d with
                   | None => Err KeyErr                  (* 252-254 *)
                   | Some sp =>
                       match v with
                       | VWith w' => clause_bytes e specs (sp_type sp) w'
                       | _ => leaf_bytes e sp v
                       end
                   end
               end in
             let* rest := go r in
             Ok (bs ++ rest)%list
         end) l
  end.

(** 166-210 ([_with_components_handling]) and 212-236
    ([_values_to_bytes_list]). *)
Definition bin_with_components (fuel : nat) (e : option endianness)
           (defs : list definition) (m : module) (name_c : string) (k : member)
  : result cdata :=
  match m_with k with
  | None => Ok empty_cdata
  | Some w =>
      let* specs := sequence_specs fuel defs (mod_defs m) in
      let* bs := clause_bytes e specs (type_name (m_type k)) w in
      Ok (mkcdata [] [] [] [] [] "" false false "" [(lowerize name_c, bs)])
  end.

(** 128-135 *)
Definition bin_note (n : string) (t : asn_type) : result (option string) :=
  if mem n ["Float"; "Double"] then Ok None
  else Ok (Some (NL ++ "// NOTE: " ++ n ++ " is embedded directly where it is used. "
                 ++ "Rationale: Bitfields cannot be typedef'd.")).

Definition bin_cdata (fuel : nat) (e : option endianness) (b : bundle) (bm : bmodule)
  : result cdata :=
  module_cdata fuel b bm bin_filename bin_note
               (bin_with_components fuel e (all_defs b) (bm_mod bm)).

(** 85-164 *)
Definition bin_module (fuel : nat) (e : option endianness) (b : bundle) (bm : bmodule)
  : result (list file) :=
  let* c := bin_cdata fuel e b bm in
  Ok (print_to_file c (bin_filename (bm_name bm)) STORED_DATA_BINARY).

(** 74-164 *)
Definition generate_binary (fuel : nat) (e : option endianness) (b : bundle) : outcome :=
  generate_modules fuel b (bin_module fuel e b).
